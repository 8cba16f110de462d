(** pyasn1_modules/rfc5990.py, printed by tools/py2coq.py.  Every statement is
    preceded by its line number in that file. *)
From Verif Require Import Py.Syntax.
From Coq Require Import List String ZArith NArith.
Import ListNotations.
Open Scope string_scope.
Open Scope Z_scope.

Definition src : module := [
  (15%N, SFrom "pyasn1.type" [("constraint", "constraint")]);
  (16%N, SFrom "pyasn1.type" [("namedtype", "namedtype")]);
  (17%N, SFrom "pyasn1.type" [("univ", "univ")]);
  (19%N, SFrom "pyasn1_modules" [("rfc5280", "rfc5280")]);
  (21%N, set "MAX" (call (EName "float") [EStr "inf"]));
  (23%N, SDef "_OID" [] (Some "components") [set "output" (EList []); SFor "x" (call (EName "tuple") [EName "components"]) [SIf (call (EName "isinstance") [EName "x"; univ "ObjectIdentifier"]) [SExpr (call (qual "output" "extend") [call (EName "list") [EName "x"]])] [SExpr (call (qual "output" "append") [call (EName "int") [EName "x"]])]]; SReturn (call (univ "ObjectIdentifier") [EName "output"])]);
  (35%N, set "AlgorithmIdentifier" (qual "rfc5280" "AlgorithmIdentifier"));
  (40%N, SClass "NullParms" (univ "Null") [SPass]);
  (46%N, set "is18033_2" (call (EName "_OID") [EInt 1; EInt 0; EInt 18033; EInt 2]));
  (48%N, set "nistAlgorithm" (call (EName "_OID") [EInt 2; EInt 16; EInt 840; EInt 1; EInt 101; EInt 3; EInt 4]));
  (50%N, set "pkcs_1" (call (EName "_OID") [EInt 1; EInt 2; EInt 840; EInt 113549; EInt 1; EInt 1]));
  (52%N, set "x9_44" (call (EName "_OID") [EInt 1; EInt 3; EInt 133; EInt 16; EInt 840; EInt 9; EInt 44]));
  (54%N, set "x9_44_components" (call (EName "_OID") [EName "x9_44"; EInt 1]));
  (59%N, SClass "Camellia_KeyWrappingScheme" (EName "AlgorithmIdentifier") [SPass]);
  (62%N, SClass "DataEncapsulationMechanism" (EName "AlgorithmIdentifier") [SPass]);
  (65%N, SClass "KDF2_HashFunction" (EName "AlgorithmIdentifier") [SPass]);
  (68%N, SClass "KDF3_HashFunction" (EName "AlgorithmIdentifier") [SPass]);
  (71%N, SClass "KeyDerivationFunction" (EName "AlgorithmIdentifier") [SPass]);
  (74%N, SClass "KeyEncapsulationMechanism" (EName "AlgorithmIdentifier") [SPass]);
  (77%N, SClass "X9_SymmetricKeyWrappingScheme" (EName "AlgorithmIdentifier") [SPass]);
  (83%N, set "id_rsa_kem" (call (EName "_OID") [EInt 1; EInt 2; EInt 840; EInt 113549; EInt 1; EInt 9; EInt 16; EInt 3; EInt 14]));
  (86%N, SClass "GenericHybridParameters" (univ "Sequence") [SPass]);
  (89%N, seta "GenericHybridParameters" "componentType" (nts [nt "kem" (new "KeyEncapsulationMechanism"); nt "dem" (new "DataEncapsulationMechanism")]));
  (95%N, set "rsa_kem" (new "AlgorithmIdentifier"));
  (96%N, SAssign [ESub (EName "rsa_kem") (EStr "algorithm")] (EName "id_rsa_kem"));
  (97%N, SAssign [ESub (EName "rsa_kem") (EStr "parameters")] (new "GenericHybridParameters"));
  (102%N, set "id_kem_rsa" (call (EName "_OID") [EName "is18033_2"; EInt 2; EInt 4]));
  (105%N, SClass "KeyLength" (univ "Integer") [SPass]);
  (108%N, seta "KeyLength" "subtypeSpec" (rangec (EInt 1) (EName "MAX")));
  (111%N, SClass "RsaKemParameters" (univ "Sequence") [SPass]);
  (114%N, seta "RsaKemParameters" "componentType" (nts [nt "keyDerivationFunction" (new "KeyDerivationFunction"); nt "keyLength" (new "KeyLength")]));
  (120%N, set "kem_rsa" (new "AlgorithmIdentifier"));
  (121%N, SAssign [ESub (EName "kem_rsa") (EStr "algorithm")] (EName "id_kem_rsa"));
  (122%N, SAssign [ESub (EName "kem_rsa") (EStr "parameters")] (new "RsaKemParameters"));
  (127%N, set "id_kdf_kdf2" (call (EName "_OID") [EName "x9_44_components"; EInt 1]));
  (129%N, set "id_kdf_kdf3" (call (EName "_OID") [EName "x9_44_components"; EInt 2]));
  (132%N, set "kdf2" (new "AlgorithmIdentifier"));
  (133%N, SAssign [ESub (EName "kdf2") (EStr "algorithm")] (EName "id_kdf_kdf2"));
  (134%N, SAssign [ESub (EName "kdf2") (EStr "parameters")] (new "KDF2_HashFunction"));
  (136%N, set "kdf3" (new "AlgorithmIdentifier"));
  (137%N, SAssign [ESub (EName "kdf3") (EStr "algorithm")] (EName "id_kdf_kdf3"));
  (138%N, SAssign [ESub (EName "kdf3") (EStr "parameters")] (new "KDF3_HashFunction"));
  (143%N, set "id_sha1" (call (EName "_OID") [EInt 1; EInt 3; EInt 14; EInt 3; EInt 2; EInt 26]));
  (145%N, set "id_sha224" (call (EName "_OID") [EInt 2; EInt 16; EInt 840; EInt 1; EInt 101; EInt 3; EInt 4; EInt 2; EInt 4]));
  (147%N, set "id_sha256" (call (EName "_OID") [EInt 2; EInt 16; EInt 840; EInt 1; EInt 101; EInt 3; EInt 4; EInt 2; EInt 1]));
  (149%N, set "id_sha384" (call (EName "_OID") [EInt 2; EInt 16; EInt 840; EInt 1; EInt 101; EInt 3; EInt 4; EInt 2; EInt 2]));
  (151%N, set "id_sha512" (call (EName "_OID") [EInt 2; EInt 16; EInt 840; EInt 1; EInt 101; EInt 3; EInt 4; EInt 2; EInt 3]));
  (154%N, set "sha1" (new "AlgorithmIdentifier"));
  (155%N, SAssign [ESub (EName "sha1") (EStr "algorithm")] (EName "id_sha1"));
  (156%N, SAssign [ESub (EName "sha1") (EStr "parameters")] (call (univ "Null") [EStr ""]));
  (158%N, set "sha224" (new "AlgorithmIdentifier"));
  (159%N, SAssign [ESub (EName "sha224") (EStr "algorithm")] (EName "id_sha224"));
  (160%N, SAssign [ESub (EName "sha224") (EStr "parameters")] (call (univ "Null") [EStr ""]));
  (162%N, set "sha256" (new "AlgorithmIdentifier"));
  (163%N, SAssign [ESub (EName "sha256") (EStr "algorithm")] (EName "id_sha256"));
  (164%N, SAssign [ESub (EName "sha256") (EStr "parameters")] (call (univ "Null") [EStr ""]));
  (166%N, set "sha384" (new "AlgorithmIdentifier"));
  (167%N, SAssign [ESub (EName "sha384") (EStr "algorithm")] (EName "id_sha384"));
  (168%N, SAssign [ESub (EName "sha384") (EStr "parameters")] (call (univ "Null") [EStr ""]));
  (170%N, set "sha512" (new "AlgorithmIdentifier"));
  (171%N, SAssign [ESub (EName "sha512") (EStr "algorithm")] (EName "id_sha512"));
  (172%N, SAssign [ESub (EName "sha512") (EStr "parameters")] (call (univ "Null") [EStr ""]));
  (177%N, set "id_aes128_Wrap" (call (EName "_OID") [EName "nistAlgorithm"; EInt 1; EInt 5]));
  (179%N, set "id_aes192_Wrap" (call (EName "_OID") [EName "nistAlgorithm"; EInt 1; EInt 25]));
  (181%N, set "id_aes256_Wrap" (call (EName "_OID") [EName "nistAlgorithm"; EInt 1; EInt 45]));
  (183%N, set "id_alg_CMS3DESwrap" (call (EName "_OID") [EInt 1; EInt 2; EInt 840; EInt 113549; EInt 1; EInt 9; EInt 16; EInt 3; EInt 6]));
  (185%N, set "id_camellia128_Wrap" (call (EName "_OID") [EInt 1; EInt 2; EInt 392; EInt 200011; EInt 61; EInt 1; EInt 1; EInt 3; EInt 2]));
  (187%N, set "id_camellia192_Wrap" (call (EName "_OID") [EInt 1; EInt 2; EInt 392; EInt 200011; EInt 61; EInt 1; EInt 1; EInt 3; EInt 3]));
  (189%N, set "id_camellia256_Wrap" (call (EName "_OID") [EInt 1; EInt 2; EInt 392; EInt 200011; EInt 61; EInt 1; EInt 1; EInt 3; EInt 4]));
  (192%N, set "aes128_Wrap" (new "AlgorithmIdentifier"));
  (193%N, SAssign [ESub (EName "aes128_Wrap") (EStr "algorithm")] (EName "id_aes128_Wrap"));
  (196%N, set "aes192_Wrap" (new "AlgorithmIdentifier"));
  (197%N, SAssign [ESub (EName "aes192_Wrap") (EStr "algorithm")] (EName "id_aes128_Wrap"));
  (200%N, set "aes256_Wrap" (new "AlgorithmIdentifier"));
  (201%N, SAssign [ESub (EName "aes256_Wrap") (EStr "algorithm")] (EName "id_sha256"));
  (204%N, set "tdes_Wrap" (new "AlgorithmIdentifier"));
  (205%N, SAssign [ESub (EName "tdes_Wrap") (EStr "algorithm")] (EName "id_alg_CMS3DESwrap"));
  (206%N, SAssign [ESub (EName "tdes_Wrap") (EStr "parameters")] (call (univ "Null") [EStr ""]));
  (208%N, set "camellia128_Wrap" (new "AlgorithmIdentifier"));
  (209%N, SAssign [ESub (EName "camellia128_Wrap") (EStr "algorithm")] (EName "id_camellia128_Wrap"));
  (212%N, set "camellia192_Wrap" (new "AlgorithmIdentifier"));
  (213%N, SAssign [ESub (EName "camellia192_Wrap") (EStr "algorithm")] (EName "id_camellia192_Wrap"));
  (216%N, set "camellia256_Wrap" (new "AlgorithmIdentifier"));
  (217%N, SAssign [ESub (EName "camellia256_Wrap") (EStr "algorithm")] (EName "id_camellia256_Wrap"));
  (224%N, set "_algorithmIdentifierMapUpdate" (EDict [(EName "id_rsa_kem", new "GenericHybridParameters"); (EName "id_kem_rsa", new "RsaKemParameters"); (EName "id_kdf_kdf2", new "KDF2_HashFunction"); (EName "id_kdf_kdf3", new "KDF3_HashFunction"); (EName "id_sha1", call0 (univ "Null")); (EName "id_sha224", call0 (univ "Null")); (EName "id_sha256", call0 (univ "Null")); (EName "id_sha384", call0 (univ "Null")); (EName "id_sha512", call0 (univ "Null")); (EName "id_alg_CMS3DESwrap", call0 (univ "Null"))]));
  (237%N, SExpr (call (EAttr (qual "rfc5280" "algorithmIdentifierMap") "update") [EName "_algorithmIdentifierMapUpdate"]))
].
