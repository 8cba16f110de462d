(** pyasn1_modules/rfc8018.py, printed by tools/py2coq.py.  Every statement is
    preceded by its line number in that file. *)
From Verif Require Import Py.Syntax.
From Coq Require Import List String ZArith NArith.
Import ListNotations.
Open Scope string_scope.
Open Scope Z_scope.

Definition src : module := [
  (15%N, SFrom "pyasn1.type" [("constraint", "constraint")]);
  (16%N, SFrom "pyasn1.type" [("namedtype", "namedtype")]);
  (17%N, SFrom "pyasn1.type" [("namedval", "namedval")]);
  (18%N, SFrom "pyasn1.type" [("univ", "univ")]);
  (20%N, SFrom "pyasn1_modules" [("rfc3565", "rfc3565")]);
  (21%N, SFrom "pyasn1_modules" [("rfc5280", "rfc5280")]);
  (23%N, set "MAX" (call (EName "float") [EStr "inf"]));
  (25%N, SDef "_OID" [] (Some "components") [set "output" (EList []); SFor "x" (call (EName "tuple") [EName "components"]) [SIf (call (EName "isinstance") [EName "x"; univ "ObjectIdentifier"]) [SExpr (call (qual "output" "extend") [call (EName "list") [EName "x"]])] [SExpr (call (qual "output" "append") [call (EName "int") [EName "x"]])]]; SReturn (call (univ "ObjectIdentifier") [EName "output"])]);
  (38%N, set "AES_IV" (qual "rfc3565" "AES_IV"));
  (43%N, set "AlgorithmIdentifier" (qual "rfc5280" "AlgorithmIdentifier"));
  (48%N, set "nistAlgorithms" (call (EName "_OID") [EInt 2; EInt 16; EInt 840; EInt 1; EInt 101; EInt 3; EInt 4]));
  (50%N, set "aes" (call (EName "_OID") [EName "nistAlgorithms"; EInt 1]));
  (52%N, set "oiw" (call (EName "_OID") [EInt 1; EInt 3; EInt 14]));
  (54%N, set "rsadsi" (call (EName "_OID") [EInt 1; EInt 2; EInt 840; EInt 113549]));
  (56%N, set "pkcs" (call (EName "_OID") [EName "rsadsi"; EInt 1]));
  (58%N, set "digestAlgorithm" (call (EName "_OID") [EName "rsadsi"; EInt 2]));
  (60%N, set "encryptionAlgorithm" (call (EName "_OID") [EName "rsadsi"; EInt 3]));
  (62%N, set "pkcs_5" (call (EName "_OID") [EName "pkcs"; EInt 5]));
  (68%N, set "id_hmacWithSHA1" (call (EName "_OID") [EName "digestAlgorithm"; EInt 7]));
  (70%N, set "id_hmacWithSHA224" (call (EName "_OID") [EName "digestAlgorithm"; EInt 8]));
  (72%N, set "id_hmacWithSHA256" (call (EName "_OID") [EName "digestAlgorithm"; EInt 9]));
  (74%N, set "id_hmacWithSHA384" (call (EName "_OID") [EName "digestAlgorithm"; EInt 10]));
  (76%N, set "id_hmacWithSHA512" (call (EName "_OID") [EName "digestAlgorithm"; EInt 11]));
  (78%N, set "id_hmacWithSHA512_224" (call (EName "_OID") [EName "digestAlgorithm"; EInt 12]));
  (80%N, set "id_hmacWithSHA512_256" (call (EName "_OID") [EName "digestAlgorithm"; EInt 13]));
  (85%N, set "pbeWithMD2AndDES_CBC" (call (EName "_OID") [EName "pkcs_5"; EInt 1]));
  (87%N, set "pbeWithMD2AndRC2_CBC" (call (EName "_OID") [EName "pkcs_5"; EInt 4]));
  (89%N, set "pbeWithMD5AndDES_CBC" (call (EName "_OID") [EName "pkcs_5"; EInt 3]));
  (91%N, set "pbeWithMD5AndRC2_CBC" (call (EName "_OID") [EName "pkcs_5"; EInt 6]));
  (93%N, set "pbeWithSHA1AndDES_CBC" (call (EName "_OID") [EName "pkcs_5"; EInt 10]));
  (95%N, set "pbeWithSHA1AndRC2_CBC" (call (EName "_OID") [EName "pkcs_5"; EInt 11]));
  (100%N, set "desCBC" (call (EName "_OID") [EName "oiw"; EInt 3; EInt 2; EInt 7]));
  (102%N, set "des_EDE3_CBC" (call (EName "_OID") [EName "encryptionAlgorithm"; EInt 7]));
  (104%N, set "rc2CBC" (call (EName "_OID") [EName "encryptionAlgorithm"; EInt 2]));
  (106%N, set "rc5_CBC_PAD" (call (EName "_OID") [EName "encryptionAlgorithm"; EInt 9]));
  (108%N, set "aes128_CBC_PAD" (call (EName "_OID") [EName "aes"; EInt 2]));
  (110%N, set "aes192_CBC_PAD" (call (EName "_OID") [EName "aes"; EInt 22]));
  (112%N, set "aes256_CBC_PAD" (call (EName "_OID") [EName "aes"; EInt 42]));
  (117%N, SClass "PBEParameter" (univ "Sequence") [SPass]);
  (120%N, seta "PBEParameter" "componentType" (nts [nt "salt" (withspec (call0 (univ "OctetString")) (sizec (EInt 8) (EInt 8))); nt "iterationCount" (call0 (univ "Integer"))]));
  (129%N, set "id_PBES2" (call (EName "_OID") [EName "pkcs_5"; EInt 13]));
  (132%N, SClass "PBES2_params" (univ "Sequence") [SPass]);
  (135%N, seta "PBES2_params" "componentType" (nts [nt "keyDerivationFunc" (new "AlgorithmIdentifier"); nt "encryptionScheme" (new "AlgorithmIdentifier")]));
  (143%N, set "id_PBMAC1" (call (EName "_OID") [EName "pkcs_5"; EInt 14]));
  (146%N, SClass "PBMAC1_params" (univ "Sequence") [SPass]);
  (149%N, seta "PBMAC1_params" "componentType" (nts [nt "keyDerivationFunc" (new "AlgorithmIdentifier"); nt "messageAuthScheme" (new "AlgorithmIdentifier")]));
  (157%N, set "id_PBKDF2" (call (EName "_OID") [EName "pkcs_5"; EInt 12]));
  (160%N, set "algid_hmacWithSHA1" (new "AlgorithmIdentifier"));
  (161%N, SAssign [ESub (EName "algid_hmacWithSHA1") (EStr "algorithm")] (EName "id_hmacWithSHA1"));
  (162%N, SAssign [ESub (EName "algid_hmacWithSHA1") (EStr "parameters")] (call (univ "Null") [EStr ""]));
  (165%N, SClass "PBKDF2_params" (univ "Sequence") [SPass]);
  (168%N, seta "PBKDF2_params" "componentType" (nts [nt "salt" (ECall (univ "Choice") [] [("componentType", nts [nt "specified" (call0 (univ "OctetString")); nt "otherSource" (new "AlgorithmIdentifier")])]); nt "iterationCount" (withspec (call0 (univ "Integer")) (rangec (EInt 1) (EName "MAX"))); ont "keyLength" (withspec (call0 (univ "Integer")) (rangec (EInt 1) (EName "MAX"))); dnt "prf" (EName "algid_hmacWithSHA1")]));
  (183%N, SClass "RC2_CBC_Parameter" (univ "Sequence") [SPass]);
  (186%N, seta "RC2_CBC_Parameter" "componentType" (nts [ont "rc2ParameterVersion" (call0 (univ "Integer")); nt "iv" (withspec (call0 (univ "OctetString")) (sizec (EInt 8) (EInt 8)))]));
  (195%N, SClass "RC5_CBC_Parameters" (univ "Sequence") [SPass]);
  (198%N, seta "RC5_CBC_Parameters" "componentType" (nts [nt "version" (withspec (ECall (univ "Integer") [] [("namedValues", nvs [nv "v1_0" 16])]) (call (qual "constraint" "SingleValueConstraint") [EInt 16])); nt "rounds" (withspec (call0 (univ "Integer")) (rangec (EInt 8) (EInt 127))); nt "blockSizeInBits" (withspec (call0 (univ "Integer")) (call (qual "constraint" "SingleValueConstraint") [EInt 64; EInt 128])); ont "iv" (call0 (univ "OctetString"))]));
  (212%N, SClass "AES_IV" (univ "OctetString") [SPass]);
  (215%N, seta "AES_IV" "subtypeSpec" (sizec (EInt 16) (EInt 16)));
  (220%N, SClass "DES_IV" (univ "OctetString") [SPass]);
  (223%N, seta "DES_IV" "subtypeSpec" (sizec (EInt 8) (EInt 8)));
  (228%N, set "_algorithmIdentifierMapUpdate" (EDict [(EName "id_hmacWithSHA1", call0 (univ "Null")); (EName "id_hmacWithSHA224", call0 (univ "Null")); (EName "id_hmacWithSHA256", call0 (univ "Null")); (EName "id_hmacWithSHA384", call0 (univ "Null")); (EName "id_hmacWithSHA512", call0 (univ "Null")); (EName "id_hmacWithSHA512_224", call0 (univ "Null")); (EName "id_hmacWithSHA512_256", call0 (univ "Null")); (EName "pbeWithMD2AndDES_CBC", new "PBEParameter"); (EName "pbeWithMD2AndRC2_CBC", new "PBEParameter"); (EName "pbeWithMD5AndDES_CBC", new "PBEParameter"); (EName "pbeWithMD5AndRC2_CBC", new "PBEParameter"); (EName "pbeWithSHA1AndDES_CBC", new "PBEParameter"); (EName "pbeWithSHA1AndRC2_CBC", new "PBEParameter"); (EName "id_PBES2", new "PBES2_params"); (EName "id_PBKDF2", new "PBKDF2_params"); (EName "id_PBMAC1", new "PBMAC1_params"); (EName "desCBC", new "DES_IV"); (EName "des_EDE3_CBC", new "DES_IV"); (EName "rc2CBC", new "RC2_CBC_Parameter"); (EName "rc5_CBC_PAD", new "RC5_CBC_Parameters"); (EName "aes128_CBC_PAD", new "AES_IV"); (EName "aes192_CBC_PAD", new "AES_IV"); (EName "aes256_CBC_PAD", new "AES_IV")]));
  (260%N, SExpr (call (EAttr (qual "rfc5280" "algorithmIdentifierMap") "update") [EName "_algorithmIdentifierMapUpdate"]))
].
