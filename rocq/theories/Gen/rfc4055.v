(** pyasn1_modules/rfc4055.py, printed by tools/py2coq.py.  Every statement is
    preceded by its line number in that file. *)
From Verif Require Import Py.Syntax.
From Coq Require Import List String ZArith NArith.
Import ListNotations.
Open Scope string_scope.
Open Scope Z_scope.

Definition src : module := [
  (17%N, SFrom "pyasn1.type" [("namedtype", "namedtype")]);
  (18%N, SFrom "pyasn1.type" [("tag", "tag")]);
  (19%N, SFrom "pyasn1.type" [("univ", "univ")]);
  (21%N, SFrom "pyasn1_modules" [("rfc5280", "rfc5280")]);
  (24%N, SDef "_OID" [] (Some "components") [set "output" (EList []); SFor "x" (call (EName "tuple") [EName "components"]) [SIf (call (EName "isinstance") [EName "x"; univ "ObjectIdentifier"]) [SExpr (call (qual "output" "extend") [call (EName "list") [EName "x"]])] [SExpr (call (qual "output" "append") [call (EName "int") [EName "x"]])]]; SReturn (call (univ "ObjectIdentifier") [EName "output"])]);
  (34%N, set "id_sha1" (call (EName "_OID") [EInt 1; EInt 3; EInt 14; EInt 3; EInt 2; EInt 26]));
  (36%N, set "id_sha256" (call (EName "_OID") [EInt 2; EInt 16; EInt 840; EInt 1; EInt 101; EInt 3; EInt 4; EInt 2; EInt 1]));
  (38%N, set "id_sha384" (call (EName "_OID") [EInt 2; EInt 16; EInt 840; EInt 1; EInt 101; EInt 3; EInt 4; EInt 2; EInt 2]));
  (40%N, set "id_sha512" (call (EName "_OID") [EInt 2; EInt 16; EInt 840; EInt 1; EInt 101; EInt 3; EInt 4; EInt 2; EInt 3]));
  (42%N, set "id_sha224" (call (EName "_OID") [EInt 2; EInt 16; EInt 840; EInt 1; EInt 101; EInt 3; EInt 4; EInt 2; EInt 4]));
  (44%N, set "rsaEncryption" (call (EName "_OID") [EInt 1; EInt 2; EInt 840; EInt 113549; EInt 1; EInt 1; EInt 1]));
  (46%N, set "id_mgf1" (call (EName "_OID") [EInt 1; EInt 2; EInt 840; EInt 113549; EInt 1; EInt 1; EInt 8]));
  (48%N, set "id_RSAES_OAEP" (call (EName "_OID") [EInt 1; EInt 2; EInt 840; EInt 113549; EInt 1; EInt 1; EInt 7]));
  (50%N, set "id_pSpecified" (call (EName "_OID") [EInt 1; EInt 2; EInt 840; EInt 113549; EInt 1; EInt 1; EInt 9]));
  (52%N, set "id_RSASSA_PSS" (call (EName "_OID") [EInt 1; EInt 2; EInt 840; EInt 113549; EInt 1; EInt 1; EInt 10]));
  (54%N, set "sha256WithRSAEncryption" (call (EName "_OID") [EInt 1; EInt 2; EInt 840; EInt 113549; EInt 1; EInt 1; EInt 11]));
  (56%N, set "sha384WithRSAEncryption" (call (EName "_OID") [EInt 1; EInt 2; EInt 840; EInt 113549; EInt 1; EInt 1; EInt 12]));
  (58%N, set "sha512WithRSAEncryption" (call (EName "_OID") [EInt 1; EInt 2; EInt 840; EInt 113549; EInt 1; EInt 1; EInt 13]));
  (60%N, set "sha224WithRSAEncryption" (call (EName "_OID") [EInt 1; EInt 2; EInt 840; EInt 113549; EInt 1; EInt 1; EInt 14]));
  (62%N, set "sha1Identifier" (call0 (qual "rfc5280" "AlgorithmIdentifier")));
  (63%N, SAssign [ESub (EName "sha1Identifier") (EStr "algorithm")] (EName "id_sha1"));
  (64%N, SAssign [ESub (EName "sha1Identifier") (EStr "parameters")] (call (univ "Null") [EStr ""]));
  (66%N, set "sha224Identifier" (call0 (qual "rfc5280" "AlgorithmIdentifier")));
  (67%N, SAssign [ESub (EName "sha224Identifier") (EStr "algorithm")] (EName "id_sha224"));
  (68%N, SAssign [ESub (EName "sha224Identifier") (EStr "parameters")] (call (univ "Null") [EStr ""]));
  (70%N, set "sha256Identifier" (call0 (qual "rfc5280" "AlgorithmIdentifier")));
  (71%N, SAssign [ESub (EName "sha256Identifier") (EStr "algorithm")] (EName "id_sha256"));
  (72%N, SAssign [ESub (EName "sha256Identifier") (EStr "parameters")] (call (univ "Null") [EStr ""]));
  (74%N, set "sha384Identifier" (call0 (qual "rfc5280" "AlgorithmIdentifier")));
  (75%N, SAssign [ESub (EName "sha384Identifier") (EStr "algorithm")] (EName "id_sha384"));
  (76%N, SAssign [ESub (EName "sha384Identifier") (EStr "parameters")] (call (univ "Null") [EStr ""]));
  (78%N, set "sha512Identifier" (call0 (qual "rfc5280" "AlgorithmIdentifier")));
  (79%N, SAssign [ESub (EName "sha512Identifier") (EStr "algorithm")] (EName "id_sha512"));
  (80%N, SAssign [ESub (EName "sha512Identifier") (EStr "parameters")] (call (univ "Null") [EStr ""]));
  (82%N, set "mgf1SHA1Identifier" (call0 (qual "rfc5280" "AlgorithmIdentifier")));
  (83%N, SAssign [ESub (EName "mgf1SHA1Identifier") (EStr "algorithm")] (EName "id_mgf1"));
  (84%N, SAssign [ESub (EName "mgf1SHA1Identifier") (EStr "parameters")] (EName "sha1Identifier"));
  (86%N, set "mgf1SHA224Identifier" (call0 (qual "rfc5280" "AlgorithmIdentifier")));
  (87%N, SAssign [ESub (EName "mgf1SHA224Identifier") (EStr "algorithm")] (EName "id_mgf1"));
  (88%N, SAssign [ESub (EName "mgf1SHA224Identifier") (EStr "parameters")] (EName "sha224Identifier"));
  (90%N, set "mgf1SHA256Identifier" (call0 (qual "rfc5280" "AlgorithmIdentifier")));
  (91%N, SAssign [ESub (EName "mgf1SHA256Identifier") (EStr "algorithm")] (EName "id_mgf1"));
  (92%N, SAssign [ESub (EName "mgf1SHA256Identifier") (EStr "parameters")] (EName "sha256Identifier"));
  (94%N, set "mgf1SHA384Identifier" (call0 (qual "rfc5280" "AlgorithmIdentifier")));
  (95%N, SAssign [ESub (EName "mgf1SHA384Identifier") (EStr "algorithm")] (EName "id_mgf1"));
  (96%N, SAssign [ESub (EName "mgf1SHA384Identifier") (EStr "parameters")] (EName "sha384Identifier"));
  (98%N, set "mgf1SHA512Identifier" (call0 (qual "rfc5280" "AlgorithmIdentifier")));
  (99%N, SAssign [ESub (EName "mgf1SHA512Identifier") (EStr "algorithm")] (EName "id_mgf1"));
  (100%N, SAssign [ESub (EName "mgf1SHA512Identifier") (EStr "parameters")] (EName "sha512Identifier"));
  (102%N, set "pSpecifiedEmptyIdentifier" (call0 (qual "rfc5280" "AlgorithmIdentifier")));
  (103%N, SAssign [ESub (EName "pSpecifiedEmptyIdentifier") (EStr "algorithm")] (EName "id_pSpecified"));
  (104%N, SAssign [ESub (EName "pSpecifiedEmptyIdentifier") (EStr "parameters")] (ECall (univ "OctetString") [] [("value", EStr "")]));
  (107%N, SClass "RSAPublicKey" (univ "Sequence") [SPass]);
  (110%N, seta "RSAPublicKey" "componentType" (nts [nt "modulus" (call0 (univ "Integer")); nt "publicExponent" (call0 (univ "Integer"))]));
  (116%N, SClass "HashAlgorithm" (qual "rfc5280" "AlgorithmIdentifier") [SPass]);
  (120%N, SClass "MaskGenAlgorithm" (qual "rfc5280" "AlgorithmIdentifier") [SPass]);
  (124%N, SClass "RSAES_OAEP_params" (univ "Sequence") [SPass]);
  (127%N, seta "RSAES_OAEP_params" "componentType" (nts [ont "hashFunc" (explicit (call0 (qual "rfc5280" "AlgorithmIdentifier")) (ctxC 0)); ont "maskGenFunc" (explicit (call0 (qual "rfc5280" "AlgorithmIdentifier")) (ctxC 1)); ont "pSourceFunc" (explicit (call0 (qual "rfc5280" "AlgorithmIdentifier")) (ctxC 2))]));
  (136%N, set "rSAES_OAEP_Default_Params" (new "RSAES_OAEP_params"));
  (138%N, set "rSAES_OAEP_Default_Identifier" (call0 (qual "rfc5280" "AlgorithmIdentifier")));
  (139%N, SAssign [ESub (EName "rSAES_OAEP_Default_Identifier") (EStr "algorithm")] (EName "id_RSAES_OAEP"));
  (140%N, SAssign [ESub (EName "rSAES_OAEP_Default_Identifier") (EStr "parameters")] (EName "rSAES_OAEP_Default_Params"));
  (142%N, set "rSAES_OAEP_SHA224_Params" (new "RSAES_OAEP_params"));
  (143%N, SAssign [ESub (EName "rSAES_OAEP_SHA224_Params") (EStr "hashFunc")] (ECall (qual "sha224Identifier" "subtype") [] [("explicitTag", ctxC 0); ("cloneValueFlag", EBool true)]));
  (145%N, SAssign [ESub (EName "rSAES_OAEP_SHA224_Params") (EStr "maskGenFunc")] (ECall (qual "mgf1SHA224Identifier" "subtype") [] [("explicitTag", ctxC 1); ("cloneValueFlag", EBool true)]));
  (148%N, set "rSAES_OAEP_SHA224_Identifier" (call0 (qual "rfc5280" "AlgorithmIdentifier")));
  (149%N, SAssign [ESub (EName "rSAES_OAEP_SHA224_Identifier") (EStr "algorithm")] (EName "id_RSAES_OAEP"));
  (150%N, SAssign [ESub (EName "rSAES_OAEP_SHA224_Identifier") (EStr "parameters")] (EName "rSAES_OAEP_SHA224_Params"));
  (152%N, set "rSAES_OAEP_SHA256_Params" (new "RSAES_OAEP_params"));
  (153%N, SAssign [ESub (EName "rSAES_OAEP_SHA256_Params") (EStr "hashFunc")] (ECall (qual "sha256Identifier" "subtype") [] [("explicitTag", ctxC 0); ("cloneValueFlag", EBool true)]));
  (155%N, SAssign [ESub (EName "rSAES_OAEP_SHA256_Params") (EStr "maskGenFunc")] (ECall (qual "mgf1SHA256Identifier" "subtype") [] [("explicitTag", ctxC 1); ("cloneValueFlag", EBool true)]));
  (158%N, set "rSAES_OAEP_SHA256_Identifier" (call0 (qual "rfc5280" "AlgorithmIdentifier")));
  (159%N, SAssign [ESub (EName "rSAES_OAEP_SHA256_Identifier") (EStr "algorithm")] (EName "id_RSAES_OAEP"));
  (160%N, SAssign [ESub (EName "rSAES_OAEP_SHA256_Identifier") (EStr "parameters")] (EName "rSAES_OAEP_SHA256_Params"));
  (162%N, set "rSAES_OAEP_SHA384_Params" (new "RSAES_OAEP_params"));
  (163%N, SAssign [ESub (EName "rSAES_OAEP_SHA384_Params") (EStr "hashFunc")] (ECall (qual "sha384Identifier" "subtype") [] [("explicitTag", ctxC 0); ("cloneValueFlag", EBool true)]));
  (165%N, SAssign [ESub (EName "rSAES_OAEP_SHA384_Params") (EStr "maskGenFunc")] (ECall (qual "mgf1SHA384Identifier" "subtype") [] [("explicitTag", ctxC 1); ("cloneValueFlag", EBool true)]));
  (168%N, set "rSAES_OAEP_SHA384_Identifier" (call0 (qual "rfc5280" "AlgorithmIdentifier")));
  (169%N, SAssign [ESub (EName "rSAES_OAEP_SHA384_Identifier") (EStr "algorithm")] (EName "id_RSAES_OAEP"));
  (170%N, SAssign [ESub (EName "rSAES_OAEP_SHA384_Identifier") (EStr "parameters")] (EName "rSAES_OAEP_SHA384_Params"));
  (172%N, set "rSAES_OAEP_SHA512_Params" (new "RSAES_OAEP_params"));
  (173%N, SAssign [ESub (EName "rSAES_OAEP_SHA512_Params") (EStr "hashFunc")] (ECall (qual "sha512Identifier" "subtype") [] [("explicitTag", ctxC 0); ("cloneValueFlag", EBool true)]));
  (175%N, SAssign [ESub (EName "rSAES_OAEP_SHA512_Params") (EStr "maskGenFunc")] (ECall (qual "mgf1SHA512Identifier" "subtype") [] [("explicitTag", ctxC 1); ("cloneValueFlag", EBool true)]));
  (178%N, set "rSAES_OAEP_SHA512_Identifier" (call0 (qual "rfc5280" "AlgorithmIdentifier")));
  (179%N, SAssign [ESub (EName "rSAES_OAEP_SHA512_Identifier") (EStr "algorithm")] (EName "id_RSAES_OAEP"));
  (180%N, SAssign [ESub (EName "rSAES_OAEP_SHA512_Identifier") (EStr "parameters")] (EName "rSAES_OAEP_SHA512_Params"));
  (183%N, SClass "RSASSA_PSS_params" (univ "Sequence") [SPass]);
  (186%N, seta "RSASSA_PSS_params" "componentType" (nts [ont "hashAlgorithm" (explicit (call0 (qual "rfc5280" "AlgorithmIdentifier")) (ctxC 0)); ont "maskGenAlgorithm" (explicit (call0 (qual "rfc5280" "AlgorithmIdentifier")) (ctxC 1)); dnt "saltLength" (explicit (ECall (univ "Integer") [] [("value", EInt 20)]) (ctxS 2)); dnt "trailerField" (explicit (ECall (univ "Integer") [] [("value", EInt 1)]) (ctxS 3))]));
  (197%N, set "rSASSA_PSS_Default_Params" (new "RSASSA_PSS_params"));
  (199%N, set "rSASSA_PSS_Default_Identifier" (call0 (qual "rfc5280" "AlgorithmIdentifier")));
  (200%N, SAssign [ESub (EName "rSASSA_PSS_Default_Identifier") (EStr "algorithm")] (EName "id_RSASSA_PSS"));
  (201%N, SAssign [ESub (EName "rSASSA_PSS_Default_Identifier") (EStr "parameters")] (EName "rSASSA_PSS_Default_Params"));
  (203%N, set "rSASSA_PSS_SHA224_Params" (new "RSASSA_PSS_params"));
  (204%N, SAssign [ESub (EName "rSASSA_PSS_SHA224_Params") (EStr "hashAlgorithm")] (ECall (qual "sha224Identifier" "subtype") [] [("explicitTag", ctxC 0); ("cloneValueFlag", EBool true)]));
  (206%N, SAssign [ESub (EName "rSASSA_PSS_SHA224_Params") (EStr "maskGenAlgorithm")] (ECall (qual "mgf1SHA224Identifier" "subtype") [] [("explicitTag", ctxC 1); ("cloneValueFlag", EBool true)]));
  (209%N, set "rSASSA_PSS_SHA224_Identifier" (call0 (qual "rfc5280" "AlgorithmIdentifier")));
  (210%N, SAssign [ESub (EName "rSASSA_PSS_SHA224_Identifier") (EStr "algorithm")] (EName "id_RSASSA_PSS"));
  (211%N, SAssign [ESub (EName "rSASSA_PSS_SHA224_Identifier") (EStr "parameters")] (EName "rSASSA_PSS_SHA224_Params"));
  (213%N, set "rSASSA_PSS_SHA256_Params" (new "RSASSA_PSS_params"));
  (214%N, SAssign [ESub (EName "rSASSA_PSS_SHA256_Params") (EStr "hashAlgorithm")] (ECall (qual "sha256Identifier" "subtype") [] [("explicitTag", ctxC 0); ("cloneValueFlag", EBool true)]));
  (216%N, SAssign [ESub (EName "rSASSA_PSS_SHA256_Params") (EStr "maskGenAlgorithm")] (ECall (qual "mgf1SHA256Identifier" "subtype") [] [("explicitTag", ctxC 1); ("cloneValueFlag", EBool true)]));
  (219%N, set "rSASSA_PSS_SHA256_Identifier" (call0 (qual "rfc5280" "AlgorithmIdentifier")));
  (220%N, SAssign [ESub (EName "rSASSA_PSS_SHA256_Identifier") (EStr "algorithm")] (EName "id_RSASSA_PSS"));
  (221%N, SAssign [ESub (EName "rSASSA_PSS_SHA256_Identifier") (EStr "parameters")] (EName "rSASSA_PSS_SHA256_Params"));
  (223%N, set "rSASSA_PSS_SHA384_Params" (new "RSASSA_PSS_params"));
  (224%N, SAssign [ESub (EName "rSASSA_PSS_SHA384_Params") (EStr "hashAlgorithm")] (ECall (qual "sha384Identifier" "subtype") [] [("explicitTag", ctxC 0); ("cloneValueFlag", EBool true)]));
  (226%N, SAssign [ESub (EName "rSASSA_PSS_SHA384_Params") (EStr "maskGenAlgorithm")] (ECall (qual "mgf1SHA384Identifier" "subtype") [] [("explicitTag", ctxC 1); ("cloneValueFlag", EBool true)]));
  (229%N, set "rSASSA_PSS_SHA384_Identifier" (call0 (qual "rfc5280" "AlgorithmIdentifier")));
  (230%N, SAssign [ESub (EName "rSASSA_PSS_SHA384_Identifier") (EStr "algorithm")] (EName "id_RSASSA_PSS"));
  (231%N, SAssign [ESub (EName "rSASSA_PSS_SHA384_Identifier") (EStr "parameters")] (EName "rSASSA_PSS_SHA384_Params"));
  (233%N, set "rSASSA_PSS_SHA512_Params" (new "RSASSA_PSS_params"));
  (234%N, SAssign [ESub (EName "rSASSA_PSS_SHA512_Params") (EStr "hashAlgorithm")] (ECall (qual "sha512Identifier" "subtype") [] [("explicitTag", ctxC 0); ("cloneValueFlag", EBool true)]));
  (236%N, SAssign [ESub (EName "rSASSA_PSS_SHA512_Params") (EStr "maskGenAlgorithm")] (ECall (qual "mgf1SHA512Identifier" "subtype") [] [("explicitTag", ctxC 1); ("cloneValueFlag", EBool true)]));
  (239%N, set "rSASSA_PSS_SHA512_Identifier" (call0 (qual "rfc5280" "AlgorithmIdentifier")));
  (240%N, SAssign [ESub (EName "rSASSA_PSS_SHA512_Identifier") (EStr "algorithm")] (EName "id_RSASSA_PSS"));
  (241%N, SAssign [ESub (EName "rSASSA_PSS_SHA512_Identifier") (EStr "parameters")] (EName "rSASSA_PSS_SHA512_Params"));
  (246%N, set "_algorithmIdentifierMapUpdate" (EDict [(EName "id_sha1", call0 (univ "Null")); (EName "id_sha224", call0 (univ "Null")); (EName "id_sha256", call0 (univ "Null")); (EName "id_sha384", call0 (univ "Null")); (EName "id_sha512", call0 (univ "Null")); (EName "id_mgf1", call0 (qual "rfc5280" "AlgorithmIdentifier")); (EName "id_pSpecified", call0 (univ "OctetString")); (EName "id_RSAES_OAEP", new "RSAES_OAEP_params"); (EName "id_RSASSA_PSS", new "RSASSA_PSS_params")]));
  (258%N, SExpr (call (EAttr (qual "rfc5280" "algorithmIdentifierMap") "update") [EName "_algorithmIdentifierMapUpdate"]))
].
