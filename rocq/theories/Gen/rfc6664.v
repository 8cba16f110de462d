(** pyasn1_modules/rfc6664.py, printed by tools/py2coq.py.  Every statement is
    preceded by its line number in that file. *)
From Verif Require Import Py.Syntax.
From Coq Require Import List String ZArith NArith.
Import ListNotations.
Open Scope string_scope.
Open Scope Z_scope.

Definition src : module := [
  (15%N, SFrom "pyasn1.type" [("constraint", "constraint")]);
  (16%N, SFrom "pyasn1.type" [("namedtype", "namedtype")]);
  (17%N, SFrom "pyasn1.type" [("tag", "tag")]);
  (18%N, SFrom "pyasn1.type" [("univ", "univ")]);
  (20%N, SFrom "pyasn1_modules" [("rfc5280", "rfc5280")]);
  (21%N, SFrom "pyasn1_modules" [("rfc5751", "rfc5751")]);
  (22%N, SFrom "pyasn1_modules" [("rfc5480", "rfc5480")]);
  (23%N, SFrom "pyasn1_modules" [("rfc4055", "rfc4055")]);
  (24%N, SFrom "pyasn1_modules" [("rfc3279", "rfc3279")]);
  (26%N, set "MAX" (call (EName "float") [EStr "inf"]));
  (31%N, set "AlgorithmIdentifier" (qual "rfc5280" "AlgorithmIdentifier"));
  (36%N, set "dhpublicnumber" (qual "rfc3279" "dhpublicnumber"));
  (38%N, set "Dss_Parms" (qual "rfc3279" "Dss_Parms"));
  (40%N, set "id_dsa" (qual "rfc3279" "id_dsa"));
  (42%N, set "id_ecPublicKey" (qual "rfc3279" "id_ecPublicKey"));
  (44%N, set "rsaEncryption" (qual "rfc3279" "rsaEncryption"));
  (49%N, set "id_mgf1" (qual "rfc4055" "id_mgf1"));
  (51%N, set "id_RSAES_OAEP" (qual "rfc4055" "id_RSAES_OAEP"));
  (53%N, set "id_RSASSA_PSS" (qual "rfc4055" "id_RSASSA_PSS"));
  (58%N, set "ECParameters" (qual "rfc5480" "ECParameters"));
  (60%N, set "id_ecDH" (qual "rfc5480" "id_ecDH"));
  (62%N, set "id_ecMQV" (qual "rfc5480" "id_ecMQV"));
  (67%N, SClass "RSAKeySize" (univ "Integer") [SPass]);
  (73%N, SClass "RSAKeyCapabilities" (univ "Sequence") [set "componentType" (nts [nt "minKeySize" (new "RSAKeySize"); ont "maxKeySize" (new "RSAKeySize")])]);
  (80%N, SClass "RsaSsa_Pss_sig_caps" (univ "Sequence") [set "componentType" (nts [nt "hashAlg" (new "AlgorithmIdentifier"); ont "maskAlg" (new "AlgorithmIdentifier"); dnt "trailerField" (withvalue (call0 (univ "Integer")) (EInt 1))])]);
  (90%N, SClass "DSAKeySize" (univ "Integer") [set "subtypeSpec" (call (qual "constraint" "SingleValueConstraint") [EInt 1024; EInt 2048; EInt 3072; EInt 7680; EInt 15360])]);
  (94%N, SClass "DSAKeyCapabilities" (univ "Choice") [set "componentType" (nts [nt "keySizes" (explicit (ECall (univ "Sequence") [] [("componentType", nts [nt "minKeySize" (new "DSAKeySize"); ont "maxKeySize" (new "DSAKeySize"); ont "maxSizeP" (explicit (call0 (univ "Integer")) (ctxS 1)); ont "maxSizeQ" (explicit (call0 (univ "Integer")) (ctxS 2)); ont "maxSizeG" (explicit (call0 (univ "Integer")) (ctxS 3))])]) (ctxC 0)); nt "keyParams" (explicit (new "Dss_Parms") (ctxC 1))])]);
  (119%N, SClass "EC_SMimeCaps" (univ "SequenceOf") [set "componentType" (new "ECParameters"); set "subtypeSpec" (sizec (EInt 1) (EName "MAX"))]);
  (134%N, set "_smimeCapabilityMapUpdate" (EDict [(EName "rsaEncryption", new "RSAKeyCapabilities"); (EName "id_RSASSA_PSS", new "RSAKeyCapabilities"); (EName "id_RSAES_OAEP", new "RSAKeyCapabilities"); (EName "id_dsa", new "DSAKeyCapabilities"); (EName "dhpublicnumber", new "DSAKeyCapabilities"); (EName "id_ecPublicKey", new "EC_SMimeCaps"); (EName "id_ecDH", new "EC_SMimeCaps"); (EName "id_ecMQV", new "EC_SMimeCaps"); (EName "id_mgf1", new "AlgorithmIdentifier")]));
  (147%N, SExpr (call (EAttr (qual "rfc5751" "smimeCapabilityMap") "update") [EName "_smimeCapabilityMapUpdate"]))
].
