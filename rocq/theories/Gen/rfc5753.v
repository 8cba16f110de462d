(** pyasn1_modules/rfc5753.py, printed by tools/py2coq.py.  Every statement is
    preceded by its line number in that file. *)
From Verif Require Import Py.Syntax.
From Coq Require Import List String ZArith NArith.
Import ListNotations.
Open Scope string_scope.
Open Scope Z_scope.

Definition src : module := [
  (15%N, SFrom "pyasn1.type" [("univ", "univ"); ("char", "char"); ("namedtype", "namedtype"); ("namedval", "namedval"); ("tag", "tag"); ("constraint", "constraint"); ("useful", "useful")]);
  (17%N, SFrom "pyasn1_modules" [("rfc5280", "rfc5280")]);
  (18%N, SFrom "pyasn1_modules" [("rfc5480", "rfc5480")]);
  (19%N, SFrom "pyasn1_modules" [("rfc5652", "rfc5652")]);
  (20%N, SFrom "pyasn1_modules" [("rfc5751", "rfc5751")]);
  (21%N, SFrom "pyasn1_modules" [("rfc8018", "rfc8018")]);
  (26%N, set "AlgorithmIdentifier" (qual "rfc5280" "AlgorithmIdentifier"));
  (31%N, set "OriginatorPublicKey" (qual "rfc5652" "OriginatorPublicKey"));
  (33%N, set "UserKeyingMaterial" (qual "rfc5652" "UserKeyingMaterial"));
  (38%N, set "ECDSA_Sig_Value" (qual "rfc5480" "ECDSA_Sig_Value"));
  (40%N, set "ECParameters" (qual "rfc5480" "ECParameters"));
  (42%N, set "ECPoint" (qual "rfc5480" "ECPoint"));
  (44%N, set "id_ecPublicKey" (qual "rfc5480" "id_ecPublicKey"));
  (49%N, set "id_hmacWithSHA224" (qual "rfc8018" "id_hmacWithSHA224"));
  (51%N, set "id_hmacWithSHA256" (qual "rfc8018" "id_hmacWithSHA256"));
  (53%N, set "id_hmacWithSHA384" (qual "rfc8018" "id_hmacWithSHA384"));
  (55%N, set "id_hmacWithSHA512" (qual "rfc8018" "id_hmacWithSHA512"));
  (60%N, set "x9_63_scheme" (call (univ "ObjectIdentifier") [EStr "1.3.133.16.840.63.0"]));
  (62%N, set "secg_scheme" (call (univ "ObjectIdentifier") [EStr "1.3.132.1"]));
  (67%N, set "dhSinglePass_cofactorDH_sha1kdf_scheme" (EBin OAdd (EName "x9_63_scheme") (ETuple [EInt 3])));
  (69%N, set "dhSinglePass_cofactorDH_sha224kdf_scheme" (EBin OAdd (EName "secg_scheme") (ETuple [EInt 14; EInt 0])));
  (71%N, set "dhSinglePass_cofactorDH_sha256kdf_scheme" (EBin OAdd (EName "secg_scheme") (ETuple [EInt 14; EInt 1])));
  (73%N, set "dhSinglePass_cofactorDH_sha384kdf_scheme" (EBin OAdd (EName "secg_scheme") (ETuple [EInt 14; EInt 2])));
  (75%N, set "dhSinglePass_cofactorDH_sha512kdf_scheme" (EBin OAdd (EName "secg_scheme") (ETuple [EInt 14; EInt 3])));
  (77%N, set "dhSinglePass_stdDH_sha1kdf_scheme" (EBin OAdd (EName "x9_63_scheme") (ETuple [EInt 2])));
  (79%N, set "dhSinglePass_stdDH_sha224kdf_scheme" (EBin OAdd (EName "secg_scheme") (ETuple [EInt 11; EInt 0])));
  (81%N, set "dhSinglePass_stdDH_sha256kdf_scheme" (EBin OAdd (EName "secg_scheme") (ETuple [EInt 11; EInt 1])));
  (83%N, set "dhSinglePass_stdDH_sha384kdf_scheme" (EBin OAdd (EName "secg_scheme") (ETuple [EInt 11; EInt 2])));
  (85%N, set "dhSinglePass_stdDH_sha512kdf_scheme" (EBin OAdd (EName "secg_scheme") (ETuple [EInt 11; EInt 3])));
  (87%N, set "mqvSinglePass_sha1kdf_scheme" (EBin OAdd (EName "x9_63_scheme") (ETuple [EInt 16])));
  (89%N, set "mqvSinglePass_sha224kdf_scheme" (EBin OAdd (EName "secg_scheme") (ETuple [EInt 15; EInt 0])));
  (91%N, set "mqvSinglePass_sha256kdf_scheme" (EBin OAdd (EName "secg_scheme") (ETuple [EInt 15; EInt 1])));
  (93%N, set "mqvSinglePass_sha384kdf_scheme" (EBin OAdd (EName "secg_scheme") (ETuple [EInt 15; EInt 2])));
  (95%N, set "mqvSinglePass_sha512kdf_scheme" (EBin OAdd (EName "secg_scheme") (ETuple [EInt 15; EInt 3])));
  (100%N, SClass "IV" (univ "OctetString") [SPass]);
  (105%N, SClass "CBCParameter" (EName "IV") [SPass]);
  (109%N, SClass "KeyWrapAlgorithm" (EName "AlgorithmIdentifier") [SPass]);
  (113%N, SClass "ECC_CMS_SharedInfo" (univ "Sequence") [set "componentType" (nts [nt "keyInfo" (new "KeyWrapAlgorithm"); ont "entityUInfo" (explicit (call0 (univ "OctetString")) (ctxS 0)); nt "suppPubInfo" (explicit (call0 (univ "OctetString")) (ctxS 2))])]);
  (125%N, SClass "MQVuserKeyingMaterial" (univ "Sequence") [set "componentType" (nts [nt "ephemeralPublicKey" (new "OriginatorPublicKey"); ont "addedukm" (explicit (new "UserKeyingMaterial") (ctxS 0))])]);
  (137%N, set "_algorithmIdentifierMapUpdate" (EDict [(EName "dhSinglePass_stdDH_sha1kdf_scheme", new "KeyWrapAlgorithm"); (EName "dhSinglePass_stdDH_sha224kdf_scheme", new "KeyWrapAlgorithm"); (EName "dhSinglePass_stdDH_sha256kdf_scheme", new "KeyWrapAlgorithm"); (EName "dhSinglePass_stdDH_sha384kdf_scheme", new "KeyWrapAlgorithm"); (EName "dhSinglePass_stdDH_sha512kdf_scheme", new "KeyWrapAlgorithm"); (EName "dhSinglePass_cofactorDH_sha1kdf_scheme", new "KeyWrapAlgorithm"); (EName "dhSinglePass_cofactorDH_sha224kdf_scheme", new "KeyWrapAlgorithm"); (EName "dhSinglePass_cofactorDH_sha256kdf_scheme", new "KeyWrapAlgorithm"); (EName "dhSinglePass_cofactorDH_sha384kdf_scheme", new "KeyWrapAlgorithm"); (EName "dhSinglePass_cofactorDH_sha512kdf_scheme", new "KeyWrapAlgorithm"); (EName "mqvSinglePass_sha1kdf_scheme", new "KeyWrapAlgorithm"); (EName "mqvSinglePass_sha224kdf_scheme", new "KeyWrapAlgorithm"); (EName "mqvSinglePass_sha256kdf_scheme", new "KeyWrapAlgorithm"); (EName "mqvSinglePass_sha384kdf_scheme", new "KeyWrapAlgorithm"); (EName "mqvSinglePass_sha512kdf_scheme", new "KeyWrapAlgorithm")]));
  (155%N, SExpr (call (EAttr (qual "rfc5280" "algorithmIdentifierMap") "update") [EName "_algorithmIdentifierMapUpdate"]));
  (157%N, SExpr (call (EAttr (qual "rfc5751" "smimeCapabilityMap") "update") [EName "_algorithmIdentifierMapUpdate"]))
].
