(** pyasn1_modules/rfc5697.py, printed by tools/py2coq.py.  Every statement is
    preceded by its line number in that file. *)
From Verif Require Import Py.Syntax.
From Coq Require Import List String ZArith NArith.
Import ListNotations.
Open Scope string_scope.
Open Scope Z_scope.

Definition src : module := [
  (13%N, SFrom "pyasn1.type" [("namedtype", "namedtype")]);
  (14%N, SFrom "pyasn1.type" [("univ", "univ")]);
  (16%N, SFrom "pyasn1_modules" [("rfc5280", "rfc5280")]);
  (17%N, SFrom "pyasn1_modules" [("rfc4055", "rfc4055")]);
  (22%N, set "AlgorithmIdentifier" (qual "rfc5280" "AlgorithmIdentifier"));
  (24%N, set "CertificateSerialNumber" (qual "rfc5280" "CertificateSerialNumber"));
  (26%N, set "GeneralNames" (qual "rfc5280" "GeneralNames"));
  (31%N, set "id_sha1" (qual "rfc4055" "id_sha1"));
  (37%N, SClass "SCVPIssuerSerial" (univ "Sequence") [set "componentType" (nts [nt "issuer" (new "GeneralNames"); nt "serialNumber" (new "CertificateSerialNumber")])]);
  (44%N, set "sha1_alg_id" (new "AlgorithmIdentifier"));
  (45%N, SAssign [ESub (EName "sha1_alg_id") (EStr "algorithm")] (EName "id_sha1"));
  (48%N, SClass "SCVPCertID" (univ "Sequence") [set "componentType" (nts [nt "certHash" (call0 (univ "OctetString")); nt "issuerSerial" (new "SCVPIssuerSerial"); dnt "hashAlgorithm" (EName "sha1_alg_id")])]);
  (58%N, set "id_pe_otherCerts" (call (univ "ObjectIdentifier") [ETuple [EInt 1; EInt 3; EInt 6; EInt 1; EInt 5; EInt 5; EInt 7; EInt 1; EInt 19]]));
  (60%N, SClass "OtherCertificates" (univ "SequenceOf") [set "componentType" (new "SCVPCertID")]);
  (66%N, set "_certificateExtensionsMapUpdate" (EDict [(EName "id_pe_otherCerts", new "OtherCertificates")]));
  (70%N, SExpr (call (EAttr (qual "rfc5280" "certificateExtensionsMap") "update") [EName "_certificateExtensionsMapUpdate"]))
].
