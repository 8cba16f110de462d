(** pyasn1_modules/rfc5752.py, printed by tools/py2coq.py.  Every statement is
    preceded by its line number in that file. *)
From Verif Require Import Py.Syntax.
From Coq Require Import List String ZArith NArith.
Import ListNotations.
Open Scope string_scope.
Open Scope Z_scope.

Definition src : module := [
  (16%N, SFrom "pyasn1.type" [("namedtype", "namedtype")]);
  (17%N, SFrom "pyasn1.type" [("univ", "univ")]);
  (19%N, SFrom "pyasn1_modules" [("rfc5035", "rfc5035")]);
  (20%N, SFrom "pyasn1_modules" [("rfc5652", "rfc5652")]);
  (23%N, SClass "SignAttrsHash" (univ "Sequence") [set "componentType" (nts [nt "algID" (call0 (qual "rfc5652" "DigestAlgorithmIdentifier")); nt "hash" (call0 (univ "OctetString"))])]);
  (30%N, SClass "MultipleSignatures" (univ "Sequence") [set "componentType" (nts [nt "bodyHashAlg" (call0 (qual "rfc5652" "DigestAlgorithmIdentifier")); nt "signAlg" (call0 (qual "rfc5652" "SignatureAlgorithmIdentifier")); nt "signAttrsHash" (new "SignAttrsHash"); ont "cert" (call0 (qual "rfc5035" "ESSCertIDv2"))])]);
  (39%N, set "id_aa_multipleSignatures" (call (univ "ObjectIdentifier") [EStr "1.2.840.113549.1.9.16.2.51"]));
  (45%N, set "_cmsAttributesMapUpdate" (EDict [(EName "id_aa_multipleSignatures", new "MultipleSignatures")]));
  (49%N, SExpr (call (EAttr (qual "rfc5652" "cmsAttributesMap") "update") [EName "_cmsAttributesMapUpdate"]))
].
