(** pyasn1_modules/rfc6211.py, printed by tools/py2coq.py.  Every statement is
    preceded by its line number in that file. *)
From Verif Require Import Py.Syntax.
From Coq Require Import List String ZArith NArith.
Import ListNotations.
Open Scope string_scope.
Open Scope Z_scope.

Definition src : module := [
  (15%N, SFrom "pyasn1.type" [("constraint", "constraint")]);
  (16%N, SFrom "pyasn1.type" [("namedtype", "namedtype")]);
  (17%N, SFrom "pyasn1.type" [("tag", "tag")]);
  (18%N, SFrom "pyasn1.type" [("univ", "univ")]);
  (20%N, SFrom "pyasn1_modules" [("rfc5652", "rfc5652")]);
  (25%N, set "DigestAlgorithmIdentifier" (qual "rfc5652" "DigestAlgorithmIdentifier"));
  (27%N, set "MessageAuthenticationCodeAlgorithm" (qual "rfc5652" "MessageAuthenticationCodeAlgorithm"));
  (29%N, set "SignatureAlgorithmIdentifier" (qual "rfc5652" "SignatureAlgorithmIdentifier"));
  (34%N, set "id_aa_cmsAlgorithmProtect" (call (univ "ObjectIdentifier") [EStr "1.2.840.113549.1.9.52"]));
  (37%N, SClass "CMSAlgorithmProtection" (univ "Sequence") [SPass]);
  (40%N, seta "CMSAlgorithmProtection" "componentType" (nts [nt "digestAlgorithm" (new "DigestAlgorithmIdentifier"); ont "signatureAlgorithm" (implicit (new "SignatureAlgorithmIdentifier") (ctxS 1)); ont "macAlgorithm" (implicit (new "MessageAuthenticationCodeAlgorithm") (ctxS 2))]));
  (50%N, seta "CMSAlgorithmProtection" "subtypeSpec" (call (qual "constraint" "ConstraintsUnion") [call (qual "constraint" "WithComponentsConstraint") [ETuple [EStr "signatureAlgorithm"; call0 (qual "constraint" "ComponentPresentConstraint")]; ETuple [EStr "macAlgorithm"; call0 (qual "constraint" "ComponentAbsentConstraint")]]; call (qual "constraint" "WithComponentsConstraint") [ETuple [EStr "signatureAlgorithm"; call0 (qual "constraint" "ComponentAbsentConstraint")]; ETuple [EStr "macAlgorithm"; call0 (qual "constraint" "ComponentPresentConstraint")]]]));
  (60%N, set "aa_cmsAlgorithmProtection" (call0 (qual "rfc5652" "Attribute")));
  (61%N, SAssign [ESub (EName "aa_cmsAlgorithmProtection") (EStr "attrType")] (EName "id_aa_cmsAlgorithmProtect"));
  (62%N, SAssign [ESub (ESub (EName "aa_cmsAlgorithmProtection") (EStr "attrValues")) (EInt 0)] (new "CMSAlgorithmProtection"));
  (68%N, set "_cmsAttributesMapUpdate" (EDict [(EName "id_aa_cmsAlgorithmProtect", new "CMSAlgorithmProtection")]));
  (72%N, SExpr (call (EAttr (qual "rfc5652" "cmsAttributesMap") "update") [EName "_cmsAttributesMapUpdate"]))
].
