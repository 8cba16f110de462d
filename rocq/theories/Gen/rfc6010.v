(** pyasn1_modules/rfc6010.py, printed by tools/py2coq.py.  Every statement is
    preceded by its line number in that file. *)
From Verif Require Import Py.Syntax.
From Coq Require Import List String ZArith NArith.
Import ListNotations.
Open Scope string_scope.
Open Scope Z_scope.

Definition src : module := [
  (16%N, SFrom "pyasn1.type" [("constraint", "constraint")]);
  (17%N, SFrom "pyasn1.type" [("namedtype", "namedtype")]);
  (18%N, SFrom "pyasn1.type" [("namedval", "namedval")]);
  (19%N, SFrom "pyasn1.type" [("univ", "univ")]);
  (21%N, SFrom "pyasn1_modules" [("rfc5280", "rfc5280")]);
  (23%N, set "MAX" (call (EName "float") [EStr "inf"]));
  (26%N, set "AttributeType" (qual "rfc5280" "AttributeType"));
  (28%N, set "AttributeValue" (qual "rfc5280" "AttributeValue"));
  (31%N, set "id_ct_anyContentType" (call (univ "ObjectIdentifier") [EStr "1.2.840.113549.1.9.16.1.0"]));
  (34%N, SClass "AttrConstraint" (univ "Sequence") [SPass]);
  (37%N, seta "AttrConstraint" "componentType" (nts [nt "attrType" (new "AttributeType"); nt "attrValues" (withspec (ECall (univ "SetOf") [] [("componentType", new "AttributeValue")]) (sizec (EInt 1) (EName "MAX")))]));
  (44%N, SClass "AttrConstraintList" (univ "SequenceOf") [SPass]);
  (47%N, seta "AttrConstraintList" "componentType" (new "AttrConstraint"));
  (48%N, seta "AttrConstraintList" "subtypeSpec" (sizec (EInt 1) (EName "MAX")));
  (51%N, SClass "ContentTypeGeneration" (univ "Enumerated") [SPass]);
  (54%N, seta "ContentTypeGeneration" "namedValues" (nvs [nv "canSource" 0; nv "cannotSource" 1]));
  (60%N, SClass "ContentTypeConstraint" (univ "Sequence") [SPass]);
  (63%N, seta "ContentTypeConstraint" "componentType" (nts [nt "contentType" (call0 (univ "ObjectIdentifier")); dnt "canSource" (withvalue (new "ContentTypeGeneration") (EStr "canSource")); ont "attrConstraints" (new "AttrConstraintList")]));
  (72%N, set "id_pe_cmsContentConstraints" (call (univ "ObjectIdentifier") [EStr "1.3.6.1.5.5.7.1.18"]));
  (74%N, SClass "CMSContentConstraints" (univ "SequenceOf") [SPass]);
  (77%N, seta "CMSContentConstraints" "componentType" (new "ContentTypeConstraint"));
  (78%N, seta "CMSContentConstraints" "subtypeSpec" (sizec (EInt 1) (EName "MAX")));
  (84%N, set "_certificateExtensionsMap" (EDict [(EName "id_pe_cmsContentConstraints", new "CMSContentConstraints")]));
  (88%N, SExpr (call (EAttr (qual "rfc5280" "certificateExtensionsMap") "update") [EName "_certificateExtensionsMap"]))
].
