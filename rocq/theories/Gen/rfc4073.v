(** pyasn1_modules/rfc4073.py, printed by tools/py2coq.py.  Every statement is
    preceded by its line number in that file. *)
From Verif Require Import Py.Syntax.
From Coq Require Import List String ZArith NArith.
Import ListNotations.
Open Scope string_scope.
Open Scope Z_scope.

Definition src : module := [
  (16%N, SFrom "pyasn1.type" [("constraint", "constraint")]);
  (17%N, SFrom "pyasn1.type" [("namedtype", "namedtype")]);
  (18%N, SFrom "pyasn1.type" [("univ", "univ")]);
  (20%N, SFrom "pyasn1_modules" [("rfc5652", "rfc5652")]);
  (22%N, set "MAX" (call (EName "float") [EStr "inf"]));
  (27%N, set "id_ct_contentCollection" (call (univ "ObjectIdentifier") [EStr "1.2.840.113549.1.9.16.1.19"]));
  (29%N, SClass "ContentCollection" (univ "SequenceOf") [SPass]);
  (32%N, seta "ContentCollection" "componentType" (call0 (qual "rfc5652" "ContentInfo")));
  (33%N, seta "ContentCollection" "sizeSpec" (sizec (EInt 1) (EName "MAX")));
  (38%N, set "id_ct_contentWithAttrs" (call (univ "ObjectIdentifier") [EStr "1.2.840.113549.1.9.16.1.20"]));
  (40%N, SClass "ContentWithAttributes" (univ "Sequence") [SPass]);
  (43%N, seta "ContentWithAttributes" "componentType" (nts [nt "content" (call0 (qual "rfc5652" "ContentInfo")); nt "attrs" (withsize (ECall (univ "SequenceOf") [] [("componentType", call0 (qual "rfc5652" "Attribute"))]) (sizec (EInt 1) (EName "MAX")))]));
  (54%N, set "_cmsContentTypesMapUpdate" (EDict [(EName "id_ct_contentCollection", new "ContentCollection"); (EName "id_ct_contentWithAttrs", new "ContentWithAttributes")]));
  (59%N, SExpr (call (EAttr (qual "rfc5652" "cmsContentTypesMap") "update") [EName "_cmsContentTypesMapUpdate"]))
].
