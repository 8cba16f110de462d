(** pyasn1_modules/rfc8479.py, printed by tools/py2coq.py.  Every statement is
    preceded by its line number in that file. *)
From Verif Require Import Py.Syntax.
From Coq Require Import List String ZArith NArith.
Import ListNotations.
Open Scope string_scope.
Open Scope Z_scope.

Definition src : module := [
  (15%N, SFrom "pyasn1.type" [("namedtype", "namedtype")]);
  (16%N, SFrom "pyasn1.type" [("univ", "univ")]);
  (18%N, SFrom "pyasn1_modules" [("rfc5652", "rfc5652")]);
  (21%N, set "id_attr_validation_parameters" (call (univ "ObjectIdentifier") [EStr "1.3.6.1.4.1.2312.18.8.1"]));
  (24%N, SClass "ValidationParams" (univ "Sequence") [SPass]);
  (27%N, seta "ValidationParams" "componentType" (nts [nt "hashAlg" (call0 (univ "ObjectIdentifier")); nt "seed" (call0 (univ "OctetString"))]));
  (33%N, set "at_validation_parameters" (call0 (qual "rfc5652" "Attribute")));
  (34%N, SAssign [ESub (EName "at_validation_parameters") (EStr "attrType")] (EName "id_attr_validation_parameters"));
  (35%N, SAssign [ESub (ESub (EName "at_validation_parameters") (EStr "attrValues")) (EInt 0)] (new "ValidationParams"));
  (41%N, set "_cmsAttributesMapUpdate" (EDict [(EName "id_attr_validation_parameters", new "ValidationParams")]));
  (45%N, SExpr (call (EAttr (qual "rfc5652" "cmsAttributesMap") "update") [EName "_cmsAttributesMapUpdate"]))
].
