(** pyasn1_modules/rfc5916.py, printed by tools/py2coq.py.  Every statement is
    preceded by its line number in that file. *)
From Verif Require Import Py.Syntax.
From Coq Require Import List String ZArith NArith.
Import ListNotations.
Open Scope string_scope.
Open Scope Z_scope.

Definition src : module := [
  (15%N, SFrom "pyasn1.type" [("univ", "univ")]);
  (17%N, SFrom "pyasn1_modules" [("rfc5280", "rfc5280")]);
  (22%N, set "id_deviceOwner" (call (univ "ObjectIdentifier") [ETuple [EInt 2; EInt 16; EInt 840; EInt 1; EInt 101; EInt 2; EInt 1; EInt 5; EInt 69]]));
  (24%N, set "at_deviceOwner" (call0 (qual "rfc5280" "Attribute")));
  (25%N, SAssign [ESub (EName "at_deviceOwner") (EStr "type")] (EName "id_deviceOwner"));
  (26%N, SAssign [ESub (ESub (EName "at_deviceOwner") (EStr "values")) (EInt 0)] (call0 (univ "ObjectIdentifier")));
  (31%N, set "_certificateAttributesMapUpdate" (EDict [(EName "id_deviceOwner", call0 (univ "ObjectIdentifier"))]));
  (35%N, SExpr (call (EAttr (qual "rfc5280" "certificateAttributesMap") "update") [EName "_certificateAttributesMapUpdate"]))
].
