(** pyasn1_modules/rfc5913.py, printed by tools/py2coq.py.  Every statement is
    preceded by its line number in that file. *)
From Verif Require Import Py.Syntax.
From Coq Require Import List String ZArith NArith.
Import ListNotations.
Open Scope string_scope.
Open Scope Z_scope.

Definition src : module := [
  (16%N, SFrom "pyasn1.type" [("constraint", "constraint")]);
  (17%N, SFrom "pyasn1.type" [("univ", "univ")]);
  (19%N, SFrom "pyasn1_modules" [("rfc5280", "rfc5280")]);
  (20%N, SFrom "pyasn1_modules" [("rfc5755", "rfc5755")]);
  (22%N, set "MAX" (call (EName "float") [EStr "inf"]));
  (27%N, set "id_pe_clearanceConstraints" (call (univ "ObjectIdentifier") [EStr "1.3.6.1.5.5.7.1.21"]));
  (29%N, set "id_pe_authorityClearanceConstraints" (EName "id_pe_clearanceConstraints"));
  (32%N, SClass "AuthorityClearanceConstraints" (univ "SequenceOf") [set "componentType" (call0 (qual "rfc5755" "Clearance")); set "subtypeSpec" (sizec (EInt 1) (EName "MAX"))]);
  (40%N, set "_certificateExtensionsMapUpdate" (EDict [(EName "id_pe_clearanceConstraints", new "AuthorityClearanceConstraints")]));
  (44%N, SExpr (call (EAttr (qual "rfc5280" "certificateExtensionsMap") "update") [EName "_certificateExtensionsMapUpdate"]))
].
