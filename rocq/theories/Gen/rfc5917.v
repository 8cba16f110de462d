(** pyasn1_modules/rfc5917.py, printed by tools/py2coq.py.  Every statement is
    preceded by its line number in that file. *)
From Verif Require Import Py.Syntax.
From Coq Require Import List String ZArith NArith.
Import ListNotations.
Open Scope string_scope.
Open Scope Z_scope.

Definition src : module := [
  (17%N, SFrom "pyasn1.type" [("char", "char")]);
  (18%N, SFrom "pyasn1.type" [("constraint", "constraint")]);
  (19%N, SFrom "pyasn1.type" [("namedtype", "namedtype")]);
  (20%N, SFrom "pyasn1.type" [("univ", "univ")]);
  (22%N, SFrom "pyasn1_modules" [("rfc5280", "rfc5280")]);
  (30%N, SClass "DirectoryString" (univ "Choice") [set "componentType" (nts [nt "utf8String" (withspec (call0 (chr "UTF8String")) (sizec (EInt 1) (EInt 64)))])]);
  (39%N, set "id_clearanceSponsor" (call (univ "ObjectIdentifier") [ETuple [EInt 2; EInt 16; EInt 840; EInt 1; EInt 101; EInt 2; EInt 1; EInt 5; EInt 68]]));
  (41%N, set "ub_clearance_sponsor" (call (univ "Integer") [EInt 64]));
  (44%N, set "at_clearanceSponsor" (call0 (qual "rfc5280" "Attribute")));
  (45%N, SAssign [ESub (EName "at_clearanceSponsor") (EStr "type")] (EName "id_clearanceSponsor"));
  (46%N, SAssign [ESub (ESub (EName "at_clearanceSponsor") (EStr "values")) (EInt 0)] (new "DirectoryString"));
  (51%N, set "_certificateAttributesMapUpdate" (EDict [(EName "id_clearanceSponsor", new "DirectoryString")]));
  (55%N, SExpr (call (EAttr (qual "rfc5280" "certificateAttributesMap") "update") [EName "_certificateAttributesMapUpdate"]))
].
