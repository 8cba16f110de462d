(** pyasn1_modules/rfc7585.py, printed by tools/py2coq.py.  Every statement is
    preceded by its line number in that file. *)
From Verif Require Import Py.Syntax.
From Coq Require Import List String ZArith NArith.
Import ListNotations.
Open Scope string_scope.
Open Scope Z_scope.

Definition src : module := [
  (15%N, SFrom "pyasn1.type" [("char", "char")]);
  (16%N, SFrom "pyasn1.type" [("constraint", "constraint")]);
  (17%N, SFrom "pyasn1.type" [("univ", "univ")]);
  (19%N, SFrom "pyasn1_modules" [("rfc5280", "rfc5280")]);
  (24%N, set "id_pkix" (call (univ "ObjectIdentifier") [EStr "1.3.6.1.5.5.7"]));
  (26%N, set "id_on" (EBin OAdd (EName "id_pkix") (ETuple [EInt 8])));
  (28%N, set "id_on_naiRealm" (EBin OAdd (EName "id_on") (ETuple [EInt 8])));
  (31%N, set "ub_naiRealm_length" (call (univ "Integer") [EInt 255]));
  (34%N, SClass "NAIRealm" (chr "UTF8String") [set "subtypeSpec" (sizec (EInt 1) (EName "ub_naiRealm_length"))]);
  (38%N, set "naiRealm" (call0 (qual "rfc5280" "AnotherName")));
  (39%N, SAssign [ESub (EName "naiRealm") (EStr "type-id")] (EName "id_on_naiRealm"));
  (40%N, SAssign [ESub (EName "naiRealm") (EStr "value")] (new "NAIRealm"));
  (46%N, set "_anotherNameMapUpdate" (EDict [(EName "id_on_naiRealm", new "NAIRealm")]));
  (50%N, SExpr (call (EAttr (qual "rfc5280" "anotherNameMap") "update") [EName "_anotherNameMapUpdate"]))
].
