(** pyasn1_modules/rfc4985.py, printed by tools/py2coq.py.  Every statement is
    preceded by its line number in that file. *)
From Verif Require Import Py.Syntax.
From Coq Require Import List String ZArith NArith.
Import ListNotations.
Open Scope string_scope.
Open Scope Z_scope.

Definition src : module := [
  (15%N, SFrom "pyasn1.type" [("char", "char")]);
  (16%N, SFrom "pyasn1.type" [("constraint", "constraint")]);
  (17%N, SFrom "pyasn1.type" [("univ", "univ")]);
  (19%N, SFrom "pyasn1_modules" [("rfc5280", "rfc5280")]);
  (21%N, set "MAX" (call (EName "float") [EStr "inf"]));
  (26%N, set "id_pkix" (qual "rfc5280" "id_pkix"));
  (28%N, set "id_on" (EBin OAdd (EName "id_pkix") (ETuple [EInt 8])));
  (30%N, set "id_on_dnsSRV" (EBin OAdd (EName "id_on") (ETuple [EInt 7])));
  (33%N, SClass "SRVName" (chr "IA5String") [set "subtypeSpec" (sizec (EInt 1) (EName "MAX"))]);
  (37%N, set "srvName" (call0 (qual "rfc5280" "AnotherName")));
  (38%N, SAssign [ESub (EName "srvName") (EStr "type-id")] (EName "id_on_dnsSRV"));
  (39%N, SAssign [ESub (EName "srvName") (EStr "value")] (new "SRVName"));
  (45%N, set "_anotherNameMapUpdate" (EDict [(EName "id_on_dnsSRV", new "SRVName")]));
  (49%N, SExpr (call (EAttr (qual "rfc5280" "anotherNameMap") "update") [EName "_anotherNameMapUpdate"]))
].
