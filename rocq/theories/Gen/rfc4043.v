(** pyasn1_modules/rfc4043.py, printed by tools/py2coq.py.  Every statement is
    preceded by its line number in that file. *)
From Verif Require Import Py.Syntax.
From Coq Require Import List String ZArith NArith.
Import ListNotations.
Open Scope string_scope.
Open Scope Z_scope.

Definition src : module := [
  (15%N, SFrom "pyasn1.type" [("char", "char")]);
  (16%N, SFrom "pyasn1.type" [("namedtype", "namedtype")]);
  (17%N, SFrom "pyasn1.type" [("univ", "univ")]);
  (19%N, SFrom "pyasn1_modules" [("rfc5280", "rfc5280")]);
  (22%N, set "id_pkix" (call (univ "ObjectIdentifier") [ETuple [EInt 1; EInt 3; EInt 6; EInt 1; EInt 5; EInt 5; EInt 7]]));
  (24%N, set "id_on" (EBin OAdd (EName "id_pkix") (ETuple [EInt 8])));
  (26%N, set "id_on_permanentIdentifier" (EBin OAdd (EName "id_on") (ETuple [EInt 3])));
  (29%N, SClass "PermanentIdentifier" (univ "Sequence") [set "componentType" (nts [ont "identifierValue" (call0 (chr "UTF8String")); ont "assigner" (call0 (univ "ObjectIdentifier"))])]);
  (39%N, set "_anotherNameMapUpdate" (EDict [(EName "id_on_permanentIdentifier", new "PermanentIdentifier")]));
  (43%N, SExpr (call (EAttr (qual "rfc5280" "anotherNameMap") "update") [EName "_anotherNameMapUpdate"]))
].
