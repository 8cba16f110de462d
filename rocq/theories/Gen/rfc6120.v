(** pyasn1_modules/rfc6120.py, printed by tools/py2coq.py.  Every statement is
    preceded by its line number in that file. *)
From Verif Require Import Py.Syntax.
From Coq Require Import List String ZArith NArith.
Import ListNotations.
Open Scope string_scope.
Open Scope Z_scope.

Definition src : module := [
  (15%N, SFrom "pyasn1.type" [("char", "char")]);
  (16%N, SFrom "pyasn1.type" [("univ", "univ")]);
  (18%N, SFrom "pyasn1_modules" [("rfc5280", "rfc5280")]);
  (20%N, set "MAX" (call (EName "float") [EStr "inf"]));
  (25%N, set "id_pkix" (qual "rfc5280" "id_pkix"));
  (27%N, set "id_on" (EBin OAdd (EName "id_pkix") (ETuple [EInt 8])));
  (29%N, set "id_on_xmppAddr" (EBin OAdd (EName "id_on") (ETuple [EInt 5])));
  (32%N, SClass "XmppAddr" (chr "UTF8String") [SPass]);
  (39%N, set "_anotherNameMapUpdate" (EDict [(EName "id_on_xmppAddr", new "XmppAddr")]));
  (43%N, SExpr (call (EAttr (qual "rfc5280" "anotherNameMap") "update") [EName "_anotherNameMapUpdate"]))
].
