(** pyasn1_modules/rfc8209.py, printed by tools/py2coq.py.  Every statement is
    preceded by its line number in that file. *)
From Verif Require Import Py.Syntax.
From Coq Require Import List String ZArith NArith.
Import ListNotations.
Open Scope string_scope.
Open Scope Z_scope.

Definition src : module := [
  (15%N, SFrom "pyasn1.type" [("univ", "univ")]);
  (18%N, set "id_kp" (call (univ "ObjectIdentifier") [EStr "1.3.6.1.5.5.7.3"]));
  (20%N, set "id_kp_bgpsec_router" (EBin OAdd (EName "id_kp") (ETuple [EInt 30])))
].
