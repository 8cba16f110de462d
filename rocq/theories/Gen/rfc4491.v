(** pyasn1_modules/rfc4491.py, printed by tools/py2coq.py.  Every statement is
    preceded by its line number in that file. *)
From Verif Require Import Py.Syntax.
From Coq Require Import List String ZArith NArith.
Import ListNotations.
Open Scope string_scope.
Open Scope Z_scope.

Definition src : module := [
  (16%N, SFrom "pyasn1_modules" [("rfc4357", "rfc4357")]);
  (21%N, set "id_GostR3411_94_with_GostR3410_94" (qual "rfc4357" "id_GostR3411_94_with_GostR3410_94"));
  (26%N, set "id_GostR3411_94_with_GostR3410_2001" (qual "rfc4357" "id_GostR3411_94_with_GostR3410_2001"));
  (31%N, set "id_GostR3410_94" (qual "rfc4357" "id_GostR3410_94"));
  (33%N, set "GostR3410_2001_PublicKey" (qual "rfc4357" "GostR3410_2001_PublicKey"));
  (35%N, set "GostR3410_2001_PublicKeyParameters" (qual "rfc4357" "GostR3410_2001_PublicKeyParameters"));
  (40%N, set "id_GostR3410_2001" (qual "rfc4357" "id_GostR3410_2001"));
  (42%N, set "GostR3410_94_PublicKey" (qual "rfc4357" "GostR3410_94_PublicKey"));
  (44%N, set "GostR3410_94_PublicKeyParameters" (qual "rfc4357" "GostR3410_94_PublicKeyParameters"))
].
