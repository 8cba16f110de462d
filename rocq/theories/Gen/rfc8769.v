(** pyasn1_modules/rfc8769.py, printed by tools/py2coq.py.  Every statement is
    preceded by its line number in that file. *)
From Verif Require Import Py.Syntax.
From Coq Require Import List String ZArith NArith.
Import ListNotations.
Open Scope string_scope.
Open Scope Z_scope.

Definition src : module := [
  (15%N, SFrom "pyasn1.type" [("univ", "univ")]);
  (18%N, set "id_ct_cbor" (call (univ "ObjectIdentifier") [EStr "1.2.840.113549.1.9.16.1.44"]));
  (21%N, set "id_ct_cborSequence" (call (univ "ObjectIdentifier") [EStr "1.2.840.113549.1.9.16.1.45"]))
].
