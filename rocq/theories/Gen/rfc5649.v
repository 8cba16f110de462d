(** pyasn1_modules/rfc5649.py, printed by tools/py2coq.py.  Every statement is
    preceded by its line number in that file. *)
From Verif Require Import Py.Syntax.
From Coq Require Import List String ZArith NArith.
Import ListNotations.
Open Scope string_scope.
Open Scope Z_scope.

Definition src : module := [
  (13%N, SFrom "pyasn1.type" [("univ", "univ")]);
  (15%N, SFrom "pyasn1_modules" [("rfc5280", "rfc5280")]);
  (18%N, SClass "AlgorithmIdentifier" (qual "rfc5280" "AlgorithmIdentifier") [SPass]);
  (22%N, set "id_aes128_wrap" (call (univ "ObjectIdentifier") [EStr "2.16.840.1.101.3.4.1.5"]));
  (24%N, set "id_aes192_wrap" (call (univ "ObjectIdentifier") [EStr "2.16.840.1.101.3.4.1.25"]));
  (26%N, set "id_aes256_wrap" (call (univ "ObjectIdentifier") [EStr "2.16.840.1.101.3.4.1.45"]));
  (29%N, set "id_aes128_wrap_pad" (call (univ "ObjectIdentifier") [EStr "2.16.840.1.101.3.4.1.8"]));
  (31%N, set "id_aes192_wrap_pad" (call (univ "ObjectIdentifier") [EStr "2.16.840.1.101.3.4.1.28"]));
  (33%N, set "id_aes256_wrap_pad" (call (univ "ObjectIdentifier") [EStr "2.16.840.1.101.3.4.1.48"]))
].
