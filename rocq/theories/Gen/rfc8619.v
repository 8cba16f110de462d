(** pyasn1_modules/rfc8619.py, printed by tools/py2coq.py.  Every statement is
    preceded by its line number in that file. *)
From Verif Require Import Py.Syntax.
From Coq Require Import List String ZArith NArith.
Import ListNotations.
Open Scope string_scope.
Open Scope Z_scope.

Definition src : module := [
  (15%N, SFrom "pyasn1.type" [("univ", "univ")]);
  (17%N, SFrom "pyasn1_modules" [("rfc5280", "rfc5280")]);
  (22%N, set "id_alg_hkdf_with_sha256" (call (univ "ObjectIdentifier") [EStr "1.2.840.113549.1.9.16.3.28"]));
  (25%N, set "id_alg_hkdf_with_sha384" (call (univ "ObjectIdentifier") [EStr "1.2.840.113549.1.9.16.3.29"]));
  (28%N, set "id_alg_hkdf_with_sha512" (call (univ "ObjectIdentifier") [EStr "1.2.840.113549.1.9.16.3.30"]));
  (33%N, set "kda_hkdf_with_sha256" (call0 (qual "rfc5280" "AlgorithmIdentifier")));
  (34%N, SAssign [ESub (EName "kda_hkdf_with_sha256") (EStr "algorithm")] (EName "id_alg_hkdf_with_sha256"));
  (38%N, set "kda_hkdf_with_sha384" (call0 (qual "rfc5280" "AlgorithmIdentifier")));
  (39%N, SAssign [ESub (EName "kda_hkdf_with_sha384") (EStr "algorithm")] (EName "id_alg_hkdf_with_sha384"));
  (43%N, set "kda_hkdf_with_sha512" (call0 (qual "rfc5280" "AlgorithmIdentifier")));
  (44%N, SAssign [ESub (EName "kda_hkdf_with_sha512") (EStr "algorithm")] (EName "id_alg_hkdf_with_sha512"))
].
