(** pyasn1_modules/rfc8708.py, printed by tools/py2coq.py.  Every statement is
    preceded by its line number in that file. *)
From Verif Require Import Py.Syntax.
From Coq Require Import List String ZArith NArith.
Import ListNotations.
Open Scope string_scope.
Open Scope Z_scope.

Definition src : module := [
  (14%N, SFrom "pyasn1.type" [("univ", "univ")]);
  (16%N, SFrom "pyasn1_modules" [("rfc5280", "rfc5280")]);
  (21%N, set "id_alg_hss_lms_hashsig" (call (univ "ObjectIdentifier") [EStr "1.2.840.113549.1.9.16.3.17"]));
  (23%N, set "id_alg_mts_hashsig" (EName "id_alg_hss_lms_hashsig"));
  (28%N, set "sa_HSS_LMS_HashSig" (call0 (qual "rfc5280" "AlgorithmIdentifier")));
  (29%N, SAssign [ESub (EName "sa_HSS_LMS_HashSig") (EStr "algorithm")] (EName "id_alg_hss_lms_hashsig"));
  (35%N, SClass "HSS_LMS_HashSig_PublicKey" (univ "OctetString") [SPass]);
  (39%N, set "pk_HSS_LMS_HashSig" (call0 (qual "rfc5280" "SubjectPublicKeyInfo")));
  (40%N, SAssign [ESub (EName "pk_HSS_LMS_HashSig") (EStr "algorithm")] (EName "sa_HSS_LMS_HashSig"))
].
