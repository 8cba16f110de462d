(** pyasn1_modules/rfc7229.py, printed by tools/py2coq.py.  Every statement is
    preceded by its line number in that file. *)
From Verif Require Import Py.Syntax.
From Coq Require Import List String ZArith NArith.
Import ListNotations.
Open Scope string_scope.
Open Scope Z_scope.

Definition src : module := [
  (15%N, SFrom "pyasn1.type" [("univ", "univ")]);
  (18%N, set "id_pkix" (call (univ "ObjectIdentifier") [EStr "1.3.6.1.5.5.7"]));
  (20%N, set "id_TEST" (EBin OAdd (EName "id_pkix") (ETuple [EInt 13])));
  (22%N, set "id_TEST_certPolicyOne" (EBin OAdd (EName "id_TEST") (ETuple [EInt 1])));
  (23%N, set "id_TEST_certPolicyTwo" (EBin OAdd (EName "id_TEST") (ETuple [EInt 2])));
  (24%N, set "id_TEST_certPolicyThree" (EBin OAdd (EName "id_TEST") (ETuple [EInt 3])));
  (25%N, set "id_TEST_certPolicyFour" (EBin OAdd (EName "id_TEST") (ETuple [EInt 4])));
  (26%N, set "id_TEST_certPolicyFive" (EBin OAdd (EName "id_TEST") (ETuple [EInt 5])));
  (27%N, set "id_TEST_certPolicySix" (EBin OAdd (EName "id_TEST") (ETuple [EInt 6])));
  (28%N, set "id_TEST_certPolicySeven" (EBin OAdd (EName "id_TEST") (ETuple [EInt 7])));
  (29%N, set "id_TEST_certPolicyEight" (EBin OAdd (EName "id_TEST") (ETuple [EInt 8])))
].
