(** pyasn1_modules/rfc8692.py, printed by tools/py2coq.py.  Every statement is
    preceded by its line number in that file. *)
From Verif Require Import Py.Syntax.
From Coq Require Import List String ZArith NArith.
Import ListNotations.
Open Scope string_scope.
Open Scope Z_scope.

Definition src : module := [
  (15%N, SFrom "pyasn1.type" [("univ", "univ")]);
  (17%N, SFrom "pyasn1_modules" [("rfc4055", "rfc4055")]);
  (18%N, SFrom "pyasn1_modules" [("rfc5280", "rfc5280")]);
  (19%N, SFrom "pyasn1_modules" [("rfc5480", "rfc5480")]);
  (24%N, set "id_shake128" (call (univ "ObjectIdentifier") [EStr "2.16.840.1.101.3.4.2.11"]));
  (26%N, set "mda_shake128" (call0 (qual "rfc5280" "AlgorithmIdentifier")));
  (27%N, SAssign [ESub (EName "mda_shake128") (EStr "algorithm")] (EName "id_shake128"));
  (33%N, set "id_shake256" (call (univ "ObjectIdentifier") [EStr "2.16.840.1.101.3.4.2.12"]));
  (35%N, set "mda_shake256" (call0 (qual "rfc5280" "AlgorithmIdentifier")));
  (36%N, SAssign [ESub (EName "mda_shake256") (EStr "algorithm")] (EName "id_shake256"));
  (42%N, set "id_RSASSA_PSS_SHAKE128" (call (univ "ObjectIdentifier") [EStr "1.3.6.1.5.5.7.6.30"]));
  (44%N, set "sa_rSASSA_PSS_SHAKE128" (call0 (qual "rfc5280" "AlgorithmIdentifier")));
  (45%N, SAssign [ESub (EName "sa_rSASSA_PSS_SHAKE128") (EStr "algorithm")] (EName "id_RSASSA_PSS_SHAKE128"));
  (48%N, set "pk_rsaSSA_PSS_SHAKE128" (call0 (qual "rfc4055" "RSAPublicKey")));
  (53%N, set "id_RSASSA_PSS_SHAKE256" (call (univ "ObjectIdentifier") [EStr "1.3.6.1.5.5.7.6.31"]));
  (55%N, set "sa_rSASSA_PSS_SHAKE256" (call0 (qual "rfc5280" "AlgorithmIdentifier")));
  (56%N, SAssign [ESub (EName "sa_rSASSA_PSS_SHAKE256") (EStr "algorithm")] (EName "id_RSASSA_PSS_SHAKE256"));
  (59%N, set "pk_rsaSSA_PSS_SHAKE256" (call0 (qual "rfc4055" "RSAPublicKey")));
  (64%N, set "id_ecdsa_with_shake128" (call (univ "ObjectIdentifier") [EStr "1.3.6.1.5.5.7.6.32"]));
  (66%N, set "sa_ecdsa_with_shake128" (call0 (qual "rfc5280" "AlgorithmIdentifier")));
  (67%N, SAssign [ESub (EName "sa_ecdsa_with_shake128") (EStr "algorithm")] (EName "id_ecdsa_with_shake128"));
  (70%N, set "pk_ec" (call0 (qual "rfc5480" "ECPoint")));
  (75%N, set "id_ecdsa_with_shake256" (call (univ "ObjectIdentifier") [EStr "1.3.6.1.5.5.7.6.33"]));
  (77%N, set "sa_ecdsa_with_shake256" (call0 (qual "rfc5280" "AlgorithmIdentifier")));
  (78%N, SAssign [ESub (EName "sa_ecdsa_with_shake256") (EStr "algorithm")] (EName "id_ecdsa_with_shake256"))
].
