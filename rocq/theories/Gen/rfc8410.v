(** pyasn1_modules/rfc8410.py, printed by tools/py2coq.py.  Every statement is
    preceded by its line number in that file. *)
From Verif Require Import Py.Syntax.
From Coq Require Import List String ZArith NArith.
Import ListNotations.
Open Scope string_scope.
Open Scope Z_scope.

Definition src : module := [
  (13%N, SFrom "pyasn1.type" [("univ", "univ")]);
  (14%N, SFrom "pyasn1_modules" [("rfc3565", "rfc3565")]);
  (15%N, SFrom "pyasn1_modules" [("rfc4055", "rfc4055")]);
  (16%N, SFrom "pyasn1_modules" [("rfc5280", "rfc5280")]);
  (19%N, SClass "SignatureAlgorithmIdentifier" (qual "rfc5280" "AlgorithmIdentifier") [SPass]);
  (23%N, SClass "KeyEncryptionAlgorithmIdentifier" (qual "rfc5280" "AlgorithmIdentifier") [SPass]);
  (27%N, SClass "CurvePrivateKey" (univ "OctetString") [SPass]);
  (31%N, set "id_X25519" (call (univ "ObjectIdentifier") [EStr "1.3.101.110"]));
  (33%N, set "id_X448" (call (univ "ObjectIdentifier") [EStr "1.3.101.111"]));
  (35%N, set "id_Ed25519" (call (univ "ObjectIdentifier") [EStr "1.3.101.112"]));
  (37%N, set "id_Ed448" (call (univ "ObjectIdentifier") [EStr "1.3.101.113"]));
  (39%N, set "id_sha512" (qual "rfc4055" "id_sha512"));
  (41%N, set "id_aes128_wrap" (qual "rfc3565" "id_aes128_wrap"));
  (43%N, set "id_aes256_wrap" (qual "rfc3565" "id_aes256_wrap"))
].
