(** pyasn1_modules/rfc8418.py, printed by tools/py2coq.py.  Every statement is
    preceded by its line number in that file. *)
From Verif Require Import Py.Syntax.
From Coq Require Import List String ZArith NArith.
Import ListNotations.
Open Scope string_scope.
Open Scope Z_scope.

Definition src : module := [
  (14%N, SFrom "pyasn1.type" [("univ", "univ")]);
  (15%N, SFrom "pyasn1_modules" [("rfc5280", "rfc5280")]);
  (18%N, SClass "KeyEncryptionAlgorithmIdentifier" (qual "rfc5280" "AlgorithmIdentifier") [SPass]);
  (22%N, SClass "KeyWrapAlgorithmIdentifier" (qual "rfc5280" "AlgorithmIdentifier") [SPass]);
  (26%N, set "dhSinglePass_stdDH_sha256kdf_scheme" (call (univ "ObjectIdentifier") [EStr "1.3.133.16.840.63.0.11.1"]));
  (28%N, set "dhSinglePass_stdDH_sha384kdf_scheme" (call (univ "ObjectIdentifier") [EStr "1.3.133.16.840.63.0.11.2"]));
  (30%N, set "dhSinglePass_stdDH_sha512kdf_scheme" (call (univ "ObjectIdentifier") [EStr "1.3.133.16.840.63.0.11.3"]));
  (32%N, set "dhSinglePass_stdDH_hkdf_sha256_scheme" (call (univ "ObjectIdentifier") [EStr "1.2.840.113549.1.9.16.3.19"]));
  (34%N, set "dhSinglePass_stdDH_hkdf_sha384_scheme" (call (univ "ObjectIdentifier") [EStr "1.2.840.113549.1.9.16.3.20"]));
  (36%N, set "dhSinglePass_stdDH_hkdf_sha512_scheme" (call (univ "ObjectIdentifier") [EStr "1.2.840.113549.1.9.16.3.21"]))
].
