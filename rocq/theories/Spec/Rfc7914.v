(** RFC 7914, section 7. *)
From Coq Require Import List String ZArith NArith.
From Verif Require Import Asn1.Types Spec.X680.
Import ListNotations.
Open Scope string_scope.
Open Scope list_scope.

Definition Scrypt_params := SEQUENCE [
  req "salt" OCTET_STRING;
  req "costParameter" (range_min 1 INTEGER);
  req "blockSize" (range_min 1 INTEGER);
  req "parallelizationParameter" (range_min 1 INTEGER);
  opt "keyLength" (range_min 1 INTEGER)].

Definition rfc7914 : list (string * sty) := [
  ("Scrypt_params", Scrypt_params)].
