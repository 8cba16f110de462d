(** RFC 5915, section 3 (EXPLICIT TAGS). *)
From Coq Require Import List String ZArith NArith.
From Verif Require Import Asn1.Types Spec.X680.
From Verif Require Spec.Rfc5480.
Import ListNotations.
Open Scope string_scope.
Open Scope list_scope.

Definition ECPrivateKey := SEQUENCE [
  req "version" (values [1]%Z (INTEGER_OF [("ecPrivkeyVer1", 1)]%Z));
  req "privateKey" OCTET_STRING;
  opt "parameters" (explicit 0 Rfc5480.ECParameters);
  opt "publicKey" (explicit 1 BIT_STRING)].

Definition rfc5915 : list (string * sty) := [
  ("ECPrivateKey", ECPrivateKey)].
