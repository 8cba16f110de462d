(** RFC 8103, appendix. *)
From Coq Require Import List String ZArith NArith.
From Verif Require Import Asn1.Types Spec.X680.
Import ListNotations.
Open Scope string_scope.
Open Scope list_scope.

Definition AEADChaCha20Poly1305Nonce := size 12 12 OCTET_STRING.

Definition rfc8103 : list (string * sty) := [
  ("AEADChaCha20Poly1305Nonce", AEADChaCha20Poly1305Nonce)].
