(** RFC 8418, section 8. *)
From Coq Require Import List String ZArith NArith.
From Verif Require Import Asn1.Types Spec.X680.
From Verif Require Import Spec.Rfc5280.
Import ListNotations.
Open Scope string_scope.
Open Scope list_scope.

Definition KeyEncryptionAlgorithmIdentifier := AlgorithmIdentifier.
Definition KeyWrapAlgorithmIdentifier := AlgorithmIdentifier.

Definition rfc8418 : list (string * sty) := [
  ("KeyEncryptionAlgorithmIdentifier", KeyEncryptionAlgorithmIdentifier);
  ("KeyWrapAlgorithmIdentifier", KeyWrapAlgorithmIdentifier)].
