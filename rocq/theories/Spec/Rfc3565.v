(** RFC 3565, section 6. *)
From Coq Require Import List String ZArith NArith.
From Verif Require Import Asn1.Types Spec.X680.
From Verif Require Spec.Rfc5280.
Import ListNotations.
Open Scope string_scope.
Open Scope list_scope.

Definition AlgorithmIdentifier := Rfc5280.AlgorithmIdentifier.
Definition AES_IV := size 16 16 OCTET_STRING.

Definition rfc3565 : list (string * sty) := [
  ("AlgorithmIdentifier", AlgorithmIdentifier); ("AES_IV", AES_IV)].
