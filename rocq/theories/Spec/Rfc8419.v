(** RFC 8419, section 2.3. *)
From Coq Require Import List String ZArith NArith.
From Verif Require Import Asn1.Types Spec.X680.
Import ListNotations.
Open Scope string_scope.
Open Scope list_scope.

Definition ShakeOutputLen := INTEGER.

Definition rfc8419 : list (string * sty) := [
  ("ShakeOutputLen", ShakeOutputLen)].
