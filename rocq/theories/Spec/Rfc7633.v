(** RFC 7633, section 4.1. *)
From Coq Require Import List String ZArith NArith.
From Verif Require Import Asn1.Types Spec.X680.
Import ListNotations.
Open Scope string_scope.
Open Scope list_scope.

Definition Features := SEQUENCE_OF INTEGER.

Definition rfc7633 : list (string * sty) := [
  ("Features", Features)].
