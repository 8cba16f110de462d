(** RFC 6019, sections 2 and 3. *)
From Coq Require Import List String ZArith NArith.
From Verif Require Import Asn1.Types Spec.X680.
Import ListNotations.
Open Scope string_scope.
Open Scope list_scope.

Definition BinaryTime := range_min 0 INTEGER.
Definition BinarySigningTime := BinaryTime.

Definition rfc6019 : list (string * sty) := [
  ("BinaryTime", BinaryTime); ("BinarySigningTime", BinarySigningTime)].
