(** RFC 5913, section 2. *)
From Coq Require Import List String ZArith NArith.
From Verif Require Import Asn1.Types Spec.X680.
From Verif Require Import Spec.Rfc5755.
Import ListNotations.
Open Scope string_scope.
Open Scope list_scope.

Definition AuthorityClearanceConstraints := size_min 1 (SEQUENCE_OF Clearance).

Definition rfc5913 : list (string * sty) := [
  ("AuthorityClearanceConstraints", AuthorityClearanceConstraints)].
