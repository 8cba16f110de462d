(** RFC 5649 defines no type of its own. *)
From Coq Require Import List String ZArith NArith.
From Verif Require Import Asn1.Types Spec.X680.
From Verif Require Spec.Rfc5280.
Import ListNotations.
Open Scope string_scope.
Open Scope list_scope.

Definition AlgorithmIdentifier := Rfc5280.AlgorithmIdentifier.

Definition rfc5649 : list (string * sty) := [
  ("AlgorithmIdentifier", AlgorithmIdentifier)].
