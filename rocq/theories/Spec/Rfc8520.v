(** RFC 8520, section 11. *)
From Coq Require Import List String ZArith NArith.
From Verif Require Import Asn1.Types Spec.X680.
From Verif Require Import Spec.Rfc5280.
Import ListNotations.
Open Scope string_scope.
Open Scope list_scope.

Definition MUDURLSyntax := IA5String.
Definition MUDsignerSyntax := Name.

Definition rfc8520 : list (string * sty) := [
  ("MUDURLSyntax", MUDURLSyntax); ("MUDsignerSyntax", MUDsignerSyntax)].
