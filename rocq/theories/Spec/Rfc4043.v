(** RFC 4043, appendix A. *)
From Coq Require Import List String ZArith NArith.
From Verif Require Import Asn1.Types Spec.X680.
Import ListNotations.
Open Scope string_scope.
Open Scope list_scope.

Definition PermanentIdentifier := SEQUENCE [opt "identifierValue" UTF8String; opt "assigner" OBJECT_IDENTIFIER].

Definition rfc4043 : list (string * sty) := [
  ("PermanentIdentifier", PermanentIdentifier)].
