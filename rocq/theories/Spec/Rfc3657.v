(** RFC 3657, section 6. *)
From Coq Require Import List String ZArith NArith.
From Verif Require Import Asn1.Types Spec.X680.
Import ListNotations.
Open Scope string_scope.
Open Scope list_scope.

Definition Camellia_IV := size 16 16 OCTET_STRING.
Definition CamelliaSMimeCapability := NULL.

Definition rfc3657 : list (string * sty) := [
  ("Camellia_IV", Camellia_IV); ("CamelliaSMimeCapability", CamelliaSMimeCapability)].
