(** RFC 4073, sections 2 and 3. *)
From Coq Require Import List String ZArith NArith.
From Verif Require Import Asn1.Types Spec.X680.
From Verif Require Import Spec.Rfc5652.
Import ListNotations.
Open Scope string_scope.
Open Scope list_scope.

Definition ContentCollection := size_min 1 (SEQUENCE_OF ContentInfo).
Definition ContentWithAttributes := SEQUENCE [
  req "content" ContentInfo; req "attrs" (size_min 1 (SEQUENCE_OF Attribute))].

Definition rfc4073 : list (string * sty) := [
  ("ContentCollection", ContentCollection); ("ContentWithAttributes", ContentWithAttributes)].
