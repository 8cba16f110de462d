(** RFC 8360: the types are those of RFC 3779. *)
From Coq Require Import List String ZArith NArith.
From Verif Require Import Asn1.Types Spec.X680.
From Verif Require Spec.Rfc3779.
Import ListNotations.
Open Scope string_scope.
Open Scope list_scope.

Definition rfc8360 : list (string * sty) := [
  ("IPAddrBlocks", Rfc3779.IPAddrBlocks); ("ASIdentifiers", Rfc3779.ASIdentifiers)].
