(** RFC 7773, appendix A. *)
From Coq Require Import List String ZArith NArith.
From Verif Require Import Asn1.Types Spec.X680.
Import ListNotations.
Open Scope string_scope.
Open Scope list_scope.

Definition AuthenticationContext := SEQUENCE [req "contextType" UTF8String; opt "contextInfo" UTF8String].
Definition AuthenticationContexts := size_min 1 (SEQUENCE_OF AuthenticationContext).

Definition rfc7773 : list (string * sty) := [
  ("AuthenticationContext", AuthenticationContext); ("AuthenticationContexts", AuthenticationContexts)].
