(** RFC 4985, appendix A.1. *)
From Coq Require Import List String ZArith NArith.
From Verif Require Import Asn1.Types Spec.X680.
Import ListNotations.
Open Scope string_scope.
Open Scope list_scope.

Definition SRVName := size_min 1 IA5String.

Definition rfc4985 : list (string * sty) := [
  ("SRVName", SRVName)].
