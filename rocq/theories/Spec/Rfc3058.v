(** RFC 3058, appendix A. *)
From Coq Require Import List String ZArith NArith.
From Verif Require Import Asn1.Types Spec.X680.
Import ListNotations.
Open Scope string_scope.
Open Scope list_scope.

Definition IDEA_CBCPar := SEQUENCE [opt "iv" OCTET_STRING].

Definition rfc3058 : list (string * sty) := [
  ("IDEA_CBCPar", IDEA_CBCPar)].
