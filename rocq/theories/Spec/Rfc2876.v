(** RFC 2876, section 4.3. *)
From Coq Require Import List String ZArith NArith.
From Verif Require Import Asn1.Types Spec.X680.
Import ListNotations.
Open Scope string_scope.
Open Scope list_scope.

Definition Skipjack_Parm := SEQUENCE [req "initialization-vector" OCTET_STRING].

Definition rfc2876 : list (string * sty) := [
  ("Skipjack_Parm", Skipjack_Parm)].
