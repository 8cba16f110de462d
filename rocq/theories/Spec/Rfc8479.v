(** RFC 8479, section 2. *)
From Coq Require Import List String ZArith NArith.
From Verif Require Import Asn1.Types Spec.X680.
Import ListNotations.
Open Scope string_scope.
Open Scope list_scope.

Definition ValidationParams := SEQUENCE [req "hashAlg" OBJECT_IDENTIFIER; req "seed" OCTET_STRING].

Definition rfc8479 : list (string * sty) := [
  ("ValidationParams", ValidationParams)].
