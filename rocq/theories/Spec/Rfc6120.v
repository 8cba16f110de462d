(** RFC 6120, section 13.7.1.4. *)
From Coq Require Import List String ZArith NArith.
From Verif Require Import Asn1.Types Spec.X680.
Import ListNotations.
Open Scope string_scope.
Open Scope list_scope.

Definition XmppAddr := UTF8String.

Definition rfc6120 : list (string * sty) := [
  ("XmppAddr", XmppAddr)].
