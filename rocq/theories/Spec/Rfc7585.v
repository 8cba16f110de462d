(** RFC 7585, appendix A. *)
From Coq Require Import List String ZArith NArith.
From Verif Require Import Asn1.Types Spec.X680.
Import ListNotations.
Open Scope string_scope.
Open Scope list_scope.

Definition NAIRealm := size 1 255 UTF8String.

Definition rfc7585 : list (string * sty) := [
  ("NAIRealm", NAIRealm)].
