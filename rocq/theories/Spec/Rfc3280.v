(** RFC 3280, appendix A: PKIX1Explicit88 (EXPLICIT TAGS) and PKIX1Implicit88 (IMPLICIT TAGS).
    The types that read the same in RFC 5280 are taken from Spec/Rfc5280.v. *)
From Coq Require Import List String ZArith NArith.
From Verif Require Import Asn1.Types Spec.X680.
From Verif Require Spec.Rfc5280.
Import ListNotations.
Open Scope string_scope.
Open Scope list_scope.

(** ub-emailaddress-length is 128 *)
Definition EmailAddress := size 1 128 IA5String.

Definition rfc3280 : list (string * sty) :=
  ("EmailAddress", EmailAddress) :: filter (fun e => negb (String.eqb (fst e) "EmailAddress")) Rfc5280.rfc5280.
