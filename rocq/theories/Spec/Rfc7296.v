(** RFC 7296, section 3.6: CertBundle (EXPLICIT TAGS). *)
From Coq Require Import List String ZArith NArith.
From Verif Require Import Asn1.Types Spec.X680.
From Verif Require Import Spec.Rfc5280.
Import ListNotations.
Open Scope string_scope.
Open Scope list_scope.

Definition CertificateOrCRL := CHOICE [req "cert" (explicit 0 Certificate); req "crl" (explicit 1 CertificateList)].
Definition CertificateBundle := SEQUENCE_OF CertificateOrCRL.

Definition rfc7296 : list (string * sty) := [
  ("CertificateOrCRL", CertificateOrCRL); ("CertificateBundle", CertificateBundle)].
