(** RFC 5752, appendix. *)
From Coq Require Import List String ZArith NArith.
From Verif Require Import Asn1.Types Spec.X680.
From Verif Require Import Spec.Rfc5652 Spec.Rfc5035.
Import ListNotations.
Open Scope string_scope.
Open Scope list_scope.

Definition SignAttrsHash := SEQUENCE [req "algID" DigestAlgorithmIdentifier; req "hash" OCTET_STRING].
Definition MultipleSignatures := SEQUENCE [
  req "bodyHashAlg" DigestAlgorithmIdentifier;
  req "signAlg" SignatureAlgorithmIdentifier;
  req "signAttrsHash" SignAttrsHash;
  opt "cert" ESSCertIDv2].

Definition rfc5752 : list (string * sty) := [
  ("SignAttrsHash", SignAttrsHash); ("MultipleSignatures", MultipleSignatures)].
