(** RFC 2314, section 6: PKCS #10 version 1.5. *)
From Coq Require Import List String ZArith NArith.
From Verif Require Import Asn1.Types Spec.X680.
From Verif Require Import Spec.Rfc5280 Spec.Rfc2459.
Import ListNotations.
Open Scope string_scope.
Open Scope list_scope.

Definition Version := INTEGER.
Definition Attributes := SET_OF Attribute.
Definition CertificationRequestInfo := SEQUENCE [
  req "version" Version;
  req "subject" Name;
  req "subjectPublicKeyInfo" SubjectPublicKeyInfo;
  req "attributes" (implicit 0 Attributes)].
Definition SignatureAlgorithmIdentifier := AlgorithmIdentifier.
Definition Signature := BIT_STRING.
Definition CertificationRequest := SEQUENCE [
  req "certificationRequestInfo" CertificationRequestInfo;
  req "signatureAlgorithm" SignatureAlgorithmIdentifier;
  req "signature" Signature].

Definition rfc2314 : list (string * sty) := [
  ("Version", Version); ("Attributes", Attributes); ("CertificationRequestInfo", CertificationRequestInfo);
  ("SignatureAlgorithmIdentifier", SignatureAlgorithmIdentifier); ("Signature", Signature);
  ("CertificationRequest", CertificationRequest)].
