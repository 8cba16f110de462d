(** RFC 4683, appendix A. *)
From Coq Require Import List String ZArith NArith.
From Verif Require Import Asn1.Types Spec.X680.
From Verif Require Import Spec.Rfc5280.
Import ListNotations.
Open Scope string_scope.
Open Scope list_scope.

Definition SIM := SEQUENCE [
  req "hashAlg" AlgorithmIdentifier; req "authorityRandom" OCTET_STRING; req "pEPSI" OCTET_STRING].
Definition EncryptedPEPSI := SEQUENCE [
  req "identifierType" OBJECT_IDENTIFIER; req "identifier" UTF8String; req "sIM" SIM].
Definition HashContent := SEQUENCE [
  req "userPassword" UTF8String;
  req "authorityRandom" OCTET_STRING;
  req "identifierType" OBJECT_IDENTIFIER;
  req "identifier" UTF8String].

Definition rfc4683 : list (string * sty) := [
  ("SIM", SIM); ("EncryptedPEPSI", EncryptedPEPSI); ("HashContent", HashContent)].
