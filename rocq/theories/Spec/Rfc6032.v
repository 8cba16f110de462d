(** RFC 6032, appendix A (IMPLICIT TAGS). *)
From Coq Require Import List String ZArith NArith.
From Verif Require Import Asn1.Types Spec.X680.
From Verif Require Import Spec.Rfc5652 Spec.Rfc5083.
Import ListNotations.
Open Scope string_scope.
Open Scope list_scope.

Definition EncryptedKeyPackage := CHOICE [
  req "encrypted" EncryptedData; req "enveloped" (implicit 0 EnvelopedData); req "authEnveloped" (implicit 1 AuthEnvelopedData)].
Definition ContentDecryptKeyID := OCTET_STRING.

Definition rfc6032 : list (string * sty) := [
  ("EncryptedKeyPackage", EncryptedKeyPackage); ("ContentDecryptKeyID", ContentDecryptKeyID)].
