(** RFC 5751, appendix A: SecureMimeMessageV3dot1 (IMPLICIT TAGS). *)
From Coq Require Import List String ZArith NArith.
From Verif Require Import Asn1.Types Spec.X680.
From Verif Require Import Spec.Rfc5652.
Import ListNotations.
Open Scope string_scope.
Open Scope list_scope.

Definition SMIMECapability := SEQUENCE [req "capabilityID" OBJECT_IDENTIFIER; opt "parameters" ANY].
Definition SMIMECapabilities := SEQUENCE_OF SMIMECapability.
Definition SMIMEEncryptionKeyPreference := CHOICE [
  req "issuerAndSerialNumber" (implicit 0 IssuerAndSerialNumber);
  req "receipentKeyId" (implicit 1 RecipientKeyIdentifier);
  req "subjectAltKeyIdentifier" (implicit 2 SubjectKeyIdentifier)].
Definition SMIMECapabilitiesParametersForRC2CBC := INTEGER.

Definition rfc5751 : list (string * sty) := [
  ("SMIMECapability", SMIMECapability); ("SMIMECapabilities", SMIMECapabilities);
  ("SMIMEEncryptionKeyPreference", SMIMEEncryptionKeyPreference);
  ("SMIMECapabilitiesParametersForRC2CBC", SMIMECapabilitiesParametersForRC2CBC);
  ("IssuerAndSerialNumber", Rfc5652.IssuerAndSerialNumber);
  ("RecipientKeyIdentifier", Rfc5652.RecipientKeyIdentifier); ("SubjectKeyIdentifier", Rfc5652.SubjectKeyIdentifier)].
