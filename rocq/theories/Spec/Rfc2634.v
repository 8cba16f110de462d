(** RFC 2634, appendix A: ExtendedSecurityServices (IMPLICIT TAGS). *)
From Coq Require Import List String ZArith NArith.
From Verif Require Import Asn1.Types Spec.X680.
From Verif Require Import Spec.Rfc5280 Spec.Rfc5652.
Import ListNotations.
Open Scope string_scope.
Open Scope list_scope.

Definition ContentIdentifier := OCTET_STRING.
Definition AllOrFirstTier := INTEGER_OF [("allReceipts", 0); ("firstTierRecipients", 1)]%Z.
Definition ReceiptsFrom := CHOICE [
  req "allOrFirstTier" (implicit 0 AllOrFirstTier); req "receiptList" (implicit 1 (SEQUENCE_OF GeneralNames))].
Definition ReceiptRequest := SEQUENCE [
  req "signedContentIdentifier" ContentIdentifier;
  req "receiptsFrom" ReceiptsFrom;
  req "receiptsTo" (size 1 16 (SEQUENCE_OF GeneralNames))].
Definition ESSVersion := INTEGER_OF [("v1", 1)]%Z.
Definition Receipt := SEQUENCE [
  req "version" ESSVersion;
  req "contentType" ContentType;
  req "signedContentIdentifier" ContentIdentifier;
  req "originatorSignatureValue" OCTET_STRING].
Definition ContentHints := SEQUENCE [
  opt "contentDescription" (size_min 1 UTF8String); req "contentType" ContentType].
Definition MsgSigDigest := OCTET_STRING.
Definition ContentReference := SEQUENCE [
  req "contentType" ContentType;
  req "signedContentIdentifier" ContentIdentifier;
  req "originatorSignatureValue" OCTET_STRING].
Definition SecurityPolicyIdentifier := OBJECT_IDENTIFIER.
Definition SecurityClassification := range 0 256 (INTEGER_OF [
  ("unmarked", 0); ("unclassified", 1); ("restricted", 2); ("confidential", 3); ("secret", 4); ("top-secret", 5)]%Z).
Definition ESSPrivacyMark := CHOICE [
  req "pString" (size 1 128 PrintableString); req "utf8String" (size_min 1 UTF8String)].
Definition SecurityCategory := SEQUENCE [req "type" (implicit 0 OBJECT_IDENTIFIER); req "value" (implicit 1 ANY)].
Definition SecurityCategories := size 1 64 (SET_OF SecurityCategory).
Definition ESSSecurityLabel := SET [
  req "security-policy-identifier" SecurityPolicyIdentifier;
  opt "security-classification" SecurityClassification;
  opt "privacy-mark" ESSPrivacyMark;
  opt "security-categories" SecurityCategories].
Definition EquivalentLabels := SEQUENCE_OF ESSSecurityLabel.
Definition EntityIdentifier := CHOICE [
  req "issuerAndSerialNumber" IssuerAndSerialNumber; req "subjectKeyIdentifier" Rfc5652.SubjectKeyIdentifier].
Definition MLReceiptPolicy := CHOICE [
  req "none" (implicit 0 NULL);
  req "insteadOf" (implicit 1 (size_min 1 (SEQUENCE_OF GeneralNames)));
  req "inAdditionTo" (implicit 2 (size_min 1 (SEQUENCE_OF GeneralNames)))].
Definition MLData := SEQUENCE [
  req "mailListIdentifier" EntityIdentifier;
  req "expansionTime" GeneralizedTime;
  opt "mlReceiptPolicy" MLReceiptPolicy].
Definition MLExpansionHistory := size 1 64 (SEQUENCE_OF MLData).
Definition Hash := OCTET_STRING.
Definition IssuerSerial := SEQUENCE [req "issuer" GeneralNames; req "serialNumber" CertificateSerialNumber].
Definition ESSCertID := SEQUENCE [req "certHash" Hash; opt "issuerSerial" IssuerSerial].
Definition SigningCertificate := SEQUENCE [
  req "certs" (SEQUENCE_OF ESSCertID); opt "policies" (SEQUENCE_OF PolicyInformation)].

Definition rfc2634 : list (string * sty) := [
  ("ContentIdentifier", ContentIdentifier); ("AllOrFirstTier", AllOrFirstTier); ("ReceiptsFrom", ReceiptsFrom);
  ("ReceiptRequest", ReceiptRequest); ("ESSVersion", ESSVersion); ("Receipt", Receipt);
  ("ContentHints", ContentHints); ("MsgSigDigest", MsgSigDigest); ("ContentReference", ContentReference);
  ("SecurityPolicyIdentifier", SecurityPolicyIdentifier); ("SecurityClassification", SecurityClassification);
  ("ESSPrivacyMark", ESSPrivacyMark); ("SecurityCategory", SecurityCategory);
  ("SecurityCategories", SecurityCategories); ("ESSSecurityLabel", ESSSecurityLabel);
  ("EquivalentLabels", EquivalentLabels); ("EntityIdentifier", EntityIdentifier);
  ("MLReceiptPolicy", MLReceiptPolicy); ("MLData", MLData); ("MLExpansionHistory", MLExpansionHistory);
  ("Hash", Hash); ("IssuerSerial", IssuerSerial); ("ESSCertID", ESSCertID);
  ("SigningCertificate", SigningCertificate); ("ContentType", Rfc5652.ContentType);
  ("IssuerAndSerialNumber", Rfc5652.IssuerAndSerialNumber); ("SubjectKeyIdentifier", Rfc5652.SubjectKeyIdentifier);
  ("PolicyInformation", Rfc5280.PolicyInformation); ("GeneralNames", Rfc5280.GeneralNames);
  ("CertificateSerialNumber", Rfc5280.CertificateSerialNumber)].
