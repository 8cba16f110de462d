(** RFC 5035, appendix A: ExtendedSecurityServices-2006 (IMPLICIT TAGS). *)
From Coq Require Import List String ZArith NArith.
From Verif Require Import Asn1.Types Spec.X680.
From Verif Require Spec.Rfc5652.
From Verif Require Import Spec.Rfc5280 Spec.Rfc2634.
Import ListNotations.
Open Scope string_scope.
Open Scope list_scope.

Definition ESSCertIDv2 := SEQUENCE [
  dft "hashAlgorithm" AlgorithmIdentifier (VSeq [Some (VOid [2; 16; 840; 1; 101; 3; 4; 2; 1]%N); None]);
  req "certHash" Hash;
  opt "issuerSerial" IssuerSerial].
Definition SigningCertificateV2 := SEQUENCE [
  req "certs" (SEQUENCE_OF ESSCertIDv2); opt "policies" (SEQUENCE_OF PolicyInformation)].

Definition rfc5035 : list (string * sty) := [
  ("ESSCertIDv2", ESSCertIDv2); ("SigningCertificateV2", SigningCertificateV2); ("ContentType", Rfc5652.ContentType);
  ("IssuerAndSerialNumber", Rfc5652.IssuerAndSerialNumber); ("SubjectKeyIdentifier", Rfc5652.SubjectKeyIdentifier);
  ("AlgorithmIdentifier", Rfc5280.AlgorithmIdentifier); ("PolicyInformation", Rfc5280.PolicyInformation);
  ("GeneralNames", Rfc5280.GeneralNames); ("CertificateSerialNumber", Rfc5280.CertificateSerialNumber);
  ("Hash", Rfc2634.Hash); ("IssuerSerial", Rfc2634.IssuerSerial); ("ESSCertID", Rfc2634.ESSCertID);
  ("SigningCertificate", Rfc2634.SigningCertificate); ("EntityIdentifier", Rfc2634.EntityIdentifier);
  ("MLReceiptPolicy", Rfc2634.MLReceiptPolicy); ("MLData", Rfc2634.MLData);
  ("MLExpansionHistory", Rfc2634.MLExpansionHistory); ("ESSPrivacyMark", Rfc2634.ESSPrivacyMark);
  ("SecurityClassification", Rfc2634.SecurityClassification);
  ("SecurityPolicyIdentifier", Rfc2634.SecurityPolicyIdentifier); ("SecurityCategory", Rfc2634.SecurityCategory);
  ("SecurityCategories", Rfc2634.SecurityCategories); ("ESSSecurityLabel", Rfc2634.ESSSecurityLabel);
  ("EquivalentLabels", Rfc2634.EquivalentLabels); ("ContentIdentifier", Rfc2634.ContentIdentifier);
  ("ContentReference", Rfc2634.ContentReference); ("MsgSigDigest", Rfc2634.MsgSigDigest);
  ("ContentHints", Rfc2634.ContentHints); ("AllOrFirstTier", Rfc2634.AllOrFirstTier);
  ("ReceiptsFrom", Rfc2634.ReceiptsFrom); ("ReceiptRequest", Rfc2634.ReceiptRequest);
  ("ESSVersion", Rfc2634.ESSVersion); ("Receipt", Rfc2634.Receipt)].
