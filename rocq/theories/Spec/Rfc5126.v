(** RFC 5126, appendix A.1: ETS-ElectronicSignatureFormats-ExplicitSyntax88 (EXPLICIT TAGS). *)
From Coq Require Import List String ZArith NArith.
From Verif Require Import Asn1.Types Spec.X680.
From Verif Require Spec.Rfc2634 Spec.Rfc5755 Spec.Rfc6960 Spec.Rfc3161 Spec.Rfc5652.
From Verif Require Import Spec.Rfc5280.
Import ListNotations.
Open Scope string_scope.
Open Scope list_scope.

Definition TimeStampToken := Rfc3161.TimeStampToken.
Definition OtherHashValue := OCTET_STRING.
Definition OtherHashAlgAndValue := SEQUENCE [req "hashAlgorithm" AlgorithmIdentifier; req "hashValue" OtherHashValue].
Definition OtherHash := CHOICE [req "sha1Hash" OtherHashValue; req "otherHash" OtherHashAlgAndValue].
Definition OtherCertID := SEQUENCE [req "otherCertHash" OtherHash; opt "issuerSerial" Rfc2634.IssuerSerial].
Definition OtherSigningCertificate := SEQUENCE [
  req "certs" (SEQUENCE_OF OtherCertID); opt "policies" (SEQUENCE_OF PolicyInformation)].
Definition SigPolicyId := OBJECT_IDENTIFIER.
Definition SigPolicyHash := OtherHashAlgAndValue.
Definition SigPolicyQualifierId := OBJECT_IDENTIFIER.
Definition SigPolicyQualifierInfo := SEQUENCE [
  req "sigPolicyQualifierId" SigPolicyQualifierId; req "sigQualifier" ANY].
Definition SignaturePolicyId := SEQUENCE [
  req "sigPolicyId" SigPolicyId;
  req "sigPolicyHash" SigPolicyHash;
  opt "sigPolicyQualifiers" (size_min 1 (SEQUENCE_OF SigPolicyQualifierInfo))].
Definition SignaturePolicyImplied := NULL.
Definition SignaturePolicy := CHOICE [
  req "signaturePolicyId" SignaturePolicyId; req "signaturePolicyImplied" SignaturePolicyImplied].
Definition SPuri := IA5String.
Definition DisplayText := CHOICE [
  req "visibleString" (size 1 200 VisibleString);
  req "bmpString" (size 1 200 BMPString);
  req "utf8String" (size 1 200 UTF8String)].
Definition NoticeReference := SEQUENCE [req "organization" DisplayText; req "noticeNumbers" (SEQUENCE_OF INTEGER)].
Definition SPUserNotice := SEQUENCE [opt "noticeRef" NoticeReference; opt "explicitText" DisplayText].
Definition CommitmentTypeIdentifier := OBJECT_IDENTIFIER.
Definition CommitmentTypeQualifier := SEQUENCE [
  req "commitmentTypeIdentifier" CommitmentTypeIdentifier; req "qualifier" ANY].
Definition CommitmentTypeIndication := SEQUENCE [
  req "commitmentTypeId" CommitmentTypeIdentifier;
  opt "commitmentTypeQualifier" (size_min 1 (SEQUENCE_OF CommitmentTypeQualifier))].
Definition PostalAddress := size 1 6 (SEQUENCE_OF DirectoryString).
Definition SignerLocation := SEQUENCE [
  opt "countryName" (explicit 0 DirectoryString);
  opt "localityName" (explicit 1 DirectoryString);
  opt "postalAdddress" (explicit 2 PostalAddress)].
Definition SignatureTimeStampToken := TimeStampToken.
Definition ContentTimestamp := TimeStampToken.
Definition ClaimedAttributes := SEQUENCE_OF Attribute.
Definition CertifiedAttributes := Rfc5755.AttributeCertificate.
Definition SignerAttribute := SEQUENCE_OF (CHOICE [
  req "claimedAttributes" (explicit 0 ClaimedAttributes);
  req "certifiedAttributes" (explicit 1 CertifiedAttributes)]).
Definition CompleteCertificateRefs := SEQUENCE_OF OtherCertID.
Definition CrlIdentifier := SEQUENCE [
  req "crlissuer" Name; req "crlIssuedTime" UTCTime; opt "crlNumber" INTEGER].
Definition CrlValidatedID := SEQUENCE [req "crlHash" OtherHash; opt "crlIdentifier" CrlIdentifier].
Definition CRLListID := SEQUENCE [req "crls" (SEQUENCE_OF CrlValidatedID)].
Definition OcspIdentifier := SEQUENCE [
  req "ocspResponderID" Rfc6960.ResponderID; req "producedAt" GeneralizedTime].
Definition OcspResponsesID := SEQUENCE [req "ocspIdentifier" OcspIdentifier; opt "ocspRepHash" OtherHash].
Definition OcspListID := SEQUENCE [req "ocspResponses" (SEQUENCE_OF OcspResponsesID)].
Definition OtherRevRefType := OBJECT_IDENTIFIER.
Definition OtherRevRefs := SEQUENCE [req "otherRevRefType" OtherRevRefType; req "otherRevRefs" ANY].
Definition CrlOcspRef := SEQUENCE [
  opt "crlids" (explicit 0 CRLListID); opt "ocspids" (explicit 1 OcspListID); opt "otherRev" (explicit 2 OtherRevRefs)].
Definition CompleteRevocationRefs := SEQUENCE_OF CrlOcspRef.
Definition CertificateValues := SEQUENCE_OF Certificate.
Definition OtherRevValType := OBJECT_IDENTIFIER.
Definition OtherRevVals := SEQUENCE [req "otherRevValType" OtherRevValType; req "otherRevVals" ANY].
Definition RevocationValues := SEQUENCE [
  opt "crlVals" (explicit 0 (SEQUENCE_OF CertificateList));
  opt "ocspVals" (explicit 1 (SEQUENCE_OF Rfc6960.BasicOCSPResponse));
  opt "otherRevVals" (explicit 2 OtherRevVals)].
Definition ESCTimeStampToken := TimeStampToken.
Definition TimestampedCertsCRLs := TimeStampToken.
Definition ArchiveTimeStampToken := TimeStampToken.
Definition AttributeCertificateRefs := SEQUENCE_OF OtherCertID.
Definition AttributeRevocationRefs := SEQUENCE_OF CrlOcspRef.

Definition rfc5126 : list (string * sty) := [
  ("TimeStampToken", TimeStampToken); ("OtherHashValue", OtherHashValue);
  ("OtherHashAlgAndValue", OtherHashAlgAndValue); ("OtherHash", OtherHash); ("OtherCertID", OtherCertID);
  ("OtherSigningCertificate", OtherSigningCertificate); ("SigPolicyId", SigPolicyId);
  ("SigPolicyHash", SigPolicyHash); ("SigPolicyQualifierId", SigPolicyQualifierId);
  ("SigPolicyQualifierInfo", SigPolicyQualifierInfo); ("SignaturePolicyId", SignaturePolicyId);
  ("SignaturePolicyImplied", SignaturePolicyImplied); ("SignaturePolicy", SignaturePolicy); ("SPuri", SPuri);
  ("DisplayText", DisplayText); ("NoticeReference", NoticeReference); ("SPUserNotice", SPUserNotice);
  ("CommitmentTypeIdentifier", CommitmentTypeIdentifier); ("CommitmentTypeQualifier", CommitmentTypeQualifier);
  ("CommitmentTypeIndication", CommitmentTypeIndication); ("PostalAddress", PostalAddress);
  ("SignerLocation", SignerLocation); ("SignatureTimeStampToken", SignatureTimeStampToken);
  ("ContentTimestamp", ContentTimestamp); ("ClaimedAttributes", ClaimedAttributes);
  ("CertifiedAttributes", CertifiedAttributes); ("SignerAttribute", SignerAttribute);
  ("CompleteCertificateRefs", CompleteCertificateRefs); ("CrlIdentifier", CrlIdentifier);
  ("CrlValidatedID", CrlValidatedID); ("CRLListID", CRLListID); ("OcspIdentifier", OcspIdentifier);
  ("OcspResponsesID", OcspResponsesID); ("OcspListID", OcspListID); ("OtherRevRefType", OtherRevRefType);
  ("OtherRevRefs", OtherRevRefs); ("CrlOcspRef", CrlOcspRef); ("CompleteRevocationRefs", CompleteRevocationRefs);
  ("CertificateValues", CertificateValues); ("OtherRevValType", OtherRevValType); ("OtherRevVals", OtherRevVals);
  ("RevocationValues", RevocationValues); ("ESCTimeStampToken", ESCTimeStampToken);
  ("TimestampedCertsCRLs", TimestampedCertsCRLs); ("ArchiveTimeStampToken", ArchiveTimeStampToken);
  ("AttributeCertificateRefs", AttributeCertificateRefs); ("AttributeRevocationRefs", AttributeRevocationRefs);
  ("ContentInfo", Rfc5652.ContentInfo); ("ContentType", Rfc5652.ContentType); ("SignedData", Rfc5652.SignedData);
  ("EncapsulatedContentInfo", Rfc5652.EncapsulatedContentInfo); ("SignerInfo", Rfc5652.SignerInfo);
  ("MessageDigest", Rfc5652.MessageDigest); ("SigningTime", Rfc5652.SigningTime);
  ("Countersignature", Rfc5652.Countersignature); ("SigningCertificate", Rfc2634.SigningCertificate);
  ("IssuerSerial", Rfc2634.IssuerSerial); ("ContentReference", Rfc2634.ContentReference);
  ("ContentIdentifier", Rfc2634.ContentIdentifier); ("Certificate", Rfc5280.Certificate);
  ("AlgorithmIdentifier", Rfc5280.AlgorithmIdentifier); ("CertificateList", Rfc5280.CertificateList);
  ("Name", Rfc5280.Name); ("Attribute", Rfc5280.Attribute); ("GeneralNames", Rfc5280.GeneralNames);
  ("GeneralName", Rfc5280.GeneralName); ("PolicyInformation", Rfc5280.PolicyInformation);
  ("DirectoryString", Rfc5280.DirectoryString); ("AttributeCertificate", Rfc5755.AttributeCertificate);
  ("BasicOCSPResponse", Rfc6960.BasicOCSPResponse); ("ResponderID", Rfc6960.ResponderID)].
