(** RFC 2315, PKCS #7 version 1.5, with the types it takes from PKCS #6 and RFC 1422. *)
From Coq Require Import List String ZArith NArith.
From Verif Require Import Asn1.Types Spec.X680.
From Verif Require Import Spec.Rfc5280 Spec.Rfc2459.
Import ListNotations.
Open Scope string_scope.
Open Scope list_scope.

Definition ContentType := OBJECT_IDENTIFIER.
Definition ContentInfo := SEQUENCE [req "contentType" ContentType; opt "content" (explicit 0 ANY)].
Definition Version := INTEGER.
Definition SerialNumber := INTEGER.
Definition DigestAlgorithmIdentifier := AlgorithmIdentifier.
Definition DigestAlgorithmIdentifiers := SET_OF DigestAlgorithmIdentifier.
Definition DigestEncryptionAlgorithmIdentifier := AlgorithmIdentifier.
Definition KeyEncryptionAlgorithmIdentifier := AlgorithmIdentifier.
Definition ContentEncryptionAlgorithmIdentifier := AlgorithmIdentifier.
Definition SignatureAlgorithmIdentifier := AlgorithmIdentifier.
Definition Signature := BIT_STRING.
Definition Attributes := SET_OF Attribute.
Definition IssuerAndSerialNumber := SEQUENCE [req "issuer" Name; req "serialNumber" CertificateSerialNumber].
Definition ExtendedCertificateInfo := SEQUENCE [
  req "version" Version; req "certificate" Certificate; req "attributes" Attributes].
Definition ExtendedCertificate := SEQUENCE [
  req "extendedCertificateInfo" ExtendedCertificateInfo; req "signatureAlgorithm" SignatureAlgorithmIdentifier;
  req "signature" Signature].
Definition ExtendedCertificateOrCertificate := CHOICE [
  req "certificate" Certificate; req "extendedCertificate" (implicit 0 ExtendedCertificate)].
Definition ExtendedCertificatesAndCertificates := SET_OF ExtendedCertificateOrCertificate.
(** RFC 1422 *)
Definition CRLEntry := SEQUENCE [req "userCertificate" SerialNumber; req "revocationDate" UTCTime].
Definition TBSCertificateRevocationList := SEQUENCE [
  req "signature" AlgorithmIdentifier; req "issuer" Name; req "lastUpdate" UTCTime; req "nextUpdate" UTCTime;
  opt "revokedCertificates" (SEQUENCE_OF CRLEntry)].
Definition CertificateRevocationList := SEQUENCE [
  req "tbsCertificateRevocationList" TBSCertificateRevocationList;
  req "signatureAlgorithm" AlgorithmIdentifier; req "signature" BIT_STRING].
Definition CertificateRevocationLists := SET_OF CertificateRevocationList.
Definition EncryptedDigest := OCTET_STRING.
Definition SignerInfo := SEQUENCE [
  req "version" Version;
  req "issuerAndSerialNumber" IssuerAndSerialNumber;
  req "digestAlgorithm" DigestAlgorithmIdentifier;
  opt "authenticatedAttributes" (implicit 0 Attributes);
  req "digestEncryptionAlgorithm" DigestEncryptionAlgorithmIdentifier;
  req "encryptedDigest" EncryptedDigest;
  opt "unauthenticatedAttributes" (implicit 1 Attributes)].
Definition SignerInfos := SET_OF SignerInfo.
Definition SignedData := SEQUENCE [
  req "version" Version;
  req "digestAlgorithms" DigestAlgorithmIdentifiers;
  req "contentInfo" ContentInfo;
  opt "certificates" (implicit 0 ExtendedCertificatesAndCertificates);
  opt "crls" (implicit 1 CertificateRevocationLists);
  req "signerInfos" SignerInfos].
Definition DigestInfo := SEQUENCE [req "digestAlgorithm" DigestAlgorithmIdentifier; req "digest" OCTET_STRING].
Definition EncryptedKey := OCTET_STRING.
Definition RecipientInfo := SEQUENCE [
  req "version" Version; req "issuerAndSerialNumber" IssuerAndSerialNumber;
  req "keyEncryptionAlgorithm" KeyEncryptionAlgorithmIdentifier; req "encryptedKey" EncryptedKey].
Definition RecipientInfos := SET_OF RecipientInfo.
Definition EncryptedContent := OCTET_STRING.
Definition EncryptedContentInfo := SEQUENCE [
  req "contentType" ContentType; req "contentEncryptionAlgorithm" ContentEncryptionAlgorithmIdentifier;
  opt "encryptedContent" (implicit 0 EncryptedContent)].
Definition EnvelopedData := SEQUENCE [
  req "version" Version; req "recipientInfos" RecipientInfos; req "encryptedContentInfo" EncryptedContentInfo].
Definition SignedAndEnvelopedData := SEQUENCE [
  req "version" Version;
  req "recipientInfos" RecipientInfos;
  req "digestAlgorithms" DigestAlgorithmIdentifiers;
  req "encryptedContentInfo" EncryptedContentInfo;
  opt "certificates" (implicit 0 ExtendedCertificatesAndCertificates);
  opt "crls" (implicit 1 CertificateRevocationLists);
  req "signerInfos" SignerInfos].
Definition Digest := OCTET_STRING.
Definition DigestedData := SEQUENCE [
  req "version" Version; req "digestAlgorithm" DigestAlgorithmIdentifier; req "contentInfo" ContentInfo; req "digest" Digest].
Definition EncryptedData := SEQUENCE [req "version" Version; req "encryptedContentInfo" EncryptedContentInfo].
Definition Data := OCTET_STRING.

Definition rfc2315 : list (string * sty) := [
  ("ContentType", ContentType); ("ContentInfo", ContentInfo); ("Version", Version); ("SerialNumber", SerialNumber);
  ("DigestAlgorithmIdentifier", DigestAlgorithmIdentifier);
  ("DigestAlgorithmIdentifiers", DigestAlgorithmIdentifiers);
  ("DigestEncryptionAlgorithmIdentifier", DigestEncryptionAlgorithmIdentifier);
  ("KeyEncryptionAlgorithmIdentifier", KeyEncryptionAlgorithmIdentifier);
  ("ContentEncryptionAlgorithmIdentifier", ContentEncryptionAlgorithmIdentifier);
  ("SignatureAlgorithmIdentifier", SignatureAlgorithmIdentifier); ("Signature", Signature);
  ("Attributes", Attributes); ("IssuerAndSerialNumber", IssuerAndSerialNumber);
  ("ExtendedCertificateInfo", ExtendedCertificateInfo); ("ExtendedCertificate", ExtendedCertificate);
  ("ExtendedCertificateOrCertificate", ExtendedCertificateOrCertificate);
  ("ExtendedCertificatesAndCertificates", ExtendedCertificatesAndCertificates); ("CRLEntry", CRLEntry);
  ("TBSCertificateRevocationList", TBSCertificateRevocationList);
  ("CertificateRevocationList", CertificateRevocationList);
  ("CertificateRevocationLists", CertificateRevocationLists); ("EncryptedDigest", EncryptedDigest);
  ("SignerInfo", SignerInfo); ("SignerInfos", SignerInfos); ("SignedData", SignedData); ("DigestInfo", DigestInfo);
  ("EncryptedKey", EncryptedKey); ("RecipientInfo", RecipientInfo); ("RecipientInfos", RecipientInfos);
  ("EncryptedContent", EncryptedContent); ("EncryptedContentInfo", EncryptedContentInfo);
  ("EnvelopedData", EnvelopedData); ("SignedAndEnvelopedData", SignedAndEnvelopedData); ("Digest", Digest);
  ("DigestedData", DigestedData); ("EncryptedData", EncryptedData); ("Data", Data)].
