(** RFC 5652, section 12: CryptographicMessageSyntax2004 (IMPLICIT TAGS) and
    AttributeCertificateVersion1 (EXPLICIT TAGS).  The modules of RFC 3852 are the same. *)
From Coq Require Import List String ZArith NArith.
From Verif Require Import Asn1.Types Spec.X680.
From Verif Require Import Spec.Rfc5280 Spec.Rfc3281.
Import ListNotations.
Open Scope string_scope.
Open Scope list_scope.

Definition ContentType := OBJECT_IDENTIFIER.
Definition ContentInfo := SEQUENCE [req "contentType" ContentType; req "content" (explicit 0 ANY)].
Definition CMSVersion := INTEGER_OF [("v0", 0); ("v1", 1); ("v2", 2); ("v3", 3); ("v4", 4); ("v5", 5)]%Z.
Definition DigestAlgorithmIdentifier := AlgorithmIdentifier.
Definition DigestAlgorithmIdentifiers := SET_OF DigestAlgorithmIdentifier.
Definition SignatureAlgorithmIdentifier := AlgorithmIdentifier.
Definition KeyEncryptionAlgorithmIdentifier := AlgorithmIdentifier.
Definition ContentEncryptionAlgorithmIdentifier := AlgorithmIdentifier.
Definition MessageAuthenticationCodeAlgorithm := AlgorithmIdentifier.
Definition KeyDerivationAlgorithmIdentifier := AlgorithmIdentifier.
Definition EncapsulatedContentInfo := SEQUENCE [
  req "eContentType" ContentType; opt "eContent" (explicit 0 OCTET_STRING)].

Definition AttributeValue := ANY.
Definition Attribute := SEQUENCE [req "attrType" OBJECT_IDENTIFIER; req "attrValues" (SET_OF AttributeValue)].
Definition SignedAttributes := size_min 1 (SET_OF Attribute).
Definition UnsignedAttributes := size_min 1 (SET_OF Attribute).
Definition UnprotectedAttributes := size_min 1 (SET_OF Attribute).
Definition AuthAttributes := size_min 1 (SET_OF Attribute).
Definition UnauthAttributes := size_min 1 (SET_OF Attribute).

(** AttributeCertificateVersion1 *)
Definition IssuerSerial := SEQUENCE [
  req "issuer" GeneralNames; req "serial" CertificateSerialNumber; opt "issuerUID" UniqueIdentifier].
Definition AttCertVersionV1 := INTEGER_OF [("v1", 0)]%Z.
Definition AttCertValidityPeriod := SEQUENCE [req "notBeforeTime" GeneralizedTime; req "notAfterTime" GeneralizedTime].
Definition AttributeCertificateInfoV1 := SEQUENCE [
  dft "version" AttCertVersionV1 (VInt 0);
  req "subject" (CHOICE [req "baseCertificateID" (explicit 0 IssuerSerial); req "subjectName" (explicit 1 GeneralNames)]);
  req "issuer" GeneralNames;
  req "signature" AlgorithmIdentifier;
  req "serialNumber" CertificateSerialNumber;
  req "attCertValidityPeriod" AttCertValidityPeriod;
  req "attributes" (SEQUENCE_OF Rfc5280.Attribute);
  opt "issuerUniqueID" UniqueIdentifier;
  opt "extensions" Extensions].
Definition AttributeCertificateV1 := SEQUENCE [
  req "acInfo" AttributeCertificateInfoV1; req "signatureAlgorithm" AlgorithmIdentifier; req "signature" BIT_STRING].

(** PKCS #6 *)
Definition Signature := BIT_STRING.
Definition ExtendedCertificateInfo := SEQUENCE [
  req "version" CMSVersion; req "certificate" Certificate; req "attributes" UnauthAttributes].
Definition ExtendedCertificate := SEQUENCE [
  req "extendedCertificateInfo" ExtendedCertificateInfo;
  req "signatureAlgorithm" SignatureAlgorithmIdentifier;
  req "signature" Signature].
Definition ExtendedCertificateOrCertificate := CHOICE [
  req "certificate" Certificate; req "extendedCertificate" (implicit 0 ExtendedCertificate)].

Definition OtherRevocationInfoFormat := SEQUENCE [req "otherRevInfoFormat" OBJECT_IDENTIFIER; req "otherRevInfo" ANY].
Definition RevocationInfoChoice := CHOICE [
  req "crl" CertificateList; req "other" (implicit 1 OtherRevocationInfoFormat)].
Definition RevocationInfoChoices := SET_OF RevocationInfoChoice.
Definition AttributeCertificateV2 := AttributeCertificate.
Definition OtherCertificateFormat := SEQUENCE [req "otherCertFormat" OBJECT_IDENTIFIER; req "otherCert" ANY].
Definition CertificateChoices := CHOICE [
  req "certificate" Certificate;
  req "extendedCertificate" (implicit 0 ExtendedCertificate);
  req "v1AttrCert" (implicit 1 AttributeCertificateV1);
  req "v2AttrCert" (implicit 2 AttributeCertificateV2);
  req "other" (implicit 3 OtherCertificateFormat)].
Definition CertificateSet := SET_OF CertificateChoices.
Definition IssuerAndSerialNumber := SEQUENCE [req "issuer" Name; req "serialNumber" CertificateSerialNumber].
Definition UserKeyingMaterial := OCTET_STRING.
Definition OtherKeyAttribute := SEQUENCE [req "keyAttrId" OBJECT_IDENTIFIER; opt "keyAttr" ANY].

Definition SubjectKeyIdentifier := OCTET_STRING.
Definition SignatureValue := OCTET_STRING.
Definition SignerIdentifier := CHOICE [
  req "issuerAndSerialNumber" IssuerAndSerialNumber; req "subjectKeyIdentifier" (implicit 0 SubjectKeyIdentifier)].
Definition SignerInfo := SEQUENCE [
  req "version" CMSVersion;
  req "sid" SignerIdentifier;
  req "digestAlgorithm" DigestAlgorithmIdentifier;
  opt "signedAttrs" (implicit 0 SignedAttributes);
  req "signatureAlgorithm" SignatureAlgorithmIdentifier;
  req "signature" SignatureValue;
  opt "unsignedAttrs" (implicit 1 UnsignedAttributes)].
Definition SignerInfos := SET_OF SignerInfo.
Definition SignedData := SEQUENCE [
  req "version" CMSVersion;
  req "digestAlgorithms" DigestAlgorithmIdentifiers;
  req "encapContentInfo" EncapsulatedContentInfo;
  opt "certificates" (implicit 0 CertificateSet);
  opt "crls" (implicit 1 RevocationInfoChoices);
  req "signerInfos" SignerInfos].

Definition OriginatorInfo := SEQUENCE [
  opt "certs" (implicit 0 CertificateSet); opt "crls" (implicit 1 RevocationInfoChoices)].
Definition EncryptedContent := OCTET_STRING.
Definition EncryptedContentInfo := SEQUENCE [
  req "contentType" ContentType;
  req "contentEncryptionAlgorithm" ContentEncryptionAlgorithmIdentifier;
  opt "encryptedContent" (implicit 0 EncryptedContent)].
Definition EncryptedKey := OCTET_STRING.
Definition RecipientIdentifier := CHOICE [
  req "issuerAndSerialNumber" IssuerAndSerialNumber; req "subjectKeyIdentifier" (implicit 0 SubjectKeyIdentifier)].
Definition KeyTransRecipientInfo := SEQUENCE [
  req "version" CMSVersion;
  req "rid" RecipientIdentifier;
  req "keyEncryptionAlgorithm" KeyEncryptionAlgorithmIdentifier;
  req "encryptedKey" EncryptedKey].
Definition OriginatorPublicKey := SEQUENCE [req "algorithm" AlgorithmIdentifier; req "publicKey" BIT_STRING].
Definition OriginatorIdentifierOrKey := CHOICE [
  req "issuerAndSerialNumber" IssuerAndSerialNumber;
  req "subjectKeyIdentifier" (implicit 0 SubjectKeyIdentifier);
  req "originatorKey" (implicit 1 OriginatorPublicKey)].
Definition RecipientKeyIdentifier := SEQUENCE [
  req "subjectKeyIdentifier" SubjectKeyIdentifier; opt "date" GeneralizedTime; opt "other" OtherKeyAttribute].
Definition KeyAgreeRecipientIdentifier := CHOICE [
  req "issuerAndSerialNumber" IssuerAndSerialNumber; req "rKeyId" (implicit 0 RecipientKeyIdentifier)].
Definition RecipientEncryptedKey := SEQUENCE [
  req "rid" KeyAgreeRecipientIdentifier; req "encryptedKey" EncryptedKey].
Definition RecipientEncryptedKeys := SEQUENCE_OF RecipientEncryptedKey.
Definition KeyAgreeRecipientInfo := SEQUENCE [
  req "version" CMSVersion;
  req "originator" (explicit 0 OriginatorIdentifierOrKey);
  opt "ukm" (explicit 1 UserKeyingMaterial);
  req "keyEncryptionAlgorithm" KeyEncryptionAlgorithmIdentifier;
  req "recipientEncryptedKeys" RecipientEncryptedKeys].
Definition KEKIdentifier := SEQUENCE [
  req "keyIdentifier" OCTET_STRING; opt "date" GeneralizedTime; opt "other" OtherKeyAttribute].
Definition KEKRecipientInfo := SEQUENCE [
  req "version" CMSVersion;
  req "kekid" KEKIdentifier;
  req "keyEncryptionAlgorithm" KeyEncryptionAlgorithmIdentifier;
  req "encryptedKey" EncryptedKey].
Definition PasswordRecipientInfo := SEQUENCE [
  req "version" CMSVersion;
  opt "keyDerivationAlgorithm" (implicit 0 KeyDerivationAlgorithmIdentifier);
  req "keyEncryptionAlgorithm" KeyEncryptionAlgorithmIdentifier;
  req "encryptedKey" EncryptedKey].
Definition OtherRecipientInfo := SEQUENCE [req "oriType" OBJECT_IDENTIFIER; req "oriValue" ANY].
Definition RecipientInfo := CHOICE [
  req "ktri" KeyTransRecipientInfo;
  req "kari" (implicit 1 KeyAgreeRecipientInfo);
  req "kekri" (implicit 2 KEKRecipientInfo);
  req "pwri" (implicit 3 PasswordRecipientInfo);
  req "ori" (implicit 4 OtherRecipientInfo)].
Definition RecipientInfos := size_min 1 (SET_OF RecipientInfo).
Definition EnvelopedData := SEQUENCE [
  req "version" CMSVersion;
  opt "originatorInfo" (implicit 0 OriginatorInfo);
  req "recipientInfos" RecipientInfos;
  req "encryptedContentInfo" EncryptedContentInfo;
  opt "unprotectedAttrs" (implicit 1 UnprotectedAttributes)].
Definition Digest := OCTET_STRING.
Definition DigestedData := SEQUENCE [
  req "version" CMSVersion;
  req "digestAlgorithm" DigestAlgorithmIdentifier;
  req "encapContentInfo" EncapsulatedContentInfo;
  req "digest" Digest].
Definition EncryptedData := SEQUENCE [
  req "version" CMSVersion;
  req "encryptedContentInfo" EncryptedContentInfo;
  opt "unprotectedAttrs" (implicit 1 UnprotectedAttributes)].
Definition MessageAuthenticationCode := OCTET_STRING.
Definition AuthenticatedData := SEQUENCE [
  req "version" CMSVersion;
  opt "originatorInfo" (implicit 0 OriginatorInfo);
  req "recipientInfos" RecipientInfos;
  req "macAlgorithm" MessageAuthenticationCodeAlgorithm;
  opt "digestAlgorithm" (implicit 1 DigestAlgorithmIdentifier);
  req "encapContentInfo" EncapsulatedContentInfo;
  opt "authAttrs" (implicit 2 AuthAttributes);
  req "mac" MessageAuthenticationCode;
  opt "unauthAttrs" (implicit 3 UnauthAttributes)].
Definition MessageDigest := OCTET_STRING.
Definition SigningTime := Time.
Definition Countersignature := SignerInfo.

Definition rfc5652 : list (string * sty) := [
  ("ContentType", ContentType); ("ContentInfo", ContentInfo); ("CMSVersion", CMSVersion);
  ("DigestAlgorithmIdentifier", DigestAlgorithmIdentifier);
  ("DigestAlgorithmIdentifiers", DigestAlgorithmIdentifiers);
  ("SignatureAlgorithmIdentifier", SignatureAlgorithmIdentifier);
  ("KeyEncryptionAlgorithmIdentifier", KeyEncryptionAlgorithmIdentifier);
  ("ContentEncryptionAlgorithmIdentifier", ContentEncryptionAlgorithmIdentifier);
  ("MessageAuthenticationCodeAlgorithm", MessageAuthenticationCodeAlgorithm);
  ("KeyDerivationAlgorithmIdentifier", KeyDerivationAlgorithmIdentifier);
  ("EncapsulatedContentInfo", EncapsulatedContentInfo); ("AttributeValue", AttributeValue); ("Attribute", Attribute);
  ("SignedAttributes", SignedAttributes); ("UnsignedAttributes", UnsignedAttributes);
  ("UnprotectedAttributes", UnprotectedAttributes); ("AuthAttributes", AuthAttributes);
  ("UnauthAttributes", UnauthAttributes); ("AttCertVersionV1", AttCertVersionV1);
  ("AttributeCertificateInfoV1", AttributeCertificateInfoV1); ("AttributeCertificateV1", AttributeCertificateV1);
  ("Signature", Signature); ("ExtendedCertificateInfo", ExtendedCertificateInfo);
  ("ExtendedCertificate", ExtendedCertificate);
  ("ExtendedCertificateOrCertificate", ExtendedCertificateOrCertificate);
  ("OtherRevocationInfoFormat", OtherRevocationInfoFormat); ("RevocationInfoChoice", RevocationInfoChoice);
  ("RevocationInfoChoices", RevocationInfoChoices); ("AttributeCertificateV2", AttributeCertificateV2);
  ("OtherCertificateFormat", OtherCertificateFormat); ("CertificateChoices", CertificateChoices);
  ("CertificateSet", CertificateSet); ("IssuerAndSerialNumber", IssuerAndSerialNumber);
  ("UserKeyingMaterial", UserKeyingMaterial); ("OtherKeyAttribute", OtherKeyAttribute);
  ("SubjectKeyIdentifier", SubjectKeyIdentifier); ("SignatureValue", SignatureValue);
  ("SignerIdentifier", SignerIdentifier); ("SignerInfo", SignerInfo); ("SignerInfos", SignerInfos);
  ("SignedData", SignedData); ("OriginatorInfo", OriginatorInfo); ("EncryptedContent", EncryptedContent);
  ("EncryptedContentInfo", EncryptedContentInfo); ("EncryptedKey", EncryptedKey);
  ("RecipientIdentifier", RecipientIdentifier); ("KeyTransRecipientInfo", KeyTransRecipientInfo);
  ("OriginatorPublicKey", OriginatorPublicKey); ("OriginatorIdentifierOrKey", OriginatorIdentifierOrKey);
  ("RecipientKeyIdentifier", RecipientKeyIdentifier); ("KeyAgreeRecipientIdentifier", KeyAgreeRecipientIdentifier);
  ("RecipientEncryptedKey", RecipientEncryptedKey); ("RecipientEncryptedKeys", RecipientEncryptedKeys);
  ("KeyAgreeRecipientInfo", KeyAgreeRecipientInfo); ("KEKIdentifier", KEKIdentifier);
  ("KEKRecipientInfo", KEKRecipientInfo); ("PasswordRecipientInfo", PasswordRecipientInfo);
  ("OtherRecipientInfo", OtherRecipientInfo); ("RecipientInfo", RecipientInfo); ("RecipientInfos", RecipientInfos);
  ("EnvelopedData", EnvelopedData); ("Digest", Digest); ("DigestedData", DigestedData);
  ("EncryptedData", EncryptedData); ("MessageAuthenticationCode", MessageAuthenticationCode);
  ("AuthenticatedData", AuthenticatedData); ("MessageDigest", MessageDigest); ("SigningTime", SigningTime);
  ("Countersignature", Countersignature); ("Time", Rfc5280.Time)].
