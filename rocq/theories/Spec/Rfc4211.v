(** RFC 4211, appendix B: PKIXCRMF-2005 (IMPLICIT TAGS). *)
From Coq Require Import List String ZArith NArith.
From Verif Require Import Asn1.Types Spec.X680.
From Verif Require Spec.Rfc5652.
From Verif Require Import Spec.Rfc5280.
Import ListNotations.
Open Scope string_scope.
Open Scope list_scope.

Definition EnvelopedData := Rfc5652.EnvelopedData.
Definition AttributeTypeAndValue := SEQUENCE [req "type" OBJECT_IDENTIFIER; req "value" ANY].
Definition Controls := size_min 1 (SEQUENCE_OF AttributeTypeAndValue).
Definition OptionalValidity := SEQUENCE [opt "notBefore" (explicit 0 Time); opt "notAfter" (explicit 1 Time)].
Definition CertTemplate := SEQUENCE [
  opt "version" (implicit 0 Version);
  opt "serialNumber" (implicit 1 INTEGER);
  opt "signingAlg" (implicit 2 AlgorithmIdentifier);
  opt "issuer" (explicit 3 Name);
  opt "validity" (implicit 4 OptionalValidity);
  opt "subject" (explicit 5 Name);
  opt "publicKey" (implicit 6 SubjectPublicKeyInfo);
  opt "issuerUID" (implicit 7 UniqueIdentifier);
  opt "subjectUID" (implicit 8 UniqueIdentifier);
  opt "extensions" (implicit 9 Extensions)].
Definition CertRequest := SEQUENCE [
  req "certReqId" INTEGER; req "certTemplate" CertTemplate; opt "controls" Controls].
Definition CertReq := CertRequest.
Definition PKMACValue := SEQUENCE [req "algId" AlgorithmIdentifier; req "value" BIT_STRING].
Definition PBMParameter := SEQUENCE [
  req "salt" OCTET_STRING; req "owf" AlgorithmIdentifier; req "iterationCount" INTEGER; req "mac" AlgorithmIdentifier].
Definition POPOSigningKeyInput := SEQUENCE [
  req "authInfo" (CHOICE [req "sender" (explicit 0 GeneralName); req "publicKeyMAC" PKMACValue]);
  req "publicKey" SubjectPublicKeyInfo].
Definition POPOSigningKey := SEQUENCE [
  opt "poposkInput" (implicit 0 POPOSigningKeyInput); req "algorithmIdentifier" AlgorithmIdentifier; req "signature" BIT_STRING].
Definition SubsequentMessage := INTEGER_OF [("encrCert", 0); ("challengeResp", 1)]%Z.
Definition POPOPrivKey := CHOICE [
  req "thisMessage" (implicit 0 BIT_STRING); req "subsequentMessage" (implicit 1 SubsequentMessage);
  req "dhMAC" (implicit 2 BIT_STRING); req "agreeMAC" (implicit 3 PKMACValue); req "encryptedKey" (implicit 4 EnvelopedData)].
Definition ProofOfPossession := CHOICE [
  req "raVerified" (implicit 0 NULL); req "signature" (implicit 1 POPOSigningKey);
  req "keyEncipherment" (explicit 2 POPOPrivKey); req "keyAgreement" (explicit 3 POPOPrivKey)].
Definition CertReqMsg := SEQUENCE [
  req "certReq" CertRequest; opt "popo" ProofOfPossession; opt "regInfo" (size_min 1 (SEQUENCE_OF AttributeTypeAndValue))].
Definition CertReqMessages := size_min 1 (SEQUENCE_OF CertReqMsg).
Definition RegToken := UTF8String.
Definition Authenticator := UTF8String.
Definition SinglePubInfo := SEQUENCE [
  req "pubMethod" (INTEGER_OF [("dontCare", 0); ("x500", 1); ("web", 2); ("ldap", 3)]%Z); opt "pubLocation" GeneralName].
Definition PKIPublicationInfo := SEQUENCE [
  req "action" (INTEGER_OF [("dontPublish", 0); ("pleasePublish", 1)]%Z);
  opt "pubInfos" (size_min 1 (SEQUENCE_OF SinglePubInfo))].
Definition EncryptedValue := SEQUENCE [
  opt "intendedAlg" (implicit 0 AlgorithmIdentifier);
  opt "symmAlg" (implicit 1 AlgorithmIdentifier);
  opt "encSymmKey" (implicit 2 BIT_STRING);
  opt "keyAlg" (implicit 3 AlgorithmIdentifier);
  opt "valueHint" (implicit 4 OCTET_STRING);
  req "encValue" BIT_STRING].
Definition EncryptedKey := CHOICE [req "encryptedValue" EncryptedValue; req "envelopedData" (implicit 0 EnvelopedData)].
Definition KeyGenParameters := OCTET_STRING.
Definition PKIArchiveOptions := CHOICE [
  req "encryptedPrivKey" (explicit 0 EncryptedKey); req "keyGenParameters" (implicit 1 KeyGenParameters);
  req "archiveRemGenPrivKey" (implicit 2 BOOLEAN)].
Definition CertId := SEQUENCE [req "issuer" GeneralName; req "serialNumber" INTEGER].
Definition OldCertId := CertId.
Definition ProtocolEncrKey := SubjectPublicKeyInfo.
Definition UTF8Pairs := UTF8String.
Definition Attributes := SET_OF Attribute.
Definition PrivateKeyInfo := SEQUENCE [
  req "version" INTEGER; req "privateKeyAlgorithm" AlgorithmIdentifier; req "privateKey" OCTET_STRING;
  opt "attributes" (implicit 0 Attributes)].
Definition EncKeyWithID := SEQUENCE [
  req "privateKey" PrivateKeyInfo;
  opt "identifier" (CHOICE [req "string" UTF8String; req "generalName" GeneralName])].

Definition rfc4211 : list (string * sty) := [
  ("AttributeTypeAndValue", AttributeTypeAndValue); ("Controls", Controls); ("OptionalValidity", OptionalValidity);
  ("CertTemplate", CertTemplate); ("CertRequest", CertRequest); ("CertReq", CertReq); ("PKMACValue", PKMACValue);
  ("PBMParameter", PBMParameter); ("POPOSigningKeyInput", POPOSigningKeyInput); ("POPOSigningKey", POPOSigningKey);
  ("SubsequentMessage", SubsequentMessage); ("POPOPrivKey", POPOPrivKey); ("ProofOfPossession", ProofOfPossession);
  ("CertReqMsg", CertReqMsg); ("CertReqMessages", CertReqMessages); ("RegToken", RegToken);
  ("Authenticator", Authenticator); ("SinglePubInfo", SinglePubInfo); ("PKIPublicationInfo", PKIPublicationInfo);
  ("EncryptedValue", EncryptedValue); ("EncryptedKey", EncryptedKey); ("KeyGenParameters", KeyGenParameters);
  ("PKIArchiveOptions", PKIArchiveOptions); ("CertId", CertId); ("OldCertId", OldCertId);
  ("ProtocolEncrKey", ProtocolEncrKey); ("UTF8Pairs", UTF8Pairs); ("Attributes", Attributes);
  ("PrivateKeyInfo", PrivateKeyInfo); ("EncKeyWithID", EncKeyWithID)].
