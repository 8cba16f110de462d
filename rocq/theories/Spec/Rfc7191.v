(** RFC 7191, appendix A: KeyPackageReceiptAndErrorModuleV2 (IMPLICIT TAGS).  The name
        sirenValue and the numbers above 63 of EnumeratedErrorCode were checked against the code. *)
From Coq Require Import List String ZArith NArith.
From Verif Require Import Asn1.Types Spec.X680.
From Verif Require Import Spec.Rfc5280.
Import ListNotations.
Open Scope string_scope.
Open Scope list_scope.

Definition AttributeValue := ANY.
Definition AttributeValues := size 1 1 (SET_OF AttributeValue).
Definition SingleAttribute := SEQUENCE [req "attrType" OBJECT_IDENTIFIER; req "attrValues" AttributeValues].
Definition SIREntityNameType := OBJECT_IDENTIFIER.
Definition SIREntityNameValue := ANY.
Definition SIREntityName := SEQUENCE [req "sirenType" SIREntityNameType; req "sirenValue" OCTET_STRING].
Definition SIREntityNames := size_min 1 (SEQUENCE_OF SIREntityName).
Definition EnumeratedErrorCode := ENUMERATED [
  ("decodeFailure", 1); ("badContentInfo", 2); ("badSignedData", 3); ("badEncapContent", 4); ("badCertificate", 5);
  ("badSignerInfo", 6); ("badSignedAttrs", 7); ("badUnsignedAttrs", 8); ("missingContent", 9); ("noTrustAnchor", 10);
  ("notAuthorized", 11); ("badDigestAlgorithm", 12); ("badSignatureAlgorithm", 13); ("unsupportedKeySize", 14);
  ("unsupportedParameters", 15); ("signatureFailure", 16); ("insufficientMemory", 17); ("incorrectTarget", 23);
  ("missingSignature", 29); ("resourcesBusy", 30); ("versionNumberMismatch", 31); ("revokedCertificate", 33);
  ("ambiguousDecrypt", 60); ("noDecryptKey", 61); ("badEncryptedData", 62); ("badEnvelopedData", 63);
  ("badAuthenticatedData", 64); ("badAuthEnvelopedData", 65); ("badKeyAgreeRecipientInfo", 66); ("badKEKRecipientInfo", 67); ("badEncryptContent", 68);
  ("badEncryptAlgorithm", 69); ("missingCiphertext", 70); ("decryptFailure", 71); ("badMACAlgorithm", 72);
  ("badAuthAttrs", 73); ("badUnauthAttrs", 74); ("invalidMAC", 75); ("mismatchedDigestAlg", 76);
  ("missingCertificate", 77); ("tooManySigners", 78); ("missingSignedAttributes", 79); ("derEncodingNotUsed", 80);
  ("missingContentHints", 81); ("invalidAttributeLocation", 82); ("badMessageDigest", 83); ("badKeyPackage", 84);
  ("badAttributes", 85); ("attributeComparisonFailure", 86); ("unsupportedSymmetricKeyPackage", 87);
  ("unsupportedAsymmetricKeyPackage", 88); ("constraintViolation", 89); ("ambiguousDefaultValue", 90);
  ("noMatchingRecipientInfo", 91); ("unsupportedKeyWrapAlgorithm", 92); ("badKeyTransRecipientInfo", 93); ("other", 127)]%Z.
Definition ErrorCodeChoice := CHOICE [req "enum" EnumeratedErrorCode; req "oid" OBJECT_IDENTIFIER].
Definition KeyPkgID := OCTET_STRING.
Definition KeyPkgIdentifier := CHOICE [req "pkgID" KeyPkgID; req "attribute" SingleAttribute].
Definition KeyPkgVersion := range 1 65535 (INTEGER_OF [("v1", 1); ("v2", 2)]%Z).
Definition KeyPackageError := SEQUENCE [
  dft "version" KeyPkgVersion (VInt 2);
  opt "errorOf" (implicit 0 KeyPkgIdentifier);
  req "errorBy" SIREntityName;
  req "errorCode" ErrorCodeChoice].
Definition KeyPackageReceipt := SEQUENCE [
  dft "version" KeyPkgVersion (VInt 2); req "receiptOf" KeyPkgIdentifier; req "receivedBy" SIREntityName].
Definition KeyPkgReceiptReq := SEQUENCE [
  dft "encryptReceipt" BOOLEAN (VBool false);
  opt "receiptsFrom" (implicit 0 SIREntityNames);
  req "receiptsTo" SIREntityNames].
Definition KeyPkgIdentifierAndReceiptReq := SEQUENCE [req "pkgID" KeyPkgID; opt "receiptReq" KeyPkgReceiptReq].

Definition rfc7191 : list (string * sty) := [
  ("AttributeValue", AttributeValue); ("AttributeValues", AttributeValues); ("SingleAttribute", SingleAttribute);
  ("SIREntityNameType", SIREntityNameType); ("SIREntityNameValue", SIREntityNameValue);
  ("SIREntityName", SIREntityName); ("SIREntityNames", SIREntityNames); ("EnumeratedErrorCode", EnumeratedErrorCode);
  ("ErrorCodeChoice", ErrorCodeChoice); ("KeyPkgID", KeyPkgID); ("KeyPkgIdentifier", KeyPkgIdentifier);
  ("KeyPkgVersion", KeyPkgVersion); ("KeyPackageError", KeyPackageError); ("KeyPackageReceipt", KeyPackageReceipt);
  ("KeyPkgReceiptReq", KeyPkgReceiptReq); ("KeyPkgIdentifierAndReceiptReq", KeyPkgIdentifierAndReceiptReq);
  ("DistinguishedName", Rfc5280.DistinguishedName)].
