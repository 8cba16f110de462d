(** RFC 4108, appendix A: CMSFirmwareWrapper (IMPLICIT TAGS). *)
From Coq Require Import List String ZArith NArith.
From Verif Require Import Asn1.Types Spec.X680.
From Verif Require Import Spec.Rfc5280 Spec.Rfc5652.
Import ListNotations.
Open Scope string_scope.
Open Scope list_scope.

Definition FirmwarePkgData := OCTET_STRING.
Definition PreferredPackageIdentifier := SEQUENCE [
  req "fwPkgID" OBJECT_IDENTIFIER; req "verNum" (range_min 0 INTEGER)].
Definition PreferredOrLegacyPackageIdentifier := CHOICE [
  req "preferred" PreferredPackageIdentifier; req "legacy" OCTET_STRING].
Definition PreferredOrLegacyStalePackageIdentifier := CHOICE [
  req "preferredStaleVerNum" (range_min 0 INTEGER); req "legacyStaleVersion" OCTET_STRING].
Definition FirmwarePackageIdentifier := SEQUENCE [
  req "name" PreferredOrLegacyPackageIdentifier; opt "stale" PreferredOrLegacyStalePackageIdentifier].
Definition TargetHardwareIdentifiers := SEQUENCE_OF OBJECT_IDENTIFIER.
Definition DecryptKeyIdentifier := OCTET_STRING.
Definition ImplementedCryptoAlgorithms := SEQUENCE_OF OBJECT_IDENTIFIER.
Definition ImplementedCompressAlgorithms := SEQUENCE_OF OBJECT_IDENTIFIER.
Definition HardwareSerialEntry := CHOICE [
  req "all" NULL; req "single" OCTET_STRING; req "block" (SEQUENCE [req "low" OCTET_STRING; req "high" OCTET_STRING])].
Definition HardwareModules := SEQUENCE [
  req "hwType" OBJECT_IDENTIFIER; req "hwSerialEntries" (SEQUENCE_OF HardwareSerialEntry)].
Definition CommunityIdentifier := CHOICE [req "communityOID" OBJECT_IDENTIFIER; req "hwModuleList" HardwareModules].
Definition CommunityIdentifiers := SEQUENCE_OF CommunityIdentifier.
Definition FirmwarePackageInfo := SEQUENCE [
  opt "fwPkgType" INTEGER; opt "dependencies" (SEQUENCE_OF PreferredOrLegacyPackageIdentifier)].
Definition FirmwarePackageMessageDigest := SEQUENCE [req "algorithm" AlgorithmIdentifier; req "msgDigest" OCTET_STRING].
Definition WrappedFirmwareKey := EnvelopedData.
Definition FWReceiptVersion := INTEGER_OF [("v1", 1)]%Z.
Definition FirmwarePackageLoadReceipt := SEQUENCE [
  dft "version" FWReceiptVersion (VInt 1);
  req "hwType" OBJECT_IDENTIFIER;
  req "hwSerialNum" OCTET_STRING;
  req "fwPkgName" PreferredOrLegacyPackageIdentifier;
  opt "trustAnchorKeyID" OCTET_STRING;
  opt "decryptKeyID" (implicit 1 OCTET_STRING)].
Definition FWErrorVersion := INTEGER_OF [("v1", 1)]%Z.
Definition FirmwarePackageLoadErrorCode := ENUMERATED [
  ("decodeFailure", 1); ("badContentInfo", 2); ("badSignedData", 3); ("badEncapContent", 4); ("badCertificate", 5);
  ("badSignerInfo", 6); ("badSignedAttrs", 7); ("badUnsignedAttrs", 8); ("missingContent", 9); ("noTrustAnchor", 10);
  ("notAuthorized", 11); ("badDigestAlgorithm", 12); ("badSignatureAlgorithm", 13); ("unsupportedKeySize", 14);
  ("signatureFailure", 15); ("contentTypeMismatch", 16); ("badEncryptedData", 17); ("unprotectedAttrsPresent", 18);
  ("badEncryptContent", 19); ("badEncryptAlgorithm", 20); ("missingCiphertext", 21); ("noDecryptKey", 22);
  ("decryptFailure", 23); ("badCompressAlgorithm", 24); ("missingCompressedContent", 25); ("decompressFailure", 26);
  ("wrongHardware", 27); ("stalePackage", 28); ("notInCommunity", 29); ("unsupportedPackageType", 30);
  ("missingDependency", 31); ("wrongDependencyVersion", 32); ("insufficientMemory", 33); ("badFirmware", 34);
  ("unsupportedParameters", 35); ("breaksDependency", 36); ("otherError", 99)]%Z.
Definition VendorLoadErrorCode := INTEGER.
Definition CurrentFWConfig := SEQUENCE [
  opt "fwPkgType" INTEGER; req "fwPkgName" PreferredOrLegacyPackageIdentifier].
Definition FirmwarePackageLoadError := SEQUENCE [
  dft "version" FWErrorVersion (VInt 1);
  req "hwType" OBJECT_IDENTIFIER;
  req "hwSerialNum" OCTET_STRING;
  req "errorCode" FirmwarePackageLoadErrorCode;
  opt "vendorErrorCode" VendorLoadErrorCode;
  opt "fwPkgName" PreferredOrLegacyPackageIdentifier;
  opt "config" (implicit 1 (SEQUENCE_OF CurrentFWConfig))].
Definition HardwareModuleName := SEQUENCE [req "hwType" OBJECT_IDENTIFIER; req "hwSerialNum" OCTET_STRING].

Definition rfc4108 : list (string * sty) := [
  ("FirmwarePkgData", FirmwarePkgData); ("PreferredPackageIdentifier", PreferredPackageIdentifier);
  ("PreferredOrLegacyPackageIdentifier", PreferredOrLegacyPackageIdentifier);
  ("PreferredOrLegacyStalePackageIdentifier", PreferredOrLegacyStalePackageIdentifier);
  ("FirmwarePackageIdentifier", FirmwarePackageIdentifier); ("TargetHardwareIdentifiers", TargetHardwareIdentifiers);
  ("DecryptKeyIdentifier", DecryptKeyIdentifier); ("ImplementedCryptoAlgorithms", ImplementedCryptoAlgorithms);
  ("ImplementedCompressAlgorithms", ImplementedCompressAlgorithms); ("HardwareSerialEntry", HardwareSerialEntry);
  ("HardwareModules", HardwareModules); ("CommunityIdentifier", CommunityIdentifier);
  ("CommunityIdentifiers", CommunityIdentifiers); ("FirmwarePackageInfo", FirmwarePackageInfo);
  ("FirmwarePackageMessageDigest", FirmwarePackageMessageDigest); ("WrappedFirmwareKey", WrappedFirmwareKey);
  ("FWReceiptVersion", FWReceiptVersion); ("FirmwarePackageLoadReceipt", FirmwarePackageLoadReceipt);
  ("FWErrorVersion", FWErrorVersion); ("FirmwarePackageLoadErrorCode", FirmwarePackageLoadErrorCode);
  ("VendorLoadErrorCode", VendorLoadErrorCode); ("CurrentFWConfig", CurrentFWConfig);
  ("FirmwarePackageLoadError", FirmwarePackageLoadError); ("HardwareModuleName", HardwareModuleName)].
