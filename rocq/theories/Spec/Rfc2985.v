(** RFC 2985, appendix A: PKCS-9 (IMPLICIT TAGS). *)
From Coq Require Import List String ZArith NArith.
From Verif Require Import Asn1.Types Spec.X680.
From Verif Require Spec.Rfc7292 Spec.Rfc5652.
From Verif Require Import Spec.Rfc5280.
Import ListNotations.
Open Scope string_scope.
Open Scope list_scope.

Definition ContentType := OBJECT_IDENTIFIER.
Definition MessageDigest := OCTET_STRING.
Definition SigningTime := Time.
Definition SequenceNumber := range_min 1 INTEGER.
Definition RandomNonce := size_min 4 OCTET_STRING.
Definition SignerInfo := Rfc5652.SignerInfo.
Definition Countersignature := SignerInfo.
Definition ExtensionRequest := Extensions.
Definition EmailAddress := size 1 255 IA5String.
Definition DirectoryString := CHOICE [
  req "teletexString" (size 1 255 TeletexString); req "printableString" (size 1 255 PrintableString);
  req "universalString" (size 1 255 UniversalString); req "utf8String" (size 1 255 UTF8String);
  req "bmpString" (size 1 255 BMPString)].
Definition PKCS9String := CHOICE [req "ia5String" (size 1 255 IA5String); req "directoryString" DirectoryString].
Definition FriendlyName := size 1 255 BMPString.
(** SIZE (1) ^ FROM ("M" | "F" | "m" | "f") *)
Definition GenderString := words ["M"; "F"; "m"; "f"] PrintableString.
Definition SMIMECapability := SEQUENCE [req "algorithm" OBJECT_IDENTIFIER; opt "parameters" ANY].
Definition SMIMECapabilities := SEQUENCE_OF SMIMECapability.
Definition X520SerialNumber := size 1 64 PrintableString.
Definition X520countryName := size 2 2 PrintableString.

Definition rfc2985 : list (string * sty) := [
  ("ContentType", ContentType); ("MessageDigest", MessageDigest); ("SigningTime", SigningTime);
  ("SequenceNumber", SequenceNumber); ("RandomNonce", RandomNonce); ("SignerInfo", SignerInfo);
  ("Countersignature", Countersignature); ("ExtensionRequest", ExtensionRequest); ("EmailAddress", EmailAddress);
  ("DirectoryString", DirectoryString); ("PKCS9String", PKCS9String); ("FriendlyName", FriendlyName);
  ("GenderString", GenderString); ("SMIMECapability", SMIMECapability); ("SMIMECapabilities", SMIMECapabilities);
  ("X520SerialNumber", X520SerialNumber); ("X520countryName", X520countryName);
  ("AlgorithmIdentifier", Rfc5280.AlgorithmIdentifier); ("Attribute", Rfc5280.Attribute);
  ("AttributeType", Rfc5280.AttributeType); ("AttributeValue", Rfc5280.AttributeValue);
  ("Extensions", Rfc5280.Extensions); ("Time", Rfc5280.Time); ("PFX", Rfc7292.PFX);
  ("ContentInfo", Rfc7292.ContentInfo); ("EncryptedPrivateKeyInfo", Rfc7292.EncryptedPrivateKeyInfo)].
