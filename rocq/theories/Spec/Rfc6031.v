(** RFC 6031, appendix A: SymmetricKeyPackageModulev1 and PSKCAttributesModule (IMPLICIT TAGS).  The at-pskc-...
        attributes are given by the types of their values. *)
From Coq Require Import List String ZArith NArith.
From Verif Require Import Asn1.Types Spec.X680.
From Verif Require Import Spec.Rfc5280.
Import ListNotations.
Open Scope string_scope.
Open Scope list_scope.

Definition KeyPkgVersion := INTEGER_OF [("v1", 1)]%Z.
Definition AttributeType := OBJECT_IDENTIFIER.
Definition AttributeValue := ANY.
Definition SKeyAttribute := SEQUENCE [req "attrType" AttributeType; req "attrValues" (SET_OF AttributeValue)].
Definition SKeyPkgAttribute := SKeyAttribute.
(* WITH COMPONENTS {..., sKeyAttrs PRESENT} | WITH COMPONENTS {..., sKey PRESENT} *)
Definition OneSymmetricKey := with_components [[(0, true)]; [(1, true)]]%nat (SEQUENCE [
  opt "sKeyAttrs" (size_min 1 (SEQUENCE_OF SKeyAttribute)); opt "sKey" OCTET_STRING]).
Definition SymmetricKeys := size_min 1 (SEQUENCE_OF OneSymmetricKey).
Definition SymmetricKeyPackage := SEQUENCE [
  dft "version" KeyPkgVersion (VInt 1);
  opt "sKeyPkgAttrs" (implicit 0 (size_min 1 (SEQUENCE_OF SKeyPkgAttribute)));
  req "sKeys" SymmetricKeys].
Definition FriendlyName := SEQUENCE [req "friendlyName" UTF8String; opt "friendlyNameLangTag" UTF8String].
Definition Encoding := words ["DECIMAL"; "HEXADECIMAL"; "ALPHANUMERIC"; "BASE64"; "BINARY"] UTF8String.
Definition ChallengeFormat := SEQUENCE [
  req "encoding" Encoding;
  dft "checkDigit" BOOLEAN (VBool false);
  req "min" (range_min 0 INTEGER);
  req "max" (range_min 0 INTEGER)].
Definition ResponseFormat := SEQUENCE [
  req "encoding" Encoding; req "length" (range_min 0 INTEGER); dft "checkDigit" BOOLEAN (VBool false)].
Definition PSKCAlgorithmParameters := CHOICE [
  req "suite" UTF8String;
  req "challengeFormat" (implicit 0 ChallengeFormat);
  req "responseFormat" (implicit 1 ResponseFormat)].
Definition ValueMac := SEQUENCE [req "macAlgorithm" UTF8String; req "mac" UTF8String].
Definition PSKCKeyUsage := words [
  "OTP"; "CR"; "Encrypt"; "Integrity"; "Verify"; "Unlock"; "Decrypt"; "KeyWrap"; "Unwrap"; "Derive"; "Generate"] UTF8String.
Definition PSKCKeyUsages := SEQUENCE_OF PSKCKeyUsage.
Definition PINUsageMode := words ["Local"; "Prepend"; "Append"; "Algorithmic"] UTF8String.
Definition PINPolicy := SEQUENCE [
  opt "pinKeyId" (implicit 0 UTF8String);
  req "pinUsageMode" (implicit 1 PINUsageMode);
  opt "maxFailedAttempts" (implicit 2 (range_min 0 INTEGER));
  opt "minLength" (implicit 3 (range_min 0 INTEGER));
  opt "maxLength" (implicit 4 (range_min 0 INTEGER));
  opt "pinEncoding" (implicit 5 Encoding)].
Definition at_pskc_manufacturer := UTF8String.
Definition at_pskc_serialNo := UTF8String.
Definition at_pskc_model := UTF8String.
Definition at_pskc_issueNo := UTF8String.
Definition at_pskc_deviceBinding := UTF8String.
Definition at_pskc_deviceStartDate := GeneralizedTime.
Definition at_pskc_deviceExpiryDate := GeneralizedTime.
Definition at_pskc_moduleId := UTF8String.
Definition at_pskc_deviceUserId := UTF8String.
Definition at_pskc_keyUserId := UTF8String.
Definition at_pskc_algorithm := UTF8String.
Definition at_pskc_issuer := UTF8String.
Definition at_pskc_keyProfileId := UTF8String.
Definition at_pskc_keyReference := UTF8String.
Definition at_pskc_friendlyName := FriendlyName.
Definition at_pskc_algorithmParameters := PSKCAlgorithmParameters.
Definition at_pskc_counter := range_min 0 INTEGER.
Definition at_pskc_time := range_min 0 INTEGER.
Definition at_pskc_timeInterval := range_min 0 INTEGER.
Definition at_pskc_timeDrift := range_min 0 INTEGER.
Definition at_pskc_valueMAC := ValueMac.
Definition at_pskc_keyId := UTF8String.
Definition at_pskc_keyStartDate := GeneralizedTime.
Definition at_pskc_keyExpiryDate := GeneralizedTime.
Definition at_pskc_numberOfTransactions := range_min 0 INTEGER.
Definition at_pskc_keyUsage := PSKCKeyUsages.
Definition at_pskc_pinPolicy := PINPolicy.

Definition rfc6031 : list (string * sty) := [
  ("KeyPkgVersion", KeyPkgVersion); ("AttributeType", AttributeType); ("AttributeValue", AttributeValue);
  ("SKeyAttribute", SKeyAttribute); ("SKeyPkgAttribute", SKeyPkgAttribute); ("OneSymmetricKey", OneSymmetricKey);
  ("SymmetricKeys", SymmetricKeys); ("SymmetricKeyPackage", SymmetricKeyPackage); ("FriendlyName", FriendlyName);
  ("Encoding", Encoding); ("ChallengeFormat", ChallengeFormat); ("ResponseFormat", ResponseFormat);
  ("PSKCAlgorithmParameters", PSKCAlgorithmParameters); ("ValueMac", ValueMac); ("PSKCKeyUsage", PSKCKeyUsage);
  ("PSKCKeyUsages", PSKCKeyUsages); ("PINUsageMode", PINUsageMode); ("PINPolicy", PINPolicy);
  ("at_pskc_manufacturer", at_pskc_manufacturer); ("at_pskc_serialNo", at_pskc_serialNo);
  ("at_pskc_model", at_pskc_model); ("at_pskc_issueNo", at_pskc_issueNo);
  ("at_pskc_deviceBinding", at_pskc_deviceBinding); ("at_pskc_deviceStartDate", at_pskc_deviceStartDate);
  ("at_pskc_deviceExpiryDate", at_pskc_deviceExpiryDate); ("at_pskc_moduleId", at_pskc_moduleId);
  ("at_pskc_deviceUserId", at_pskc_deviceUserId); ("at_pskc_keyUserId", at_pskc_keyUserId);
  ("at_pskc_algorithm", at_pskc_algorithm); ("at_pskc_issuer", at_pskc_issuer);
  ("at_pskc_keyProfileId", at_pskc_keyProfileId); ("at_pskc_keyReference", at_pskc_keyReference);
  ("at_pskc_friendlyName", at_pskc_friendlyName); ("at_pskc_algorithmParameters", at_pskc_algorithmParameters);
  ("at_pskc_counter", at_pskc_counter); ("at_pskc_time", at_pskc_time);
  ("at_pskc_timeInterval", at_pskc_timeInterval); ("at_pskc_timeDrift", at_pskc_timeDrift);
  ("at_pskc_valueMAC", at_pskc_valueMAC); ("at_pskc_keyId", at_pskc_keyId);
  ("at_pskc_keyStartDate", at_pskc_keyStartDate); ("at_pskc_keyExpiryDate", at_pskc_keyExpiryDate);
  ("at_pskc_numberOfTransactions", at_pskc_numberOfTransactions); ("at_pskc_keyUsage", at_pskc_keyUsage);
  ("at_pskc_pinPolicy", at_pskc_pinPolicy)].
