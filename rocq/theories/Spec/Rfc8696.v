(** RFC 8696, appendix A: CMSORIforPSK (IMPLICIT TAGS). *)
From Coq Require Import List String ZArith NArith.
From Verif Require Import Asn1.Types Spec.X680.
From Verif Require Import Spec.Rfc5652.
Import ListNotations.
Open Scope string_scope.
Open Scope list_scope.

Definition PreSharedKeyIdentifier := OCTET_STRING.
Definition KeyTransRecipientInfos := SEQUENCE_OF KeyTransRecipientInfo.
Definition KeyTransPSKRecipientInfo := SEQUENCE [
  req "version" CMSVersion;
  req "pskid" PreSharedKeyIdentifier;
  req "kdfAlgorithm" KeyDerivationAlgorithmIdentifier;
  req "keyEncryptionAlgorithm" KeyEncryptionAlgorithmIdentifier;
  req "ktris" KeyTransRecipientInfos;
  req "encryptedKey" EncryptedKey].
Definition KeyAgreePSKRecipientInfo := SEQUENCE [
  req "version" CMSVersion;
  req "pskid" PreSharedKeyIdentifier;
  req "originator" (explicit 0 OriginatorIdentifierOrKey);
  opt "ukm" (explicit 1 UserKeyingMaterial);
  req "kdfAlgorithm" KeyDerivationAlgorithmIdentifier;
  req "keyEncryptionAlgorithm" KeyEncryptionAlgorithmIdentifier;
  req "recipientEncryptedKeys" RecipientEncryptedKeys].
Definition CMSORIforPSKOtherInfo := SEQUENCE [
  req "psk" OCTET_STRING;
  req "keyMgmtAlgType" (ENUMERATED [("keyTrans", 5); ("keyAgree", 10)]%Z);
  req "keyEncryptionAlgorithm" KeyEncryptionAlgorithmIdentifier;
  req "pskLength" (range_min 1 INTEGER);
  req "kdkLength" (range_min 1 INTEGER)].

Definition rfc8696 : list (string * sty) := [
  ("PreSharedKeyIdentifier", PreSharedKeyIdentifier); ("KeyTransRecipientInfos", KeyTransRecipientInfos);
  ("KeyTransPSKRecipientInfo", KeyTransPSKRecipientInfo); ("KeyAgreePSKRecipientInfo", KeyAgreePSKRecipientInfo);
  ("CMSORIforPSKOtherInfo", CMSORIforPSKOtherInfo)].
