(** RFC 7292, appendix D: PKCS-12 (IMPLICIT TAGS).  Types defined by an information object class
    are ANY here. *)
From Coq Require Import List String ZArith NArith.
From Verif Require Import Asn1.Types Spec.X680.
From Verif Require Spec.Rfc2315 Spec.Rfc5652 Spec.Rfc5958.
From Verif Require Import Spec.Rfc5280.
Import ListNotations.
Open Scope string_scope.
Open Scope list_scope.

(** Of PKCS #7; its content, OPTIONAL in RFC 2315, is always there in PKCS #12 (and in RFC 5652). *)
Definition ContentInfo := Rfc5652.ContentInfo.
Definition DigestInfo := Rfc2315.DigestInfo.
Definition PrivateKeyInfo := Rfc5958.PrivateKeyInfo.
Definition EncryptedPrivateKeyInfo := Rfc5958.EncryptedPrivateKeyInfo.
Definition MacData := SEQUENCE [req "mac" DigestInfo; req "macSalt" OCTET_STRING; dft "iterations" INTEGER (VInt 1)].
Definition PFX := SEQUENCE [
  req "version" (INTEGER_OF [("v3", 3)]%Z); req "authSafe" ContentInfo; opt "macData" MacData].
Definition AuthenticatedSafe := SEQUENCE_OF ContentInfo.
Definition AttributeType := OBJECT_IDENTIFIER.
Definition AttributeValue := ANY.
Definition AttributeValues := SET_OF AttributeValue.
Definition PKCS12Attribute := SEQUENCE [req "attrId" OBJECT_IDENTIFIER; req "attrValues" (SET_OF ANY)].
Definition SafeBag := SEQUENCE [
  req "bagId" OBJECT_IDENTIFIER; req "bagValue" (explicit 0 ANY); opt "bagAttributes" (SET_OF PKCS12Attribute)].
Definition SafeContents := SEQUENCE_OF SafeBag.
Definition KeyBag := PrivateKeyInfo.
Definition PKCS8ShroudedKeyBag := EncryptedPrivateKeyInfo.
Definition CertBag := SEQUENCE [req "certId" OBJECT_IDENTIFIER; req "certValue" (explicit 0 ANY)].
Definition CRLBag := SEQUENCE [req "crlId" OBJECT_IDENTIFIER; req "crlValue" (explicit 0 ANY)].
Definition SecretBag := SEQUENCE [req "secretTypeId" OBJECT_IDENTIFIER; req "secretValue" (explicit 0 ANY)].
(** friendlyName, of PKCS #9 *)
Definition FriendlyName := size 1 255 BMPString.
Definition Pkcs_12PbeParams := SEQUENCE [req "salt" OCTET_STRING; req "iterations" INTEGER].

Definition rfc7292 : list (string * sty) := [
  ("ContentInfo", ContentInfo); ("DigestInfo", DigestInfo); ("PrivateKeyInfo", PrivateKeyInfo);
  ("EncryptedPrivateKeyInfo", EncryptedPrivateKeyInfo); ("MacData", MacData); ("PFX", PFX);
  ("AuthenticatedSafe", AuthenticatedSafe); ("AttributeType", AttributeType); ("AttributeValue", AttributeValue);
  ("AttributeValues", AttributeValues); ("PKCS12Attribute", PKCS12Attribute); ("SafeBag", SafeBag);
  ("SafeContents", SafeContents); ("KeyBag", KeyBag); ("PKCS8ShroudedKeyBag", PKCS8ShroudedKeyBag);
  ("CertBag", CertBag); ("CRLBag", CRLBag); ("SecretBag", SecretBag); ("FriendlyName", FriendlyName);
  ("Pkcs_12PbeParams", Pkcs_12PbeParams)].
