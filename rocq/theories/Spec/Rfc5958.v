(** RFC 5958, appendix A: AsymmetricKeyPackageModuleV1 (IMPLICIT TAGS). *)
From Coq Require Import List String ZArith NArith.
From Verif Require Import Asn1.Types Spec.X680.
From Verif Require Import Spec.Rfc5280.
Import ListNotations.
Open Scope string_scope.
Open Scope list_scope.

Definition PrivateKey := OCTET_STRING.
Definition PublicKey := BIT_STRING.
Definition Version := INTEGER_OF [("v1", 0); ("v2", 1)]%Z.
Definition PrivateKeyAlgorithmIdentifier := AlgorithmIdentifier.
Definition Attributes := SET_OF Attribute.
Definition OneAsymmetricKey := SEQUENCE [
  req "version" Version;
  req "privateKeyAlgorithm" PrivateKeyAlgorithmIdentifier;
  req "privateKey" PrivateKey;
  opt "attributes" (implicit 0 Attributes);
  opt "publicKey" (implicit 1 PublicKey)].
Definition PrivateKeyInfo := OneAsymmetricKey.
Definition AsymmetricKeyPackage := size_min 1 (SEQUENCE_OF OneAsymmetricKey).
Definition EncryptedData := OCTET_STRING.
Definition KeyEncryptionAlgorithmIdentifier := AlgorithmIdentifier.
Definition EncryptedPrivateKeyInfo := SEQUENCE [
  req "encryptionAlgorithm" KeyEncryptionAlgorithmIdentifier; req "encryptedData" EncryptedData].

Definition rfc5958 : list (string * sty) := [
  ("PrivateKey", PrivateKey); ("PublicKey", PublicKey); ("Version", Version);
  ("PrivateKeyAlgorithmIdentifier", PrivateKeyAlgorithmIdentifier); ("Attributes", Attributes);
  ("OneAsymmetricKey", OneAsymmetricKey); ("PrivateKeyInfo", PrivateKeyInfo);
  ("AsymmetricKeyPackage", AsymmetricKeyPackage); ("EncryptedData", EncryptedData);
  ("KeyEncryptionAlgorithmIdentifier", KeyEncryptionAlgorithmIdentifier);
  ("EncryptedPrivateKeyInfo", EncryptedPrivateKeyInfo)].
