(** RFC 5208, appendix A: PKCS-8. *)
From Coq Require Import List String ZArith NArith.
From Verif Require Import Asn1.Types Spec.X680.
From Verif Require Import Spec.Rfc5280 Spec.Rfc2459.
Import ListNotations.
Open Scope string_scope.
Open Scope list_scope.

Definition Version := INTEGER_OF [("v1", 0)]%Z.
Definition PrivateKey := OCTET_STRING.
Definition Attributes := SET_OF Attribute.
Definition PrivateKeyAlgorithms := AlgorithmIdentifier.
Definition PrivateKeyInfo := SEQUENCE [
  req "version" Version;
  req "privateKeyAlgorithm" AlgorithmIdentifier;
  req "privateKey" PrivateKey;
  opt "attributes" (implicit 0 Attributes)].
Definition EncryptedData := OCTET_STRING.
Definition KeyEncryptionAlgorithms := AlgorithmIdentifier.
Definition EncryptedPrivateKeyInfo := SEQUENCE [
  req "encryptionAlgorithm" AlgorithmIdentifier; req "encryptedData" EncryptedData].

Definition rfc5208 : list (string * sty) := [
  ("Version", Version); ("PrivateKey", PrivateKey); ("Attributes", Attributes);
  ("PrivateKeyAlgorithms", PrivateKeyAlgorithms); ("PrivateKeyInfo", PrivateKeyInfo);
  ("EncryptedData", EncryptedData); ("KeyEncryptionAlgorithms", KeyEncryptionAlgorithms);
  ("EncryptedPrivateKeyInfo", EncryptedPrivateKeyInfo)].
