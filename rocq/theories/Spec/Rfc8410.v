(** RFC 8410, section 9. *)
From Coq Require Import List String ZArith NArith.
From Verif Require Import Asn1.Types Spec.X680.
From Verif Require Import Spec.Rfc5280.
Import ListNotations.
Open Scope string_scope.
Open Scope list_scope.

Definition SignatureAlgorithmIdentifier := AlgorithmIdentifier.
Definition KeyEncryptionAlgorithmIdentifier := AlgorithmIdentifier.
Definition CurvePrivateKey := OCTET_STRING.

Definition rfc8410 : list (string * sty) := [
  ("SignatureAlgorithmIdentifier", SignatureAlgorithmIdentifier);
  ("KeyEncryptionAlgorithmIdentifier", KeyEncryptionAlgorithmIdentifier); ("CurvePrivateKey", CurvePrivateKey)].
