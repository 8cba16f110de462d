(** RFC 5990, appendix B: CMS-RSA-KEM (EXPLICIT TAGS). *)
From Coq Require Import List String ZArith NArith.
From Verif Require Import Asn1.Types Spec.X680.
From Verif Require Import Spec.Rfc5280.
Import ListNotations.
Open Scope string_scope.
Open Scope list_scope.

Definition NullParms := NULL.
Definition KeyDerivationFunction := AlgorithmIdentifier.
Definition KeyLength := range_min 1 INTEGER.
Definition DataEncapsulationMechanism := AlgorithmIdentifier.
Definition KeyEncapsulationMechanism := AlgorithmIdentifier.
Definition KDF2_HashFunction := AlgorithmIdentifier.
Definition KDF3_HashFunction := AlgorithmIdentifier.
Definition Camellia_KeyWrappingScheme := AlgorithmIdentifier.
Definition X9_SymmetricKeyWrappingScheme := AlgorithmIdentifier.
Definition GenericHybridParameters := SEQUENCE [
  req "kem" KeyEncapsulationMechanism; req "dem" DataEncapsulationMechanism].
Definition RsaKemParameters := SEQUENCE [
  req "keyDerivationFunction" KeyDerivationFunction; req "keyLength" KeyLength].

Definition rfc5990 : list (string * sty) := [
  ("NullParms", NullParms); ("KeyDerivationFunction", KeyDerivationFunction); ("KeyLength", KeyLength);
  ("DataEncapsulationMechanism", DataEncapsulationMechanism);
  ("KeyEncapsulationMechanism", KeyEncapsulationMechanism); ("KDF2_HashFunction", KDF2_HashFunction);
  ("KDF3_HashFunction", KDF3_HashFunction); ("Camellia_KeyWrappingScheme", Camellia_KeyWrappingScheme);
  ("X9_SymmetricKeyWrappingScheme", X9_SymmetricKeyWrappingScheme);
  ("GenericHybridParameters", GenericHybridParameters); ("RsaKemParameters", RsaKemParameters);
  ("AlgorithmIdentifier", Rfc5280.AlgorithmIdentifier)].
