(** RFC 3274, section 1.1 and appendix. *)
From Coq Require Import List String ZArith NArith.
From Verif Require Import Asn1.Types Spec.X680.
From Verif Require Import Spec.Rfc5280 Spec.Rfc5652.
Import ListNotations.
Open Scope string_scope.
Open Scope list_scope.

Definition CompressionAlgorithmIdentifier := AlgorithmIdentifier.
Definition CompressedData := SEQUENCE [
  req "version" CMSVersion;
  req "compressionAlgorithm" CompressionAlgorithmIdentifier;
  req "encapContentInfo" EncapsulatedContentInfo].

Definition rfc3274 : list (string * sty) := [
  ("CompressionAlgorithmIdentifier", CompressionAlgorithmIdentifier); ("CompressedData", CompressedData)].
