(** RFC 5753, appendix A.2: SMIMEECCAlgs-1997 (IMPLICIT TAGS). *)
From Coq Require Import List String ZArith NArith.
From Verif Require Import Asn1.Types Spec.X680.
From Verif Require Spec.Rfc3279 Spec.Rfc5480.
From Verif Require Import Spec.Rfc5280 Spec.Rfc5652.
Import ListNotations.
Open Scope string_scope.
Open Scope list_scope.

(** -- exactly 8 octets *)
Definition IV := OCTET_STRING.
Definition CBCParameter := IV.
Definition KeyWrapAlgorithm := AlgorithmIdentifier.
Definition ECC_CMS_SharedInfo := SEQUENCE [
  req "keyInfo" AlgorithmIdentifier;
  opt "entityUInfo" (explicit 0 OCTET_STRING);
  req "suppPubInfo" (explicit 2 OCTET_STRING)].
Definition MQVuserKeyingMaterial := SEQUENCE [
  req "ephemeralPublicKey" OriginatorPublicKey;
  opt "addedukm" (explicit 0 UserKeyingMaterial)].

Definition rfc5753 : list (string * sty) := [
  ("IV", IV); ("CBCParameter", CBCParameter); ("KeyWrapAlgorithm", KeyWrapAlgorithm);
  ("ECC_CMS_SharedInfo", ECC_CMS_SharedInfo); ("MQVuserKeyingMaterial", MQVuserKeyingMaterial);
  ("AlgorithmIdentifier", Rfc5280.AlgorithmIdentifier); ("OriginatorPublicKey", Rfc5652.OriginatorPublicKey);
  ("UserKeyingMaterial", Rfc5652.UserKeyingMaterial); ("ECDSA_Sig_Value", Rfc3279.ECDSA_Sig_Value);
  ("ECParameters", Rfc5480.ECParameters); ("ECPoint", Rfc3279.ECPoint)].
