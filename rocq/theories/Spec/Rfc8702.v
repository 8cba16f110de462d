(** RFC 8702, section 3.4. *)
From Coq Require Import List String ZArith NArith.
From Verif Require Import Asn1.Types Spec.X680.
From Verif Require Spec.Rfc5280 Spec.Rfc4055 Spec.Rfc3279.
Import ListNotations.
Open Scope string_scope.
Open Scope list_scope.

Definition KMACwithSHAKE128_params := SEQUENCE [
  dft "kMACOutputLength" INTEGER (VInt 256); dft "customizationString" OCTET_STRING (VOcts [])].
Definition KMACwithSHAKE256_params := SEQUENCE [
  dft "kMACOutputLength" INTEGER (VInt 512); dft "customizationString" OCTET_STRING (VOcts [])].

(** RFC 8692: the KEY of the PUBLIC-KEY objects. *)
Definition rfc8692 : list (string * sty) := [
  ("pk_rsaSSA_PSS_SHAKE128", Rfc4055.RSAPublicKey); ("pk_rsaSSA_PSS_SHAKE256", Rfc4055.RSAPublicKey);
  ("pk_ec", Rfc3279.ECPoint)].

Definition rfc8702 : list (string * sty) := [
  ("KMACwithSHAKE128_params", KMACwithSHAKE128_params); ("KMACwithSHAKE256_params", KMACwithSHAKE256_params);
  ("AlgorithmIdentifier", Rfc5280.AlgorithmIdentifier)] ++ rfc8692.
