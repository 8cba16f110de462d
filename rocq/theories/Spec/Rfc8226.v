(** RFC 8226, appendix A: TN-Module-2016 (EXPLICIT TAGS). *)
From Coq Require Import List String ZArith NArith.
From Verif Require Import Asn1.Types Spec.X680.
Import ListNotations.
Open Scope string_scope.
Open Scope list_scope.

Definition JWTClaimName := IA5String.
Definition JWTClaimNames := size_min 1 (SEQUENCE_OF JWTClaimName).
Definition JWTClaimPermittedValues := SEQUENCE [
  req "claim" JWTClaimName; req "permitted" (size_min 1 (SEQUENCE_OF UTF8String))].
Definition JWTClaimPermittedValuesList := size_min 1 (SEQUENCE_OF JWTClaimPermittedValues).
(* WITH COMPONENTS {..., mustInclude PRESENT} | WITH COMPONENTS {..., permittedValues PRESENT} *)
Definition JWTClaimConstraints := with_components [[(0, true)]; [(1, true)]]%nat (SEQUENCE [
  opt "mustInclude" (explicit 0 JWTClaimNames); opt "permittedValues" (explicit 1 JWTClaimPermittedValuesList)]).
Definition ServiceProviderCode := IA5String.
Definition TelephoneNumber := size 1 15 (from "0123456789#*" IA5String).
Definition TelephoneNumberRange := SEQUENCE [req "start" TelephoneNumber; req "count" (range_min 2 INTEGER)].
Definition TNEntry := CHOICE [
  req "spc" (explicit 0 ServiceProviderCode);
  req "range" (explicit 1 TelephoneNumberRange);
  req "one" (explicit 2 TelephoneNumber)].
Definition TNAuthorizationList := size_min 1 (SEQUENCE_OF TNEntry).

Definition rfc8226 : list (string * sty) := [
  ("JWTClaimName", JWTClaimName); ("JWTClaimNames", JWTClaimNames);
  ("JWTClaimPermittedValues", JWTClaimPermittedValues); ("JWTClaimPermittedValuesList", JWTClaimPermittedValuesList);
  ("JWTClaimConstraints", JWTClaimConstraints); ("ServiceProviderCode", ServiceProviderCode);
  ("TelephoneNumber", TelephoneNumber); ("TelephoneNumberRange", TelephoneNumberRange); ("TNEntry", TNEntry);
  ("TNAuthorizationList", TNAuthorizationList)].
