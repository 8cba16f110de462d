(** RFC 4476, appendix A. *)
From Coq Require Import List String ZArith NArith.
From Verif Require Import Asn1.Types Spec.X680.
From Verif Require Import Spec.Rfc5280.
Import ListNotations.
Open Scope string_scope.
Open Scope list_scope.

Definition AcPolicyId := OBJECT_IDENTIFIER.
Definition PolicyInformation := SEQUENCE [
  req "policyIdentifier" AcPolicyId; opt "policyQualifiers" (size_min 1 (SEQUENCE_OF PolicyQualifierInfo))].
Definition AcPoliciesSyntax := size_min 1 (SEQUENCE_OF PolicyInformation).
Definition ACUserNotice := UserNotice.
Definition ACPSuri := IA5String.

Definition rfc4476 : list (string * sty) := [
  ("AcPolicyId", AcPolicyId); ("PolicyInformation", PolicyInformation); ("AcPoliciesSyntax", AcPoliciesSyntax);
  ("ACUserNotice", ACUserNotice); ("ACPSuri", ACPSuri); ("PolicyQualifierId", Rfc5280.PolicyQualifierId);
  ("PolicyQualifierInfo", Rfc5280.PolicyQualifierInfo); ("UserNotice", Rfc5280.UserNotice)].
