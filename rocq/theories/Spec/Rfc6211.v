(** RFC 6211, appendix A. *)
From Coq Require Import List String ZArith NArith.
From Verif Require Import Asn1.Types Spec.X680.
From Verif Require Import Spec.Rfc5652.
Import ListNotations.
Open Scope string_scope.
Open Scope list_scope.

(* WITH COMPONENTS {signatureAlgorithm PRESENT, macAlgorithm ABSENT} |
   WITH COMPONENTS {signatureAlgorithm ABSENT, macAlgorithm PRESENT} *)
Definition CMSAlgorithmProtection := with_components [[(1, true); (2, false)]; [(1, false); (2, true)]]%nat (SEQUENCE [
  req "digestAlgorithm" DigestAlgorithmIdentifier;
  opt "signatureAlgorithm" (implicit 1 SignatureAlgorithmIdentifier);
  opt "macAlgorithm" (implicit 2 MessageAuthenticationCodeAlgorithm)]).

Definition rfc6211 : list (string * sty) := [
  ("CMSAlgorithmProtection", CMSAlgorithmProtection);
  ("DigestAlgorithmIdentifier", Rfc5652.DigestAlgorithmIdentifier);
  ("MessageAuthenticationCodeAlgorithm", Rfc5652.MessageAuthenticationCodeAlgorithm);
  ("SignatureAlgorithmIdentifier", Rfc5652.SignatureAlgorithmIdentifier)].
