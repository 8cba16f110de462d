(** RFC 6955, appendix A. *)
From Coq Require Import List String ZArith NArith.
From Verif Require Import Asn1.Types Spec.X680.
From Verif Require Spec.Rfc3279.
From Verif Require Import Spec.Rfc5652.
Import ListNotations.
Open Scope string_scope.
Open Scope list_scope.

Definition DhSigStatic := SEQUENCE [opt "issuerAndSerial" IssuerAndSerialNumber; req "hashValue" MessageDigest].

Definition rfc6955 : list (string * sty) := [
  ("DhSigStatic", DhSigStatic); ("MessageDigest", Rfc5652.MessageDigest);
  ("IssuerAndSerialNumber", Rfc5652.IssuerAndSerialNumber); ("Dss_Sig_Value", Rfc3279.Dss_Sig_Value);
  ("DomainParameters", Rfc3279.DomainParameters)].
