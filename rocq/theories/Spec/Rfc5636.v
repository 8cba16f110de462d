(** RFC 5636, appendix A.  The last three types are the contents of the three content types. *)
From Coq Require Import List String ZArith NArith.
From Verif Require Import Asn1.Types Spec.X680.
From Verif Require Import Spec.Rfc5652.
Import ListNotations.
Open Scope string_scope.
Open Scope list_scope.

Definition UserKey := OCTET_STRING.
Definition Timeout := GeneralizedTime.
Definition BlinedCertificateHash := OCTET_STRING.
Definition PartiallySignedCertificateHash := OCTET_STRING.
Definition Token := ContentInfo.
Definition TokenandBlindHash := ContentInfo.
Definition TokenandPartiallySignedCertificateHash := ContentInfo.
Definition TACToken := SEQUENCE [req "userKey" UserKey; req "timeout" Timeout].
Definition TACTokenandBlindHash := SEQUENCE [req "token" Token; req "blinded" BlinedCertificateHash].
Definition TACTokenandPartiallySignedCertificateHash := SEQUENCE [
  req "token" Token; req "partially" PartiallySignedCertificateHash].

Definition rfc5636 : list (string * sty) := [
  ("UserKey", UserKey); ("Timeout", Timeout); ("BlinedCertificateHash", BlinedCertificateHash);
  ("PartiallySignedCertificateHash", PartiallySignedCertificateHash); ("Token", Token);
  ("TokenandBlindHash", TokenandBlindHash);
  ("TokenandPartiallySignedCertificateHash", TokenandPartiallySignedCertificateHash); ("TACToken", TACToken);
  ("TACTokenandBlindHash", TACTokenandBlindHash);
  ("TACTokenandPartiallySignedCertificateHash", TACTokenandPartiallySignedCertificateHash);
  ("ContentInfo", Rfc5652.ContentInfo); ("EncapsulatedContentInfo", Rfc5652.EncapsulatedContentInfo)].
