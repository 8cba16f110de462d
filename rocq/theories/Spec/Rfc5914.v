(** RFC 5914, appendix A.2: TrustAnchorInfoModule-88 (IMPLICIT TAGS). *)
From Coq Require Import List String ZArith NArith.
From Verif Require Import Asn1.Types Spec.X680.
From Verif Require Import Spec.Rfc5280.
Import ListNotations.
Open Scope string_scope.
Open Scope list_scope.

Definition TrustAnchorInfoVersion := INTEGER_OF [("v1", 1)]%Z.
Definition TrustAnchorTitle := size 1 64 UTF8String.
Definition CertPolicyFlags := BIT_STRING_OF [
  ("inhibitPolicyMapping", 0); ("requireExplicitPolicy", 1); ("inhibitAnyPolicy", 2)]%Z.
Definition CertPathControls := SEQUENCE [
  req "taName" Name;
  opt "certificate" (implicit 0 Certificate);
  opt "policySet" (implicit 1 CertificatePolicies);
  opt "policyFlags" (implicit 2 CertPolicyFlags);
  opt "nameConstr" (implicit 3 NameConstraints);
  opt "pathLenConstraint" (implicit 4 (range_min 0 INTEGER))].
Definition TrustAnchorInfo := SEQUENCE [
  dft "version" TrustAnchorInfoVersion (VInt 1);
  req "pubKey" SubjectPublicKeyInfo;
  req "keyId" KeyIdentifier;
  opt "taTitle" TrustAnchorTitle;
  opt "certPath" CertPathControls;
  opt "exts" (explicit 1 Extensions);
  opt "taTitleLangTag" (implicit 2 UTF8String)].
Definition TrustAnchorChoice := CHOICE [
  req "certificate" Certificate;
  req "tbsCert" (explicit 1 TBSCertificate);
  req "taInfo" (explicit 2 TrustAnchorInfo)].
Definition TrustAnchorList := size_min 1 (SEQUENCE_OF TrustAnchorChoice).

Definition rfc5914 : list (string * sty) := [
  ("TrustAnchorInfoVersion", TrustAnchorInfoVersion); ("TrustAnchorTitle", TrustAnchorTitle);
  ("CertPolicyFlags", CertPolicyFlags); ("CertPathControls", CertPathControls); ("TrustAnchorInfo", TrustAnchorInfo);
  ("TrustAnchorChoice", TrustAnchorChoice); ("TrustAnchorList", TrustAnchorList);
  ("Certificate", Rfc5280.Certificate); ("Name", Rfc5280.Name); ("Extensions", Rfc5280.Extensions);
  ("SubjectPublicKeyInfo", Rfc5280.SubjectPublicKeyInfo); ("TBSCertificate", Rfc5280.TBSCertificate);
  ("CertificatePolicies", Rfc5280.CertificatePolicies); ("KeyIdentifier", Rfc5280.KeyIdentifier);
  ("NameConstraints", Rfc5280.NameConstraints)].
