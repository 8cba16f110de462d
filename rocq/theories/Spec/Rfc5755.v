(** RFC 5755, appendix B: PKIXAttributeCertificate-2008 (IMPLICIT TAGS).  Most types are those of RFC 3281. *)
From Coq Require Import List String ZArith NArith.
From Verif Require Import Asn1.Types Spec.X680.
From Verif Require Spec.Rfc5652.
From Verif Require Import Spec.Rfc5280 Spec.Rfc3281.
Import ListNotations.
Open Scope string_scope.
Open Scope list_scope.

Definition IssuerSerial := Rfc3281.IssuerSerial.
Definition ObjectDigestInfo := Rfc3281.ObjectDigestInfo.
Definition Holder := Rfc3281.Holder.
Definition V2Form := Rfc3281.V2Form.
Definition AttCertIssuer := Rfc3281.AttCertIssuer.
Definition AttCertVersion := Rfc3281.AttCertVersion.
Definition AttCertValidityPeriod := Rfc3281.AttCertValidityPeriod.
Definition AttributeCertificateInfo := Rfc3281.AttributeCertificateInfo.
Definition AttributeCertificate := Rfc3281.AttributeCertificate.
Definition TargetCert := Rfc3281.TargetCert.
Definition Target := Rfc3281.Target.
Definition Targets := Rfc3281.Targets.
Definition IetfAttrSyntax := Rfc3281.IetfAttrSyntax.
Definition SvceAuthInfo := Rfc3281.SvceAuthInfo.
Definition RoleSyntax := Rfc3281.RoleSyntax.
Definition ClassList := Rfc3281.ClassList.
Definition SecurityCategory := SEQUENCE [req "type" (implicit 0 OBJECT_IDENTIFIER); req "value" (explicit 1 ANY)].
Definition Clearance := SEQUENCE [
  req "policyId" OBJECT_IDENTIFIER;
  dft "classList" ClassList (VBits [false; true]);
  opt "securityCategories" (SET_OF SecurityCategory)].
Definition Clearance_rfc3281 := SEQUENCE [
  req "policyId" (implicit 0 OBJECT_IDENTIFIER);
  dft "classList" (implicit 1 ClassList) (VBits [false; true]);
  opt "securityCategories" (implicit 2 (SET_OF SecurityCategory))].
Definition AttrSpec := Rfc3281.AttrSpec.
Definition AAControls := Rfc3281.AAControls.
Definition ACClearAttrs := Rfc3281.ACClearAttrs.
Definition ProxyInfo := Rfc3281.ProxyInfo.

Definition rfc5755 : list (string * sty) := [
  ("IssuerSerial", IssuerSerial); ("ObjectDigestInfo", ObjectDigestInfo); ("Holder", Holder); ("V2Form", V2Form);
  ("AttCertIssuer", AttCertIssuer); ("AttCertVersion", AttCertVersion);
  ("AttCertValidityPeriod", AttCertValidityPeriod); ("AttributeCertificateInfo", AttributeCertificateInfo);
  ("AttributeCertificate", AttributeCertificate); ("TargetCert", TargetCert); ("Target", Target);
  ("Targets", Targets); ("IetfAttrSyntax", IetfAttrSyntax); ("SvceAuthInfo", SvceAuthInfo);
  ("RoleSyntax", RoleSyntax); ("ClassList", ClassList); ("SecurityCategory", SecurityCategory);
  ("Clearance", Clearance); ("Clearance_rfc3281", Clearance_rfc3281); ("AttrSpec", AttrSpec);
  ("AAControls", AAControls); ("ACClearAttrs", ACClearAttrs); ("ProxyInfo", ProxyInfo);
  ("ContentInfo", Rfc5652.ContentInfo); ("AlgorithmIdentifier", Rfc5280.AlgorithmIdentifier);
  ("Attribute", Rfc5280.Attribute); ("AuthorityInfoAccessSyntax", Rfc5280.AuthorityInfoAccessSyntax);
  ("AuthorityKeyIdentifier", Rfc5280.AuthorityKeyIdentifier);
  ("CertificateSerialNumber", Rfc5280.CertificateSerialNumber);
  ("CRLDistributionPoints", Rfc5280.CRLDistributionPoints); ("Extensions", Rfc5280.Extensions);
  ("Extension", Rfc5280.Extension); ("GeneralNames", Rfc5280.GeneralNames); ("GeneralName", Rfc5280.GeneralName);
  ("UniqueIdentifier", Rfc5280.UniqueIdentifier)].
