(** RFC 3281, appendix B: PKIXAttributeCertificate (IMPLICIT TAGS). *)
From Coq Require Import List String ZArith NArith.
From Verif Require Import Asn1.Types Spec.X680.
From Verif Require Import Spec.Rfc5280.
Import ListNotations.
Open Scope string_scope.
Open Scope list_scope.

Definition IssuerSerial := SEQUENCE [
  req "issuer" GeneralNames; req "serial" CertificateSerialNumber; opt "issuerUID" UniqueIdentifier].
Definition ObjectDigestInfo := SEQUENCE [
  req "digestedObjectType" (ENUMERATED [("publicKey", 0); ("publicKeyCert", 1); ("otherObjectTypes", 2)]%Z);
  opt "otherObjectTypeID" OBJECT_IDENTIFIER;
  req "digestAlgorithm" AlgorithmIdentifier;
  req "objectDigest" BIT_STRING].
Definition Holder := SEQUENCE [
  opt "baseCertificateID" (implicit 0 IssuerSerial);
  opt "entityName" (implicit 1 GeneralNames);
  opt "objectDigestInfo" (implicit 2 ObjectDigestInfo)].
Definition V2Form := SEQUENCE [
  opt "issuerName" GeneralNames;
  opt "baseCertificateID" (implicit 0 IssuerSerial);
  opt "objectDigestInfo" (implicit 1 ObjectDigestInfo)].
Definition AttCertIssuer := CHOICE [req "v1Form" GeneralNames; req "v2Form" (implicit 0 V2Form)].
Definition AttCertVersion := INTEGER_OF [("v2", 1)]%Z.
Definition AttCertValidityPeriod := SEQUENCE [req "notBeforeTime" GeneralizedTime; req "notAfterTime" GeneralizedTime].
Definition AttributeCertificateInfo := SEQUENCE [
  req "version" AttCertVersion;
  req "holder" Holder;
  req "issuer" AttCertIssuer;
  req "signature" AlgorithmIdentifier;
  req "serialNumber" CertificateSerialNumber;
  req "attrCertValidityPeriod" AttCertValidityPeriod;
  req "attributes" (SEQUENCE_OF Attribute);
  opt "issuerUniqueID" UniqueIdentifier;
  opt "extensions" Extensions].
Definition AttributeCertificate := SEQUENCE [
  req "acinfo" AttributeCertificateInfo; req "signatureAlgorithm" AlgorithmIdentifier; req "signatureValue" BIT_STRING].

Definition TargetCert := SEQUENCE [
  req "targetCertificate" IssuerSerial; opt "targetName" GeneralName; opt "certDigestInfo" ObjectDigestInfo].
Definition Target := CHOICE [
  req "targetName" (implicit 0 GeneralName); req "targetGroup" (implicit 1 GeneralName); req "targetCert" (implicit 2 TargetCert)].
Definition Targets := SEQUENCE_OF Target.
Definition IetfAttrSyntax := SEQUENCE [
  opt "policyAuthority" (implicit 0 GeneralNames);
  req "values" (SEQUENCE_OF (CHOICE [
    req "octets" OCTET_STRING; req "oid" OBJECT_IDENTIFIER; req "string" UTF8String]))].
Definition SvceAuthInfo := SEQUENCE [req "service" GeneralName; req "ident" GeneralName; opt "authInfo" OCTET_STRING].
Definition RoleSyntax := SEQUENCE [opt "roleAuthority" (implicit 0 GeneralNames); req "roleName" (implicit 1 GeneralName)].
Definition ClassList := BIT_STRING_OF [
  ("unmarked", 0); ("unclassified", 1); ("restricted", 2); ("confidential", 3); ("secret", 4); ("topSecret", 5)]%Z.
Definition SecurityCategory := SEQUENCE [req "type" (implicit 0 OBJECT_IDENTIFIER); req "value" (implicit 1 ANY)].
Definition Clearance := SEQUENCE [
  req "policyId" (implicit 0 OBJECT_IDENTIFIER);
  dft "classList" (implicit 1 ClassList) (VBits [false; true]);
  opt "securityCategories" (implicit 2 (SET_OF SecurityCategory))].
Definition AttrSpec := SEQUENCE_OF OBJECT_IDENTIFIER.
Definition AAControls := SEQUENCE [
  opt "pathLenConstraint" (range_min 0 INTEGER);
  opt "permittedAttrs" (implicit 0 AttrSpec);
  opt "excludedAttrs" (implicit 1 AttrSpec);
  dft "permitUnSpecified" BOOLEAN (VBool true)].
Definition ACClearAttrs := SEQUENCE [
  req "acIssuer" GeneralName; req "acSerial" INTEGER; req "attrs" (SEQUENCE_OF Attribute)].
Definition ProxyInfo := SEQUENCE_OF Targets.

Definition rfc3281 : list (string * sty) := [
  ("IssuerSerial", IssuerSerial); ("ObjectDigestInfo", ObjectDigestInfo); ("Holder", Holder); ("V2Form", V2Form);
  ("AttCertIssuer", AttCertIssuer); ("AttCertVersion", AttCertVersion);
  ("AttCertValidityPeriod", AttCertValidityPeriod); ("AttributeCertificateInfo", AttributeCertificateInfo);
  ("AttributeCertificate", AttributeCertificate); ("TargetCert", TargetCert); ("Target", Target);
  ("Targets", Targets); ("IetfAttrSyntax", IetfAttrSyntax); ("SvceAuthInfo", SvceAuthInfo);
  ("RoleSyntax", RoleSyntax); ("ClassList", ClassList); ("SecurityCategory", SecurityCategory);
  ("Clearance", Clearance); ("AttrSpec", AttrSpec); ("AAControls", AAControls); ("ACClearAttrs", ACClearAttrs);
  ("ProxyInfo", ProxyInfo)].
