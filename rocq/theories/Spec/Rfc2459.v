(** RFC 2459, appendix A: PKIX1Explicit88 (EXPLICIT TAGS) and PKIX1Implicit88 (IMPLICIT TAGS).
    The types that read the same in RFC 5280 are taken from Spec/Rfc5280.v; where the
    appendix and section 4 name a component differently, the name of section 4 is used. *)
From Coq Require Import List String ZArith NArith.
From Verif Require Import Asn1.Types Spec.X680.
From Verif Require Import Spec.Rfc5280.
Import ListNotations.
Open Scope string_scope.
Open Scope list_scope.

Definition UniversalString := X680.UniversalString.
Definition BMPString := X680.BMPString.
Definition UTF8String := X680.UTF8String.
Definition Pkcs9email := size 1 128 IA5String.

Definition Dss_Sig_Value := SEQUENCE [req "r" INTEGER; req "s" INTEGER].
Definition ValidationParms := SEQUENCE [req "seed" BIT_STRING; req "pgenCounter" INTEGER].
Definition DomainParameters := SEQUENCE [
  req "p" INTEGER; req "g" INTEGER; req "q" INTEGER; opt "j" INTEGER; opt "validationParms" ValidationParms].
Definition Dss_Parms := SEQUENCE [req "p" INTEGER; req "q" INTEGER; req "g" INTEGER].

(** X.400 addresses: without the IMPLICIT of RFC 3280 *)
Definition PersonalName := SET [
  req "surname" (explicit 0 (size 1 40 PrintableString));
  opt "given-name" (explicit 1 (size 1 16 PrintableString));
  opt "initials" (explicit 2 (size 1 5 PrintableString));
  opt "generation-qualifier" (explicit 3 (size 1 3 PrintableString))].
Definition TeletexPersonalName := SET [
  req "surname" (explicit 0 (size 1 40 TeletexString));
  opt "given-name" (explicit 1 (size 1 16 TeletexString));
  opt "initials" (explicit 2 (size 1 5 TeletexString));
  opt "generation-qualifier" (explicit 3 (size 1 3 TeletexString))].
Definition BuiltInStandardAttributes := SEQUENCE [
  opt "country-name" CountryName;
  opt "administration-domain-name" AdministrationDomainName;
  opt "network-address" (explicit 0 NetworkAddress);
  opt "terminal-identifier" (explicit 1 TerminalIdentifier);
  opt "private-domain-name" (explicit 2 PrivateDomainName);
  opt "organization-name" (explicit 3 OrganizationName);
  opt "numeric-user-identifier" (explicit 4 NumericUserIdentifier);
  opt "personal-name" (explicit 5 PersonalName);
  opt "organizational-unit-names" (explicit 6 OrganizationalUnitNames)].
Definition ExtensionAttribute := SEQUENCE [
  req "extension-attribute-type" (explicit 0 (range 0 256 INTEGER));
  req "extension-attribute-value" (explicit 1 ANY)].
Definition ExtensionAttributes := size 1 256 (SET_OF ExtensionAttribute).
Definition ORAddress := SEQUENCE [
  req "built-in-standard-attributes" BuiltInStandardAttributes;
  opt "built-in-domain-defined-attributes" BuiltInDomainDefinedAttributes;
  opt "extension-attributes" ExtensionAttributes].
Definition E163_4_address := SEQUENCE [
  req "number" (explicit 0 (size 1 15 NumericString)); opt "sub-address" (explicit 1 (size 1 40 NumericString))].
Definition ExtendedNetworkAddress := CHOICE [
  req "e163-4-address" E163_4_address; req "psap-address" (explicit 0 PresentationAddress)].

Definition Certificate := SEQUENCE [
  req "tbsCertificate" TBSCertificate; req "signatureAlgorithm" AlgorithmIdentifier; req "signatureValue" BIT_STRING].
Definition RevokedCertificate := SEQUENCE [
  req "userCertificate" CertificateSerialNumber; req "revocationDate" Time; opt "crlEntryExtensions" Extensions].
Definition PolicyMapping := SEQUENCE [
  req "issuerDomainPolicy" CertPolicyId; req "subjectDomainPolicy" CertPolicyId].
Definition GeneralName := CHOICE [
  req "otherName" (implicit 0 AnotherName);
  req "rfc822Name" (implicit 1 IA5String);
  req "dNSName" (implicit 2 IA5String);
  req "x400Address" (implicit 3 ORAddress);
  req "directoryName" (implicit 4 Name);
  req "ediPartyName" (implicit 5 EDIPartyName);
  req "uniformResourceIdentifier" (implicit 6 IA5String);
  req "iPAddress" (implicit 7 OCTET_STRING);
  req "registeredID" (implicit 8 OBJECT_IDENTIFIER)].
Definition GeneralNames := size_min 1 (SEQUENCE_OF GeneralName).
Definition AuthorityKeyIdentifier := SEQUENCE [
  opt "keyIdentifier" (implicit 0 KeyIdentifier);
  opt "authorityCertIssuer" (implicit 1 GeneralNames);
  opt "authorityCertSerialNumber" (implicit 2 CertificateSerialNumber)].
Definition DisplayText := CHOICE [
  req "visibleString" (size 1 200 VisibleString);
  req "bmpString" (size 1 200 X680.BMPString);
  req "utf8String" (size 1 200 X680.UTF8String)].
Definition NoticeReference := SEQUENCE [req "organization" DisplayText; req "noticeNumbers" (SEQUENCE_OF INTEGER)].
Definition UserNotice := SEQUENCE [opt "noticeRef" NoticeReference; opt "explicitText" DisplayText].
Definition SubjectAltName := GeneralNames.
Definition IssuerAltName := GeneralNames.
Definition GeneralSubtree := SEQUENCE [
  req "base" GeneralName; dft "minimum" (implicit 0 BaseDistance) (VInt 0); opt "maximum" (implicit 1 BaseDistance)].
Definition GeneralSubtrees := size_min 1 (SEQUENCE_OF GeneralSubtree).
Definition NameConstraints := SEQUENCE [
  opt "permittedSubtrees" (implicit 0 GeneralSubtrees); opt "excludedSubtrees" (implicit 1 GeneralSubtrees)].
Definition ReasonFlags := BIT_STRING_OF [
  ("unused", 0); ("keyCompromise", 1); ("cACompromise", 2); ("affiliationChanged", 3); ("superseded", 4);
  ("cessationOfOperation", 5); ("certificateHold", 6)]%Z.
Definition DistributionPointName := CHOICE [
  req "fullName" (implicit 0 GeneralNames); req "nameRelativeToCRLIssuer" (implicit 1 RelativeDistinguishedName)].
Definition DistributionPoint := SEQUENCE [
  opt "distributionPoint" (implicit 0 DistributionPointName);
  opt "reasons" (implicit 1 ReasonFlags);
  opt "cRLIssuer" (implicit 2 GeneralNames)].
Definition CRLDistPointsSyntax := size_min 1 (SEQUENCE_OF DistributionPoint).
Definition AccessDescription := SEQUENCE [req "accessMethod" OBJECT_IDENTIFIER; req "accessLocation" GeneralName].
Definition AuthorityInfoAccessSyntax := size_min 1 (SEQUENCE_OF AccessDescription).
Definition IssuingDistributionPoint := SEQUENCE [
  opt "distributionPoint" (implicit 0 DistributionPointName);
  dft "onlyContainsUserCerts" (implicit 1 BOOLEAN) (VBool false);
  dft "onlyContainsCACerts" (implicit 2 BOOLEAN) (VBool false);
  opt "onlySomeReasons" (implicit 3 ReasonFlags);
  dft "indirectCRL" (implicit 4 BOOLEAN) (VBool false)].
Definition CRLReason := ENUMERATED [
  ("unspecified", 0); ("keyCompromise", 1); ("cACompromise", 2); ("affiliationChanged", 3); ("superseded", 4);
  ("cessationOfOperation", 5); ("certificateHold", 6); ("removeFromCRL", 8)]%Z.
Definition CertificateIssuer := GeneralNames.

Definition rfc2459 : list (string * sty) := [
  ("UniversalString", UniversalString); ("BMPString", BMPString); ("UTF8String", UTF8String);
  ("Pkcs9email", Pkcs9email); ("Dss_Sig_Value", Dss_Sig_Value); ("ValidationParms", ValidationParms);
  ("DomainParameters", DomainParameters); ("Dss_Parms", Dss_Parms); ("PersonalName", PersonalName);
  ("TeletexPersonalName", TeletexPersonalName); ("BuiltInStandardAttributes", BuiltInStandardAttributes);
  ("ExtensionAttribute", ExtensionAttribute); ("ExtensionAttributes", ExtensionAttributes); ("ORAddress", ORAddress);
  ("E163_4_address", E163_4_address); ("ExtendedNetworkAddress", ExtendedNetworkAddress);
  ("Certificate", Certificate); ("RevokedCertificate", RevokedCertificate); ("PolicyMapping", PolicyMapping);
  ("GeneralName", GeneralName); ("GeneralNames", GeneralNames); ("AuthorityKeyIdentifier", AuthorityKeyIdentifier);
  ("DisplayText", DisplayText); ("NoticeReference", NoticeReference); ("UserNotice", UserNotice);
  ("SubjectAltName", SubjectAltName); ("IssuerAltName", IssuerAltName); ("GeneralSubtree", GeneralSubtree);
  ("GeneralSubtrees", GeneralSubtrees); ("NameConstraints", NameConstraints); ("ReasonFlags", ReasonFlags);
  ("DistributionPointName", DistributionPointName); ("DistributionPoint", DistributionPoint);
  ("CRLDistPointsSyntax", CRLDistPointsSyntax); ("AccessDescription", AccessDescription);
  ("AuthorityInfoAccessSyntax", AuthorityInfoAccessSyntax); ("IssuingDistributionPoint", IssuingDistributionPoint);
  ("CRLReason", CRLReason); ("CertificateIssuer", CertificateIssuer); ("AttributeType", Rfc5280.AttributeType);
  ("AttributeValue", Rfc5280.AttributeValue); ("Attribute", Rfc5280.Attribute);
  ("AttributeTypeAndValue", Rfc5280.AttributeTypeAndValue); ("X520name", Rfc5280.X520name);
  ("X520CommonName", Rfc5280.X520CommonName); ("X520LocalityName", Rfc5280.X520LocalityName);
  ("X520StateOrProvinceName", Rfc5280.X520StateOrProvinceName);
  ("X520OrganizationName", Rfc5280.X520OrganizationName);
  ("X520OrganizationalUnitName", Rfc5280.X520OrganizationalUnitName); ("X520Title", Rfc5280.X520Title);
  ("X520dnQualifier", Rfc5280.X520dnQualifier); ("X520countryName", Rfc5280.X520countryName);
  ("DirectoryString", Rfc5280.DirectoryString); ("RelativeDistinguishedName", Rfc5280.RelativeDistinguishedName);
  ("RDNSequence", Rfc5280.RDNSequence); ("Name", Rfc5280.Name); ("AlgorithmIdentifier", Rfc5280.AlgorithmIdentifier);
  ("Version", Rfc5280.Version); ("CertificateSerialNumber", Rfc5280.CertificateSerialNumber); ("Time", Rfc5280.Time);
  ("Validity", Rfc5280.Validity); ("UniqueIdentifier", Rfc5280.UniqueIdentifier);
  ("SubjectPublicKeyInfo", Rfc5280.SubjectPublicKeyInfo); ("Extension", Rfc5280.Extension);
  ("Extensions", Rfc5280.Extensions); ("TBSCertificate", Rfc5280.TBSCertificate);
  ("TBSCertList", Rfc5280.TBSCertList); ("CertificateList", Rfc5280.CertificateList);
  ("CountryName", Rfc5280.CountryName); ("AdministrationDomainName", Rfc5280.AdministrationDomainName);
  ("X121Address", Rfc5280.X121Address); ("NetworkAddress", Rfc5280.NetworkAddress);
  ("TerminalIdentifier", Rfc5280.TerminalIdentifier); ("PrivateDomainName", Rfc5280.PrivateDomainName);
  ("OrganizationName", Rfc5280.OrganizationName); ("NumericUserIdentifier", Rfc5280.NumericUserIdentifier);
  ("OrganizationalUnitName", Rfc5280.OrganizationalUnitName);
  ("OrganizationalUnitNames", Rfc5280.OrganizationalUnitNames);
  ("BuiltInDomainDefinedAttribute", Rfc5280.BuiltInDomainDefinedAttribute);
  ("BuiltInDomainDefinedAttributes", Rfc5280.BuiltInDomainDefinedAttributes); ("CommonName", Rfc5280.CommonName);
  ("TeletexCommonName", Rfc5280.TeletexCommonName); ("TeletexOrganizationName", Rfc5280.TeletexOrganizationName);
  ("TeletexOrganizationalUnitName", Rfc5280.TeletexOrganizationalUnitName);
  ("TeletexOrganizationalUnitNames", Rfc5280.TeletexOrganizationalUnitNames); ("PDSName", Rfc5280.PDSName);
  ("PhysicalDeliveryCountryName", Rfc5280.PhysicalDeliveryCountryName); ("PostalCode", Rfc5280.PostalCode);
  ("PDSParameter", Rfc5280.PDSParameter); ("PhysicalDeliveryOfficeName", Rfc5280.PhysicalDeliveryOfficeName);
  ("PhysicalDeliveryOfficeNumber", Rfc5280.PhysicalDeliveryOfficeNumber);
  ("ExtensionORAddressComponents", Rfc5280.ExtensionORAddressComponents);
  ("PhysicalDeliveryPersonalName", Rfc5280.PhysicalDeliveryPersonalName);
  ("PhysicalDeliveryOrganizationName", Rfc5280.PhysicalDeliveryOrganizationName);
  ("ExtensionPhysicalDeliveryAddressComponents", Rfc5280.ExtensionPhysicalDeliveryAddressComponents);
  ("StreetAddress", Rfc5280.StreetAddress); ("PostOfficeBoxAddress", Rfc5280.PostOfficeBoxAddress);
  ("PosteRestanteAddress", Rfc5280.PosteRestanteAddress); ("UniquePostalName", Rfc5280.UniquePostalName);
  ("LocalPostalAttributes", Rfc5280.LocalPostalAttributes);
  ("UnformattedPostalAddress", Rfc5280.UnformattedPostalAddress);
  ("PresentationAddress", Rfc5280.PresentationAddress); ("TerminalType", Rfc5280.TerminalType);
  ("TeletexDomainDefinedAttribute", Rfc5280.TeletexDomainDefinedAttribute);
  ("TeletexDomainDefinedAttributes", Rfc5280.TeletexDomainDefinedAttributes); ("AnotherName", Rfc5280.AnotherName);
  ("EDIPartyName", Rfc5280.EDIPartyName); ("KeyIdentifier", Rfc5280.KeyIdentifier);
  ("SubjectKeyIdentifier", Rfc5280.SubjectKeyIdentifier); ("KeyUsage", Rfc5280.KeyUsage);
  ("PrivateKeyUsagePeriod", Rfc5280.PrivateKeyUsagePeriod); ("CertPolicyId", Rfc5280.CertPolicyId);
  ("PolicyQualifierId", Rfc5280.PolicyQualifierId); ("PolicyQualifierInfo", Rfc5280.PolicyQualifierInfo);
  ("PolicyInformation", Rfc5280.PolicyInformation); ("CertificatePolicies", Rfc5280.CertificatePolicies);
  ("CPSuri", Rfc5280.CPSuri); ("PolicyMappings", Rfc5280.PolicyMappings);
  ("SubjectDirectoryAttributes", Rfc5280.SubjectDirectoryAttributes); ("BasicConstraints", Rfc5280.BasicConstraints);
  ("BaseDistance", Rfc5280.BaseDistance); ("SkipCerts", Rfc5280.SkipCerts);
  ("PolicyConstraints", Rfc5280.PolicyConstraints); ("KeyPurposeId", Rfc5280.KeyPurposeId);
  ("ExtKeyUsageSyntax", Rfc5280.ExtKeyUsageSyntax); ("CRLNumber", Rfc5280.CRLNumber);
  ("BaseCRLNumber", Rfc5280.BaseCRLNumber); ("HoldInstructionCode", Rfc5280.HoldInstructionCode);
  ("InvalidityDate", Rfc5280.InvalidityDate)].
