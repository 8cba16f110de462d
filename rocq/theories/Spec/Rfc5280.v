(** RFC 5280, appendix A: the ASN.1 modules PKIX1Explicit88 (EXPLICIT TAGS) and
    PKIX1Implicit88 (IMPLICIT TAGS). *)
From Coq Require Import List String ZArith NArith.
From Verif Require Import Asn1.Types Spec.X680.
Import ListNotations.
Open Scope string_scope.
Open Scope list_scope.

(** ** A.1 PKIX1Explicit88: [n] is [n] EXPLICIT unless written otherwise *)

Definition AttributeType := OBJECT_IDENTIFIER.
Definition AttributeValue := ANY.
Definition Attribute := SEQUENCE [req "type" AttributeType; req "values" (SET_OF AttributeValue)].
Definition AttributeTypeAndValue := SEQUENCE [req "type" AttributeType; req "value" AttributeValue].

Definition string_choice (ub : N) := CHOICE [
  req "teletexString" (size 1 ub TeletexString);
  req "printableString" (size 1 ub PrintableString);
  req "universalString" (size 1 ub UniversalString);
  req "utf8String" (size 1 ub UTF8String);
  req "bmpString" (size 1 ub BMPString)].
Definition X520name := string_choice 32768.
Definition X520CommonName := string_choice 64.
Definition X520LocalityName := string_choice 128.
Definition X520StateOrProvinceName := string_choice 128.
Definition X520OrganizationName := string_choice 64.
Definition X520OrganizationalUnitName := string_choice 64.
Definition X520Title := string_choice 64.
Definition X520dnQualifier := PrintableString.
Definition X520countryName := size 2 2 PrintableString.
Definition X520SerialNumber := size 1 64 PrintableString.
Definition X520Pseudonym := string_choice 128.
Definition DomainComponent := IA5String.
Definition EmailAddress := size 1 255 IA5String.

Definition DirectoryString := CHOICE [
  req "teletexString" (size_min 1 TeletexString);
  req "printableString" (size_min 1 PrintableString);
  req "universalString" (size_min 1 UniversalString);
  req "utf8String" (size_min 1 UTF8String);
  req "bmpString" (size_min 1 BMPString)].

Definition RelativeDistinguishedName := size_min 1 (SET_OF AttributeTypeAndValue).
Definition RDNSequence := SEQUENCE_OF RelativeDistinguishedName.
Definition DistinguishedName := RDNSequence.
Definition Name := CHOICE [req "rdnSequence" RDNSequence].

Definition AlgorithmIdentifier := SEQUENCE [req "algorithm" OBJECT_IDENTIFIER; opt "parameters" ANY].
Definition Version := INTEGER_OF [("v1", 0); ("v2", 1); ("v3", 2)]%Z.
Definition CertificateSerialNumber := INTEGER.
Definition Time := CHOICE [req "utcTime" UTCTime; req "generalTime" GeneralizedTime].
Definition Validity := SEQUENCE [req "notBefore" Time; req "notAfter" Time].
Definition UniqueIdentifier := BIT_STRING.
Definition SubjectPublicKeyInfo := SEQUENCE [req "algorithm" AlgorithmIdentifier; req "subjectPublicKey" BIT_STRING].
Definition Extension := SEQUENCE [
  req "extnID" OBJECT_IDENTIFIER; dft "critical" BOOLEAN (VBool false); req "extnValue" OCTET_STRING].
Definition Extensions := size_min 1 (SEQUENCE_OF Extension).
Definition TBSCertificate := SEQUENCE [
  dft "version" (explicit 0 Version) (VInt 0);
  req "serialNumber" CertificateSerialNumber;
  req "signature" AlgorithmIdentifier;
  req "issuer" Name;
  req "validity" Validity;
  req "subject" Name;
  req "subjectPublicKeyInfo" SubjectPublicKeyInfo;
  opt "issuerUniqueID" (implicit 1 UniqueIdentifier);
  opt "subjectUniqueID" (implicit 2 UniqueIdentifier);
  opt "extensions" (explicit 3 Extensions)].
Definition Certificate := SEQUENCE [
  req "tbsCertificate" TBSCertificate; req "signatureAlgorithm" AlgorithmIdentifier; req "signature" BIT_STRING].

Definition TBSCertList := SEQUENCE [
  opt "version" Version;
  req "signature" AlgorithmIdentifier;
  req "issuer" Name;
  req "thisUpdate" Time;
  opt "nextUpdate" Time;
  opt "revokedCertificates" (SEQUENCE_OF (SEQUENCE [
    req "userCertificate" CertificateSerialNumber; req "revocationDate" Time; opt "crlEntryExtensions" Extensions]));
  opt "crlExtensions" (explicit 0 Extensions)].
Definition CertificateList := SEQUENCE [
  req "tbsCertList" TBSCertList; req "signatureAlgorithm" AlgorithmIdentifier; req "signature" BIT_STRING].

(** *** X.400 addresses *)

Definition CountryName := ATag Application 1 true (CHOICE [
  req "x121-dcc-code" (size 3 3 NumericString); req "iso-3166-alpha2-code" (size 2 2 PrintableString)]).
Definition AdministrationDomainName := ATag Application 2 true (CHOICE [
  req "numeric" (size 0 16 NumericString); req "printable" (size 0 16 PrintableString)]).
Definition X121Address := size 1 16 NumericString.
Definition NetworkAddress := X121Address.
Definition TerminalIdentifier := size 1 24 PrintableString.
Definition PrivateDomainName := CHOICE [
  req "numeric" (size 1 16 NumericString); req "printable" (size 1 16 PrintableString)].
Definition OrganizationName := size 1 64 PrintableString.
Definition NumericUserIdentifier := size 1 32 NumericString.
Definition PersonalName := SET [
  req "surname" (implicit 0 (size 1 40 PrintableString));
  opt "given-name" (implicit 1 (size 1 16 PrintableString));
  opt "initials" (implicit 2 (size 1 5 PrintableString));
  opt "generation-qualifier" (implicit 3 (size 1 3 PrintableString))].
Definition OrganizationalUnitName := size 1 32 PrintableString.
Definition OrganizationalUnitNames := size 1 4 (SEQUENCE_OF OrganizationalUnitName).
Definition BuiltInStandardAttributes := SEQUENCE [
  opt "country-name" CountryName;
  opt "administration-domain-name" AdministrationDomainName;
  opt "network-address" (implicit 0 NetworkAddress);
  opt "terminal-identifier" (implicit 1 TerminalIdentifier);
  opt "private-domain-name" (explicit 2 PrivateDomainName);
  opt "organization-name" (implicit 3 OrganizationName);
  opt "numeric-user-identifier" (implicit 4 NumericUserIdentifier);
  opt "personal-name" (implicit 5 PersonalName);
  opt "organizational-unit-names" (implicit 6 OrganizationalUnitNames)].
Definition BuiltInDomainDefinedAttribute := SEQUENCE [
  req "type" (size 1 8 PrintableString); req "value" (size 1 128 PrintableString)].
Definition BuiltInDomainDefinedAttributes := size 1 4 (SEQUENCE_OF BuiltInDomainDefinedAttribute).
Definition ExtensionAttribute := SEQUENCE [
  req "extension-attribute-type" (implicit 0 (range 0 256 INTEGER));
  req "extension-attribute-value" (explicit 1 ANY)].
Definition ExtensionAttributes := size 1 256 (SET_OF ExtensionAttribute).
Definition ORAddress := SEQUENCE [
  req "built-in-standard-attributes" BuiltInStandardAttributes;
  opt "built-in-domain-defined-attributes" BuiltInDomainDefinedAttributes;
  opt "extension-attributes" ExtensionAttributes].

Definition CommonName := size 1 64 PrintableString.
Definition TeletexCommonName := size 1 64 TeletexString.
Definition TeletexOrganizationName := size 1 64 TeletexString.
Definition TeletexPersonalName := SET [
  req "surname" (implicit 0 (size 1 40 TeletexString));
  opt "given-name" (implicit 1 (size 1 16 TeletexString));
  opt "initials" (implicit 2 (size 1 5 TeletexString));
  opt "generation-qualifier" (implicit 3 (size 1 3 TeletexString))].
Definition TeletexOrganizationalUnitName := size 1 32 TeletexString.
Definition TeletexOrganizationalUnitNames := size 1 4 (SEQUENCE_OF TeletexOrganizationalUnitName).
Definition PDSName := size 1 16 PrintableString.
Definition PhysicalDeliveryCountryName := CHOICE [
  req "x121-dcc-code" (size 3 3 NumericString); req "iso-3166-alpha2-code" (size 2 2 PrintableString)].
Definition PostalCode := CHOICE [
  req "numeric-code" (size 1 16 NumericString); req "printable-code" (size 1 16 PrintableString)].
Definition PDSParameter := SET [
  opt "printable-string" (size 1 30 PrintableString); opt "teletex-string" (size 1 30 TeletexString)].
Definition PhysicalDeliveryOfficeName := PDSParameter.
Definition PhysicalDeliveryOfficeNumber := PDSParameter.
Definition ExtensionORAddressComponents := PDSParameter.
Definition PhysicalDeliveryPersonalName := PDSParameter.
Definition PhysicalDeliveryOrganizationName := PDSParameter.
Definition ExtensionPhysicalDeliveryAddressComponents := PDSParameter.
Definition StreetAddress := PDSParameter.
Definition PostOfficeBoxAddress := PDSParameter.
Definition PosteRestanteAddress := PDSParameter.
Definition UniquePostalName := PDSParameter.
Definition LocalPostalAttributes := PDSParameter.
Definition UnformattedPostalAddress := SET [
  opt "printable-address" (size 1 6 (SEQUENCE_OF (size 1 30 PrintableString)));
  opt "teletex-string" (size 1 180 TeletexString)].
Definition PresentationAddress := SEQUENCE [
  opt "pSelector" (explicit 0 OCTET_STRING);
  opt "sSelector" (explicit 1 OCTET_STRING);
  opt "tSelector" (explicit 2 OCTET_STRING);
  req "nAddresses" (explicit 3 (size_min 1 (SET_OF OCTET_STRING)))].
Definition ExtendedNetworkAddress := CHOICE [
  req "e163-4-address" (SEQUENCE [
    req "number" (implicit 0 (size 1 15 NumericString));
    opt "sub-address" (implicit 1 (size 1 40 NumericString))]);
  req "psap-address" (implicit 0 PresentationAddress)].
Definition TerminalType := range 0 256 (INTEGER_OF [
  ("telex", 3); ("teletex", 4); ("g3-facsimile", 5); ("g4-facsimile", 6); ("ia5-terminal", 7); ("videotex", 8)]%Z).
Definition TeletexDomainDefinedAttribute := SEQUENCE [
  req "type" (size 1 8 TeletexString); req "value" (size 1 128 TeletexString)].
Definition TeletexDomainDefinedAttributes := size 1 4 (SEQUENCE_OF TeletexDomainDefinedAttribute).

(** ** A.2 PKIX1Implicit88: [n] is [n] IMPLICIT unless written otherwise *)

Definition AnotherName := SEQUENCE [req "type-id" OBJECT_IDENTIFIER; req "value" (explicit 0 ANY)].
Definition EDIPartyName := SEQUENCE [
  opt "nameAssigner" (implicit 0 DirectoryString); req "partyName" (implicit 1 DirectoryString)].
Definition GeneralName := CHOICE [
  req "otherName" (implicit 0 AnotherName);
  req "rfc822Name" (implicit 1 IA5String);
  req "dNSName" (implicit 2 IA5String);
  req "x400Address" (implicit 3 ORAddress);
  req "directoryName" (implicit 4 Name);
  req "ediPartyName" (implicit 5 EDIPartyName);
  req "uniformResourceIdentifier" (implicit 6 IA5String);
  req "iPAddress" (implicit 7 OCTET_STRING);
  req "registeredID" (implicit 8 OBJECT_IDENTIFIER)].
Definition GeneralNames := size_min 1 (SEQUENCE_OF GeneralName).

Definition KeyIdentifier := OCTET_STRING.
Definition AuthorityKeyIdentifier := SEQUENCE [
  opt "keyIdentifier" (implicit 0 KeyIdentifier);
  opt "authorityCertIssuer" (implicit 1 GeneralNames);
  opt "authorityCertSerialNumber" (implicit 2 CertificateSerialNumber)].
Definition SubjectKeyIdentifier := KeyIdentifier.
Definition KeyUsage := BIT_STRING_OF [
  ("digitalSignature", 0); ("nonRepudiation", 1); ("keyEncipherment", 2); ("dataEncipherment", 3); ("keyAgreement", 4);
  ("keyCertSign", 5); ("cRLSign", 6); ("encipherOnly", 7); ("decipherOnly", 8)]%Z.
Definition PrivateKeyUsagePeriod := SEQUENCE [
  opt "notBefore" (implicit 0 GeneralizedTime); opt "notAfter" (implicit 1 GeneralizedTime)].

Definition CertPolicyId := OBJECT_IDENTIFIER.
Definition PolicyQualifierId := oids [[1; 3; 6; 1; 5; 5; 7; 2; 1]; [1; 3; 6; 1; 5; 5; 7; 2; 2]]%N OBJECT_IDENTIFIER.
Definition PolicyQualifierInfo := SEQUENCE [req "policyQualifierId" PolicyQualifierId; req "qualifier" ANY].
Definition PolicyInformation := SEQUENCE [
  req "policyIdentifier" CertPolicyId; opt "policyQualifiers" (size_min 1 (SEQUENCE_OF PolicyQualifierInfo))].
Definition CertificatePolicies := size_min 1 (SEQUENCE_OF PolicyInformation).
Definition CPSuri := IA5String.
Definition DisplayText := CHOICE [
  req "ia5String" (size 1 200 IA5String);
  req "visibleString" (size 1 200 VisibleString);
  req "bmpString" (size 1 200 BMPString);
  req "utf8String" (size 1 200 UTF8String)].
Definition NoticeReference := SEQUENCE [req "organization" DisplayText; req "noticeNumbers" (SEQUENCE_OF INTEGER)].
Definition UserNotice := SEQUENCE [opt "noticeRef" NoticeReference; opt "explicitText" DisplayText].
Definition PolicyMappings := size_min 1 (SEQUENCE_OF (SEQUENCE [
  req "issuerDomainPolicy" CertPolicyId; req "subjectDomainPolicy" CertPolicyId])).

Definition SubjectAltName := GeneralNames.
Definition IssuerAltName := GeneralNames.
Definition SubjectDirectoryAttributes := size_min 1 (SEQUENCE_OF Attribute).
Definition BasicConstraints := SEQUENCE [
  dft "cA" BOOLEAN (VBool false); opt "pathLenConstraint" (range_min 0 INTEGER)].
Definition BaseDistance := range_min 0 INTEGER.
Definition GeneralSubtree := SEQUENCE [
  req "base" GeneralName; dft "minimum" (implicit 0 BaseDistance) (VInt 0); opt "maximum" (implicit 1 BaseDistance)].
Definition GeneralSubtrees := size_min 1 (SEQUENCE_OF GeneralSubtree).
Definition NameConstraints := SEQUENCE [
  opt "permittedSubtrees" (implicit 0 GeneralSubtrees); opt "excludedSubtrees" (implicit 1 GeneralSubtrees)].
Definition SkipCerts := range_min 0 INTEGER.
Definition PolicyConstraints := SEQUENCE [
  opt "requireExplicitPolicy" (implicit 0 SkipCerts); opt "inhibitPolicyMapping" (implicit 1 SkipCerts)].

Definition ReasonFlags := BIT_STRING_OF [
  ("unused", 0); ("keyCompromise", 1); ("cACompromise", 2); ("affiliationChanged", 3); ("superseded", 4);
  ("cessationOfOperation", 5); ("certificateHold", 6); ("privilegeWithdrawn", 7); ("aACompromise", 8)]%Z.
Definition DistributionPointName := CHOICE [
  req "fullName" (implicit 0 GeneralNames); req "nameRelativeToCRLIssuer" (implicit 1 RelativeDistinguishedName)].
Definition DistributionPoint := SEQUENCE [
  opt "distributionPoint" (implicit 0 DistributionPointName);
  opt "reasons" (implicit 1 ReasonFlags);
  opt "cRLIssuer" (implicit 2 GeneralNames)].
Definition CRLDistributionPoints := size_min 1 (SEQUENCE_OF DistributionPoint).
Definition KeyPurposeId := OBJECT_IDENTIFIER.
Definition ExtKeyUsageSyntax := size_min 1 (SEQUENCE_OF KeyPurposeId).
Definition InhibitAnyPolicy := SkipCerts.
Definition FreshestCRL := CRLDistributionPoints.
Definition AccessDescription := SEQUENCE [req "accessMethod" OBJECT_IDENTIFIER; req "accessLocation" GeneralName].
Definition AuthorityInfoAccessSyntax := size_min 1 (SEQUENCE_OF AccessDescription).
Definition SubjectInfoAccessSyntax := size_min 1 (SEQUENCE_OF AccessDescription).

Definition CRLNumber := range_min 0 INTEGER.
Definition IssuingDistributionPoint := SEQUENCE [
  opt "distributionPoint" (implicit 0 DistributionPointName);
  dft "onlyContainsUserCerts" (implicit 1 BOOLEAN) (VBool false);
  dft "onlyContainsCACerts" (implicit 2 BOOLEAN) (VBool false);
  opt "onlySomeReasons" (implicit 3 ReasonFlags);
  dft "indirectCRL" (implicit 4 BOOLEAN) (VBool false);
  dft "onlyContainsAttributeCerts" (implicit 5 BOOLEAN) (VBool false)].
Definition BaseCRLNumber := CRLNumber.
Definition CRLReason := ENUMERATED [
  ("unspecified", 0); ("keyCompromise", 1); ("cACompromise", 2); ("affiliationChanged", 3); ("superseded", 4);
  ("cessationOfOperation", 5); ("certificateHold", 6); ("removeFromCRL", 8); ("privilegeWithdrawn", 9); ("aACompromise", 10)]%Z.
Definition CertificateIssuer := GeneralNames.
Definition HoldInstructionCode := OBJECT_IDENTIFIER.
Definition InvalidityDate := GeneralizedTime.

Definition rfc5280 : list (string * sty) := [
  ("AttributeType", AttributeType); ("AttributeValue", AttributeValue); ("Attribute", Attribute);
  ("AttributeTypeAndValue", AttributeTypeAndValue); ("X520name", X520name); ("X520CommonName", X520CommonName);
  ("X520LocalityName", X520LocalityName); ("X520StateOrProvinceName", X520StateOrProvinceName);
  ("X520OrganizationName", X520OrganizationName); ("X520OrganizationalUnitName", X520OrganizationalUnitName);
  ("X520Title", X520Title); ("X520dnQualifier", X520dnQualifier); ("X520countryName", X520countryName);
  ("X520SerialNumber", X520SerialNumber); ("X520Pseudonym", X520Pseudonym); ("DomainComponent", DomainComponent);
  ("EmailAddress", EmailAddress); ("DirectoryString", DirectoryString);
  ("RelativeDistinguishedName", RelativeDistinguishedName); ("RDNSequence", RDNSequence);
  ("DistinguishedName", DistinguishedName); ("Name", Name); ("AlgorithmIdentifier", AlgorithmIdentifier);
  ("Version", Version); ("CertificateSerialNumber", CertificateSerialNumber); ("Time", Time); ("Validity", Validity);
  ("UniqueIdentifier", UniqueIdentifier); ("SubjectPublicKeyInfo", SubjectPublicKeyInfo); ("Extension", Extension);
  ("Extensions", Extensions); ("TBSCertificate", TBSCertificate); ("Certificate", Certificate);
  ("TBSCertList", TBSCertList); ("CertificateList", CertificateList); ("CountryName", CountryName);
  ("AdministrationDomainName", AdministrationDomainName); ("X121Address", X121Address);
  ("NetworkAddress", NetworkAddress); ("TerminalIdentifier", TerminalIdentifier);
  ("PrivateDomainName", PrivateDomainName); ("OrganizationName", OrganizationName);
  ("NumericUserIdentifier", NumericUserIdentifier); ("PersonalName", PersonalName);
  ("OrganizationalUnitName", OrganizationalUnitName); ("OrganizationalUnitNames", OrganizationalUnitNames);
  ("BuiltInStandardAttributes", BuiltInStandardAttributes);
  ("BuiltInDomainDefinedAttribute", BuiltInDomainDefinedAttribute);
  ("BuiltInDomainDefinedAttributes", BuiltInDomainDefinedAttributes); ("ExtensionAttribute", ExtensionAttribute);
  ("ExtensionAttributes", ExtensionAttributes); ("ORAddress", ORAddress); ("CommonName", CommonName);
  ("TeletexCommonName", TeletexCommonName); ("TeletexOrganizationName", TeletexOrganizationName);
  ("TeletexPersonalName", TeletexPersonalName); ("TeletexOrganizationalUnitName", TeletexOrganizationalUnitName);
  ("TeletexOrganizationalUnitNames", TeletexOrganizationalUnitNames); ("PDSName", PDSName);
  ("PhysicalDeliveryCountryName", PhysicalDeliveryCountryName); ("PostalCode", PostalCode);
  ("PDSParameter", PDSParameter); ("PhysicalDeliveryOfficeName", PhysicalDeliveryOfficeName);
  ("PhysicalDeliveryOfficeNumber", PhysicalDeliveryOfficeNumber);
  ("ExtensionORAddressComponents", ExtensionORAddressComponents);
  ("PhysicalDeliveryPersonalName", PhysicalDeliveryPersonalName);
  ("PhysicalDeliveryOrganizationName", PhysicalDeliveryOrganizationName);
  ("ExtensionPhysicalDeliveryAddressComponents", ExtensionPhysicalDeliveryAddressComponents);
  ("StreetAddress", StreetAddress); ("PostOfficeBoxAddress", PostOfficeBoxAddress);
  ("PosteRestanteAddress", PosteRestanteAddress); ("UniquePostalName", UniquePostalName);
  ("LocalPostalAttributes", LocalPostalAttributes); ("UnformattedPostalAddress", UnformattedPostalAddress);
  ("PresentationAddress", PresentationAddress); ("ExtendedNetworkAddress", ExtendedNetworkAddress);
  ("TerminalType", TerminalType); ("TeletexDomainDefinedAttribute", TeletexDomainDefinedAttribute);
  ("TeletexDomainDefinedAttributes", TeletexDomainDefinedAttributes); ("AnotherName", AnotherName);
  ("EDIPartyName", EDIPartyName); ("GeneralName", GeneralName); ("GeneralNames", GeneralNames);
  ("KeyIdentifier", KeyIdentifier); ("AuthorityKeyIdentifier", AuthorityKeyIdentifier);
  ("SubjectKeyIdentifier", SubjectKeyIdentifier); ("KeyUsage", KeyUsage);
  ("PrivateKeyUsagePeriod", PrivateKeyUsagePeriod); ("CertPolicyId", CertPolicyId);
  ("PolicyQualifierId", PolicyQualifierId); ("PolicyQualifierInfo", PolicyQualifierInfo);
  ("PolicyInformation", PolicyInformation); ("CertificatePolicies", CertificatePolicies); ("CPSuri", CPSuri);
  ("DisplayText", DisplayText); ("NoticeReference", NoticeReference); ("UserNotice", UserNotice);
  ("PolicyMappings", PolicyMappings); ("SubjectAltName", SubjectAltName); ("IssuerAltName", IssuerAltName);
  ("SubjectDirectoryAttributes", SubjectDirectoryAttributes); ("BasicConstraints", BasicConstraints);
  ("BaseDistance", BaseDistance); ("GeneralSubtree", GeneralSubtree); ("GeneralSubtrees", GeneralSubtrees);
  ("NameConstraints", NameConstraints); ("SkipCerts", SkipCerts); ("PolicyConstraints", PolicyConstraints);
  ("ReasonFlags", ReasonFlags); ("DistributionPointName", DistributionPointName);
  ("DistributionPoint", DistributionPoint); ("CRLDistributionPoints", CRLDistributionPoints);
  ("KeyPurposeId", KeyPurposeId); ("ExtKeyUsageSyntax", ExtKeyUsageSyntax); ("InhibitAnyPolicy", InhibitAnyPolicy);
  ("FreshestCRL", FreshestCRL); ("AccessDescription", AccessDescription);
  ("AuthorityInfoAccessSyntax", AuthorityInfoAccessSyntax); ("SubjectInfoAccessSyntax", SubjectInfoAccessSyntax);
  ("CRLNumber", CRLNumber); ("IssuingDistributionPoint", IssuingDistributionPoint); ("BaseCRLNumber", BaseCRLNumber);
  ("CRLReason", CRLReason); ("CertificateIssuer", CertificateIssuer); ("HoldInstructionCode", HoldInstructionCode);
  ("InvalidityDate", InvalidityDate)].
