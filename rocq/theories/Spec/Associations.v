(** The associations of identifiers with types that the RFCs make: object classes, information
    object sets and prose such as "extnValue contains the DER encoding of a KeyUsage".
    For every module of /repo that fills a registry, the rows say which ASN.1 type belongs to
    which identifier.  The identifiers are those of Spec/Oids.v, the types those of
    Spec/Catalogue.v.  The list was prepared by going through the registrations of /repo and
    comparing each with its RFC; where they differ the row says what the RFC says. *)
From Coq Require Import List String Ascii ZArith NArith Bool.
From Verif Require Import Py.Syntax Asn1.Types Py.Eval Spec.X680 Spec.Catalogue Spec.Oids.
From Verif Require Spec.Rfc5280.
Import ListNotations.
Open Scope string_scope.
Open Scope list_scope.

(** An identifier: a name of the RFC; the arc [n] below one; or an integer (RFC 5280, the
    extension attributes of an X.400 address). *)
Inductive ident := Id (name : string) | Below (name : string) (n : N) | Number (z : Z).
(** A type: defined in the RFC under that name; written in place; or none (the RFC says that
    parameters are absent). *)
Inductive content := Named (x : string) | Inline (s : sty) | Absent.

(** Module, registry, identifier, type. *)
Record association := mkA { as_module : string; as_registry : did; as_id : ident; as_type : content }.
Definition on (m dm d : string) (l : list (ident * content)) : list association :=
  map (fun e => mkA m (dm, d) (fst e) (snd e)) l.
Notation "i ~> x" := (Id i, Named x) (at level 50, only parsing).

Definition AlgorithmIdentifier := Rfc5280.AlgorithmIdentifier.
(** DirectoryString with an upper bound (X.520). *)
Definition DirectoryString (n : N) : sty := CHOICE [
  req "teletexString" (size 1 n TeletexString); req "printableString" (size 1 n PrintableString);
  req "universalString" (size 1 n UniversalString); req "utf8String" (size 1 n UTF8String);
  req "bmpString" (size 1 n BMPString)].

Definition associations : list association :=
  on "rfc2315" "rfc2315" "contentTypeMap" [
    "data" ~> "Data"; "digestedData" ~> "DigestedData"; "encryptedData" ~> "EncryptedData";
    "envelopedData" ~> "EnvelopedData"; "signedAndEnvelopedData" ~> "SignedAndEnvelopedData";
    "signedData" ~> "SignedData"] ++
  on "rfc2459" "rfc2459" "certificateAttributesMap" [
    "emailAddress" ~> "Pkcs9email"; "id-at-commonName" ~> "X520CommonName"; "id-at-countryName" ~> "X520countryName";
    "id-at-dnQualifier" ~> "X520dnQualifier"; "id-at-generationQualifier" ~> "X520name";
    "id-at-givenName" ~> "X520name"; "id-at-initials" ~> "X520name"; "id-at-localityName" ~> "X520LocalityName";
    "id-at-name" ~> "X520name"; "id-at-organizationName" ~> "X520OrganizationName";
    "id-at-organizationalUnitName" ~> "X520OrganizationalUnitName";
    "id-at-stateOrProvinceName" ~> "X520StateOrProvinceName"; "id-at-surname" ~> "X520name";
    "id-at-title" ~> "X520Title"] ++
  on "rfc2459" "rfc2459" "certificateExtensionsMap" [
    "id-ce-authorityKeyIdentifier" ~> "AuthorityKeyIdentifier"; "id-ce-basicConstraints" ~> "BasicConstraints";
    "id-ce-cRLDistributionPoints" ~> "CRLDistPointsSyntax"; "id-ce-cRLNumber" ~> "CRLNumber";
    "id-ce-cRLReasons" ~> "CRLReason"; "id-ce-certificateIssuer" ~> "GeneralNames";
    "id-ce-certificatePolicies" ~> "CertificatePolicies"; "id-ce-deltaCRLIndicator" ~> "BaseCRLNumber";
    "id-ce-extKeyUsage" ~> "ExtKeyUsageSyntax"; (Id "id-ce-holdInstructionCode", Inline OBJECT_IDENTIFIER);
    (Id "id-ce-invalidityDate", Inline GeneralizedTime); "id-ce-issuerAltName" ~> "IssuerAltName";
    "id-ce-issuingDistributionPoint" ~> "IssuingDistributionPoint"; "id-ce-keyUsage" ~> "KeyUsage";
    "id-ce-nameConstraints" ~> "NameConstraints"; "id-ce-policyConstraints" ~> "PolicyConstraints";
    "id-ce-policyMappings" ~> "PolicyMappings"; "id-ce-privateKeyUsagePeriod" ~> "PrivateKeyUsagePeriod";
    "id-ce-subjectAltName" ~> "SubjectAltName"; "id-ce-subjectDirectoryAttributes" ~> "SubjectDirectoryAttributes";
    "id-ce-subjectKeyIdentifier" ~> "SubjectKeyIdentifier"; "id-pe-authorityInfoAccess" ~> "AuthorityInfoAccessSyntax"] ++
  on "rfc2634" "rfc5652" "cmsAttributesMap" [
    "id-aa-contentHint" ~> "ContentHints"; "id-aa-contentIdentifier" ~> "ContentIdentifier";
    "id-aa-contentReference" ~> "ContentReference"; "id-aa-equivalentLabels" ~> "EquivalentLabels";
    "id-aa-mlExpandHistory" ~> "MLExpansionHistory"; "id-aa-msgSigDigest" ~> "MsgSigDigest";
    "id-aa-receiptRequest" ~> "ReceiptRequest"; "id-aa-securityLabel" ~> "ESSSecurityLabel";
    "id-aa-signingCertificate" ~> "SigningCertificate"] ++
  on "rfc2634" "rfc5652" "cmsContentTypesMap" [
    "id-ct-receipt" ~> "Receipt"] ++
  on "rfc2876" "rfc5280" "algorithmIdentifierMap" [
    "id-fortezzaConfidentialityAlgorithm" ~> "Skipjack_Parm";
    (Id "id-kEAKeyEncryptionAlgorithm", Inline AlgorithmIdentifier)] ++
  on "rfc2876" "rfc5751" "smimeCapabilityMap" [
    (Id "id-kEAKeyEncryptionAlgorithm", Inline AlgorithmIdentifier)] ++
  on "rfc2985" "rfc5280" "certificateAttributesMap" [
    "id-at-pseudonym" ~> "DirectoryString"; "id-at-serialNumber" ~> "X520SerialNumber";
    "pkcs-9-at-challengePassword" ~> "DirectoryString"; "pkcs-9-at-countryOfCitizenship" ~> "X520countryName";
    "pkcs-9-at-countryOfResidence" ~> "X520countryName"; (Id "pkcs-9-at-dateOfBirth", Inline GeneralizedTime);
    "pkcs-9-at-emailAddress" ~> "EmailAddress"; "pkcs-9-at-encryptedPrivateKeyInfo" ~> "EncryptedPrivateKeyInfo";
    (Id "pkcs-9-at-extendedCertificateAttributes", Inline (SET_OF Rfc5280.Attribute));
    "pkcs-9-at-extensionRequest" ~> "ExtensionRequest"; "pkcs-9-at-gender" ~> "GenderString";
    "pkcs-9-at-pkcs7PDU" ~> "ContentInfo"; "pkcs-9-at-placeOfBirth" ~> "DirectoryString";
    "pkcs-9-at-unstructuredAddress" ~> "DirectoryString"; "pkcs-9-at-unstructuredName" ~> "PKCS9String";
    "pkcs-9-at-userPKCS12" ~> "PFX"] ++
  on "rfc2985" "rfc5652" "cmsAttributesMap" [
    "pkcs-9-at-contentType" ~> "ContentType"; "pkcs-9-at-counterSignature" ~> "Countersignature";
    "pkcs-9-at-friendlyName" ~> "FriendlyName"; (Id "pkcs-9-at-localKeyId", Inline OCTET_STRING);
    "pkcs-9-at-messageDigest" ~> "MessageDigest"; "pkcs-9-at-randomNonce" ~> "RandomNonce";
    "pkcs-9-at-sequenceNumber" ~> "SequenceNumber"; "pkcs-9-at-signingDescription" ~> "DirectoryString";
    "pkcs-9-at-signingTime" ~> "SigningTime"] ++
  on "rfc3058" "rfc5280" "algorithmIdentifierMap" [
    "id-IDEA-CBC" ~> "IDEA_CBCPar"; (Id "id-alg-CMSIDEAwrap", Inline NULL)] ++
  on "rfc3114" "rfc5755" "securityCategoryMap" [
    "id-tsp-TEST-Whirlpool-Categories" ~> "SecurityCategoryValues"] ++
  on "rfc3274" "rfc5652" "cmsContentTypesMap" [
    "id-ct-compressedData" ~> "CompressedData"] ++
  on "rfc3279" "rfc5280" "algorithmIdentifierMap" [
    "dhpublicnumber" ~> "DomainParameters"; "id-dsa" ~> "Dss_Parms"; "id-ecPublicKey" ~> "EcpkParameters";
    "id-keyExchangeAlgorithm" ~> "KEA_Parms_Id"; (Id "id-sha1", Inline NULL); (Id "md2", Inline NULL);
    (Id "md2WithRSAEncryption", Inline NULL); (Id "md5", Inline NULL); (Id "md5WithRSAEncryption", Inline NULL);
    (Id "rsaEncryption", Inline NULL); (Id "sha1WithRSAEncryption", Inline NULL)] ++
  on "rfc3370" "rfc5280" "algorithmIdentifierMap" [
    (Id "hMAC-SHA1", Inline NULL); "id-alg-CMSRC2wrap" ~> "RC2wrapParameter"; "id-alg-ESDH" ~> "KeyWrapAlgorithm";
    "id-alg-SSDH" ~> "KeyWrapAlgorithm"] ++
  on "rfc3370" "rfc5751" "smimeCapabilityMap" [
    "id-alg-CMSRC2wrap" ~> "RC2wrapParameter"; "id-alg-ESDH" ~> "KeyWrapAlgorithm";
    "id-alg-SSDH" ~> "KeyWrapAlgorithm"] ++
  on "rfc3537" "rfc5280" "algorithmIdentifierMap" [
    (Id "id-alg-HMACwith3DESwrap", Inline NULL); (Id "id-alg-HMACwithAESwrap", Inline NULL)] ++
  on "rfc3565" "rfc5280" "algorithmIdentifierMap" [
    "id-aes128-CBC" ~> "AES_IV"; (Id "id-aes128-wrap", Absent); "id-aes192-CBC" ~> "AES_IV";
    (Id "id-aes192-wrap", Absent); "id-aes256-CBC" ~> "AES_IV"; (Id "id-aes256-wrap", Absent)] ++
  on "rfc3657" "rfc5280" "algorithmIdentifierMap" [
    "id-camellia128-cbc" ~> "Camellia_IV"; "id-camellia192-cbc" ~> "Camellia_IV";
    "id-camellia256-cbc" ~> "Camellia_IV"] ++
  on "rfc3657" "rfc5751" "smimeCapabilityMap" [
    "id-camellia128-cbc" ~> "CamelliaSMimeCapability"; "id-camellia128-wrap" ~> "CamelliaSMimeCapability";
    "id-camellia192-cbc" ~> "CamelliaSMimeCapability"; "id-camellia192-wrap" ~> "CamelliaSMimeCapability";
    "id-camellia256-cbc" ~> "CamelliaSMimeCapability"; "id-camellia256-wrap" ~> "CamelliaSMimeCapability"] ++
  on "rfc3709" "rfc5280" "certificateExtensionsMap" [
    "id-pe-logotype" ~> "LogotypeExtn"] ++
  on "rfc3739" "rfc5280" "certificateAttributesMap" [
    "id-pda-countryOfCitizenship" ~> "CountryOfCitizenship"; "id-pda-countryOfResidence" ~> "CountryOfResidence";
    "id-pda-dateOfBirth" ~> "DateOfBirth"; "id-pda-gender" ~> "Gender"; "id-pda-placeOfBirth" ~> "PlaceOfBirth"] ++
  on "rfc3739" "rfc5280" "certificateExtensionsMap" [
    "id-pe-biometricInfo" ~> "BiometricSyntax"; "id-pe-qcStatements" ~> "QCStatements"] ++
  on "rfc3770" "rfc5280" "certificateAttributesMap" [
    "id-aca-wlanSSID" ~> "SSIDList"] ++
  on "rfc3770" "rfc5280" "certificateExtensionsMap" [
    "id-pe-wlanSSID" ~> "SSIDList"] ++
  on "rfc3779" "rfc5280" "certificateExtensionsMap" [
    "id-pe-autonomousSysIds" ~> "ASIdentifiers"; "id-pe-ipAddrBlocks" ~> "IPAddrBlocks"] ++
  on "rfc3820" "rfc5280" "certificateExtensionsMap" [
    "id-pe-proxyCertInfo" ~> "ProxyCertInfoExtension"] ++
  on "rfc4010" "rfc5280" "algorithmIdentifierMap" [
    (Id "id-npki-app-cmsSeed-wrap", Inline NULL); "id-seedCBC" ~> "SeedCBCParameter"] ++
  on "rfc4010" "rfc5751" "smimeCapabilityMap" [
    "id-npki-app-cmsSeed-wrap" ~> "SeedSMimeCapability"; "id-seedCBC" ~> "SeedSMimeCapability"] ++
  on "rfc4043" "rfc5280" "anotherNameMap" [
    "id-on-permanentIdentifier" ~> "PermanentIdentifier"] ++
  on "rfc4055" "rfc5280" "algorithmIdentifierMap" [
    "id-RSAES-OAEP" ~> "RSAES_OAEP_params"; "id-RSASSA-PSS" ~> "RSASSA_PSS_params";
    (Id "id-mgf1", Inline AlgorithmIdentifier); (Id "id-pSpecified", Inline OCTET_STRING); (Id "id-sha1", Inline NULL);
    (Id "id-sha224", Inline NULL); (Id "id-sha256", Inline NULL); (Id "id-sha384", Inline NULL);
    (Id "id-sha512", Inline NULL)] ++
  on "rfc4073" "rfc5652" "cmsContentTypesMap" [
    "id-ct-contentCollection" ~> "ContentCollection"; "id-ct-contentWithAttrs" ~> "ContentWithAttributes"] ++
  on "rfc4108" "rfc5280" "anotherNameMap" [
    "id-on-hardwareModuleName" ~> "HardwareModuleName"] ++
  on "rfc4108" "rfc5652" "cmsAttributesMap" [
    "id-aa-communityIdentifiers" ~> "CommunityIdentifiers"; "id-aa-decryptKeyID" ~> "DecryptKeyIdentifier";
    "id-aa-firmwarePackageID" ~> "FirmwarePackageIdentifier"; "id-aa-firmwarePackageInfo" ~> "FirmwarePackageInfo";
    "id-aa-fwPkgMessageDigest" ~> "FirmwarePackageMessageDigest";
    "id-aa-implCompressAlgs" ~> "ImplementedCompressAlgorithms";
    "id-aa-implCryptoAlgs" ~> "ImplementedCryptoAlgorithms"; "id-aa-targetHardwareIDs" ~> "TargetHardwareIdentifiers";
    "id-aa-wrappedFirmwareKey" ~> "WrappedFirmwareKey"] ++
  on "rfc4108" "rfc5652" "cmsContentTypesMap" [
    "id-ct-firmwareLoadError" ~> "FirmwarePackageLoadError";
    "id-ct-firmwareLoadReceipt" ~> "FirmwarePackageLoadReceipt"; "id-ct-firmwarePackage" ~> "FirmwarePkgData"] ++
  on "rfc4334" "rfc5280" "certificateAttributesMap" [
    "id-aca-wlanSSID" ~> "SSIDList"] ++
  on "rfc4334" "rfc5280" "certificateExtensionsMap" [
    "id-pe-wlanSSID" ~> "SSIDList"] ++
  on "rfc4357" "rfc5280" "algorithmIdentifierMap" [
    "id-Gost28147-89" ~> "Gost28147_89_Parameters";
    "id-Gost28147-89-CryptoPro-A-ParamSet" ~> "Gost28147_89_ParamSetParameters";
    "id-Gost28147-89-CryptoPro-B-ParamSet" ~> "Gost28147_89_ParamSetParameters";
    "id-Gost28147-89-CryptoPro-C-ParamSet" ~> "Gost28147_89_ParamSetParameters";
    "id-Gost28147-89-CryptoPro-D-ParamSet" ~> "Gost28147_89_ParamSetParameters";
    (Id "id-Gost28147-89-CryptoPro-KeyMeshing", Inline NULL); (Id "id-Gost28147-89-None-KeyMeshing", Inline NULL);
    "id-Gost28147-89-TestParamSet" ~> "Gost28147_89_ParamSetParameters";
    "id-GostR3410-2001" ~> "GostR3410_2001_PublicKeyParameters";
    "id-GostR3410-94" ~> "GostR3410_94_PublicKeyParameters";
    "id-GostR3410-94-CryptoPro-A-ParamSet" ~> "GostR3410_94_ParamSetParameters";
    "id-GostR3410-94-CryptoPro-B-ParamSet" ~> "GostR3410_94_ParamSetParameters";
    "id-GostR3410-94-CryptoPro-C-ParamSet" ~> "GostR3410_94_ParamSetParameters";
    "id-GostR3410-94-CryptoPro-D-ParamSet" ~> "GostR3410_94_ParamSetParameters";
    "id-GostR3410-94-CryptoPro-XchA-ParamSet" ~> "GostR3410_94_ParamSetParameters";
    "id-GostR3410-94-CryptoPro-XchB-ParamSet" ~> "GostR3410_94_ParamSetParameters";
    "id-GostR3410-94-CryptoPro-XchC-ParamSet" ~> "GostR3410_94_ParamSetParameters";
    "id-GostR3410-94-TestParamSet" ~> "GostR3410_94_ParamSetParameters";
    "id-GostR3410-94-a" ~> "GostR3410_94_ValidationParameters";
    "id-GostR3410-94-aBis" ~> "GostR3410_94_ValidationBisParameters";
    "id-GostR3410-94-b" ~> "GostR3410_94_ValidationParameters";
    "id-GostR3410-94-bBis" ~> "GostR3410_94_ValidationBisParameters"; (Id "id-GostR3411-94", Inline NULL);
    "id-GostR3411-94-CryptoProParamSet" ~> "GostR3411_94_ParamSetParameters";
    "id-GostR3411-94-TestParamSet" ~> "GostR3411_94_ParamSetParameters"] ++
  on "rfc4476" "rfc5280" "certificateExtensionsMap" [
    "id-pe-acPolicies" ~> "AcPoliciesSyntax"] ++
  on "rfc4476" "rfc5280" "policyQualifierInfoMap" [
    "id-qt-acps" ~> "ACPSuri"; "id-qt-acunotice" ~> "UserNotice"] ++
  on "rfc4490" "rfc5280" "algorithmIdentifierMap" [
    "id-Gost28147-89-CryptoPro-KeyWrap" ~> "Gost28147_89_KeyWrapParameters";
    "id-Gost28147-89-None-KeyWrap" ~> "Gost28147_89_KeyWrapParameters"] ++
  on "rfc4683" "rfc5280" "anotherNameMap" [
    "id-on-SIM" ~> "SIM"] ++
  on "rfc4985" "rfc5280" "anotherNameMap" [
    "id-on-dnsSRV" ~> "SRVName"] ++
  on "rfc5035" "rfc5652" "cmsAttributesMap" [
    "id-aa-signingCertificateV2" ~> "SigningCertificateV2"] ++
  on "rfc5035" "rfc5652" "cmsContentTypesMap" [
    "id-ct-receipt" ~> "Receipt"] ++
  on "rfc5083" "rfc5652" "cmsContentTypesMap" [
    "id-ct-authEnvelopedData" ~> "AuthEnvelopedData"] ++
  on "rfc5084" "rfc5280" "algorithmIdentifierMap" [
    "id-aes128-CCM" ~> "CCMParameters"; "id-aes128-GCM" ~> "GCMParameters"; "id-aes192-CCM" ~> "CCMParameters";
    "id-aes192-GCM" ~> "GCMParameters"; "id-aes256-CCM" ~> "CCMParameters"; "id-aes256-GCM" ~> "GCMParameters"] ++
  on "rfc5126" "rfc5652" "cmsAttributesMap" [
    "id-aa-ets-archiveTimestampV2" ~> "ArchiveTimeStampToken";
    "id-aa-ets-attrCertificateRefs" ~> "AttributeCertificateRefs";
    "id-aa-ets-attrRevocationRefs" ~> "AttributeRevocationRefs";
    "id-aa-ets-certCRLTimestamp" ~> "TimestampedCertsCRLs"; "id-aa-ets-certValues" ~> "CertificateValues";
    "id-aa-ets-certificateRefs" ~> "CompleteCertificateRefs";
    "id-aa-ets-commitmentType" ~> "CommitmentTypeIndication"; "id-aa-ets-contentTimestamp" ~> "ContentTimestamp";
    "id-aa-ets-escTimeStamp" ~> "ESCTimeStampToken"; "id-aa-ets-otherSigCert" ~> "OtherSigningCertificate";
    "id-aa-ets-revocationRefs" ~> "CompleteRevocationRefs"; "id-aa-ets-revocationValues" ~> "RevocationValues";
    "id-aa-ets-sigPolicyId" ~> "SignaturePolicy"; "id-aa-ets-signerAttr" ~> "SignerAttribute";
    "id-aa-ets-signerLocation" ~> "SignerLocation"; "id-aa-signatureTimeStampToken" ~> "SignatureTimeStampToken"] ++
  on "rfc5126" "rfc5126" "sigQualifiersMap" [
    "id-spq-ets-unotice" ~> "SPUserNotice"; "id-spq-ets-uri" ~> "SPuri"] ++
  on "rfc5275" "rfc5652" "cmsAttributesMap" [
    "id-skd-glAddMember" ~> "GLAddMember"; "id-skd-glAddOwner" ~> "GLOwnerAdministration";
    "id-skd-glDelete" ~> "DeleteGL"; "id-skd-glDeleteMember" ~> "GLDeleteMember"; "id-skd-glKey" ~> "GLKey";
    "id-skd-glKeyCompromise" ~> "GLKCompromise"; "id-skd-glManageCert" ~> "GLManageCert";
    "id-skd-glProvideCert" ~> "GLManageCert"; "id-skd-glRekey" ~> "GLRekey";
    "id-skd-glRemoveOwner" ~> "GLOwnerAdministration"; "id-skd-glUseKEK" ~> "GLUseKEK";
    "id-skd-glaQueryRequest" ~> "GLAQueryRequest"; "id-skd-glaQueryResponse" ~> "GLAQueryResponse";
    "id-skd-glkRefresh" ~> "GLKRefresh"] ++
  on "rfc5275" "rfc5275" "glaQueryRRMap" [
    (Id "id-cmc-gla-skdAlgRequest", Inline NULL); "id-cmc-gla-skdAlgResponse" ~> "SMIMECapabilities"] ++
  on "rfc5280" "rfc5280" "certificateAttributesMap" [
    "id-at-commonName" ~> "X520CommonName"; "id-at-countryName" ~> "X520countryName";
    "id-at-dnQualifier" ~> "X520dnQualifier"; "id-at-generationQualifier" ~> "X520name";
    "id-at-givenName" ~> "X520name"; "id-at-initials" ~> "X520name"; "id-at-localityName" ~> "X520LocalityName";
    "id-at-name" ~> "X520name"; "id-at-organizationName" ~> "X520OrganizationName";
    "id-at-organizationalUnitName" ~> "X520OrganizationalUnitName"; "id-at-pseudonym" ~> "X520Pseudonym";
    "id-at-serialNumber" ~> "X520SerialNumber"; "id-at-stateOrProvinceName" ~> "X520StateOrProvinceName";
    "id-at-surname" ~> "X520name"; "id-at-title" ~> "X520Title"; "id-domainComponent" ~> "DomainComponent";
    "id-emailAddress" ~> "EmailAddress"] ++
  on "rfc5280" "rfc5280" "certificateExtensionsMap" [
    "id-ce-authorityKeyIdentifier" ~> "AuthorityKeyIdentifier"; "id-ce-basicConstraints" ~> "BasicConstraints";
    "id-ce-cRLDistributionPoints" ~> "CRLDistributionPoints"; "id-ce-cRLNumber" ~> "CRLNumber";
    "id-ce-cRLReasons" ~> "CRLReason"; "id-ce-certificateIssuer" ~> "GeneralNames";
    "id-ce-certificatePolicies" ~> "CertificatePolicies"; "id-ce-deltaCRLIndicator" ~> "BaseCRLNumber";
    "id-ce-extKeyUsage" ~> "ExtKeyUsageSyntax"; (Id "id-ce-holdInstructionCode", Inline OBJECT_IDENTIFIER);
    (Id "id-ce-invalidityDate", Inline GeneralizedTime); "id-ce-issuerAltName" ~> "IssuerAltName";
    "id-ce-issuingDistributionPoint" ~> "IssuingDistributionPoint"; "id-ce-keyUsage" ~> "KeyUsage";
    "id-ce-nameConstraints" ~> "NameConstraints"; "id-ce-policyConstraints" ~> "PolicyConstraints";
    "id-ce-policyMappings" ~> "PolicyMappings"; "id-ce-privateKeyUsagePeriod" ~> "PrivateKeyUsagePeriod";
    "id-ce-subjectAltName" ~> "SubjectAltName"; "id-ce-subjectDirectoryAttributes" ~> "SubjectDirectoryAttributes";
    "id-ce-subjectKeyIdentifier" ~> "SubjectKeyIdentifier"; "id-pe-authorityInfoAccess" ~> "AuthorityInfoAccessSyntax"] ++
  on "rfc5280" "rfc5280" "oraddressExtensionAttributeMap" [
    (Number 1, Named "CommonName"); (Number 22, Named "ExtendedNetworkAddress");
    (Number 12, Named "ExtensionORAddressComponents"); (Number 15, Named "ExtensionPhysicalDeliveryAddressComponents");
    (Number 21, Named "LocalPostalAttributes"); (Number 7, Named "PDSName");
    (Number 8, Named "PhysicalDeliveryCountryName"); (Number 10, Named "PhysicalDeliveryOfficeName");
    (Number 11, Named "PhysicalDeliveryOfficeNumber"); (Number 14, Named "PhysicalDeliveryOrganizationName");
    (Number 13, Named "PhysicalDeliveryPersonalName"); (Number 18, Named "PostOfficeBoxAddress");
    (Number 9, Named "PostalCode"); (Number 19, Named "PosteRestanteAddress"); (Number 17, Named "StreetAddress");
    (Number 2, Named "TeletexCommonName"); (Number 6, Named "TeletexDomainDefinedAttributes");
    (Number 3, Named "TeletexOrganizationName"); (Number 5, Named "TeletexOrganizationalUnitNames");
    (Number 4, Named "TeletexPersonalName"); (Number 23, Named "TerminalType");
    (Number 16, Named "UnformattedPostalAddress"); (Number 20, Named "UniquePostalName")] ++
  on "rfc5480" "rfc5280" "algorithmIdentifierMap" [
    "dhpublicnumber" ~> "DomainParameters"; "id-dsa" ~> "DSS_Parms"; "id-ecDH" ~> "ECParameters";
    "id-ecMQV" ~> "ECParameters"; "id-ecPublicKey" ~> "ECParameters"; "id-keyExchangeAlgorithm" ~> "KEA_Parms_Id";
    (Id "md2WithRSAEncryption", Inline NULL); (Id "md5WithRSAEncryption", Inline NULL);
    (Id "rsaEncryption", Inline NULL); (Id "sha1WithRSAEncryption", Inline NULL)] ++
  on "rfc5636" "rfc5652" "cmsContentTypesMap" [
    "id-kisa-tac-token" ~> "TACToken"; "id-kisa-tac-tokenandblindbash" ~> "TACTokenandBlindHash";
    "id-kisa-tac-tokenandpartially" ~> "TACTokenandPartiallySignedCertificateHash"] ++
  on "rfc5652" "rfc5652" "cmsAttributesMap" [
    "id-contentType" ~> "ContentType"; "id-countersignature" ~> "Countersignature";
    "id-messageDigest" ~> "MessageDigest"; "id-signingTime" ~> "SigningTime"] ++
  on "rfc5652" "rfc5652" "cmsContentTypesMap" [
    "id-ct-authData" ~> "AuthenticatedData"; "id-ct-contentInfo" ~> "ContentInfo"; (Id "id-data", Inline OCTET_STRING);
    "id-digestedData" ~> "DigestedData"; "id-encryptedData" ~> "EncryptedData"; "id-envelopedData" ~> "EnvelopedData";
    "id-signedData" ~> "SignedData"] ++
  on "rfc5697" "rfc5280" "certificateExtensionsMap" [
    "id-pe-otherCerts" ~> "OtherCertificates"] ++
  on "rfc5751" "rfc5652" "cmsAttributesMap" [
    "id-aa-encrypKeyPref" ~> "SMIMEEncryptionKeyPreference"; "smimeCapabilities" ~> "SMIMECapabilities"] ++
  on "rfc5751" "rfc5751" "smimeCapabilityMap" [
    "rc2CBC" ~> "SMIMECapabilitiesParametersForRC2CBC"] ++
  on "rfc5752" "rfc5652" "cmsAttributesMap" [
    "id-aa-multipleSignatures" ~> "MultipleSignatures"] ++
  on "rfc5753" "rfc5280" "algorithmIdentifierMap" [
    "dhSinglePass-cofactorDH-sha1kdf-scheme" ~> "KeyWrapAlgorithm";
    "dhSinglePass-cofactorDH-sha224kdf-scheme" ~> "KeyWrapAlgorithm";
    "dhSinglePass-cofactorDH-sha256kdf-scheme" ~> "KeyWrapAlgorithm";
    "dhSinglePass-cofactorDH-sha384kdf-scheme" ~> "KeyWrapAlgorithm";
    "dhSinglePass-cofactorDH-sha512kdf-scheme" ~> "KeyWrapAlgorithm";
    "dhSinglePass-stdDH-sha1kdf-scheme" ~> "KeyWrapAlgorithm";
    "dhSinglePass-stdDH-sha224kdf-scheme" ~> "KeyWrapAlgorithm";
    "dhSinglePass-stdDH-sha256kdf-scheme" ~> "KeyWrapAlgorithm";
    "dhSinglePass-stdDH-sha384kdf-scheme" ~> "KeyWrapAlgorithm";
    "dhSinglePass-stdDH-sha512kdf-scheme" ~> "KeyWrapAlgorithm"; "mqvSinglePass-sha1kdf-scheme" ~> "KeyWrapAlgorithm";
    "mqvSinglePass-sha224kdf-scheme" ~> "KeyWrapAlgorithm"; "mqvSinglePass-sha256kdf-scheme" ~> "KeyWrapAlgorithm";
    "mqvSinglePass-sha384kdf-scheme" ~> "KeyWrapAlgorithm"; "mqvSinglePass-sha512kdf-scheme" ~> "KeyWrapAlgorithm"] ++
  on "rfc5753" "rfc5751" "smimeCapabilityMap" [
    "dhSinglePass-cofactorDH-sha1kdf-scheme" ~> "KeyWrapAlgorithm";
    "dhSinglePass-cofactorDH-sha224kdf-scheme" ~> "KeyWrapAlgorithm";
    "dhSinglePass-cofactorDH-sha256kdf-scheme" ~> "KeyWrapAlgorithm";
    "dhSinglePass-cofactorDH-sha384kdf-scheme" ~> "KeyWrapAlgorithm";
    "dhSinglePass-cofactorDH-sha512kdf-scheme" ~> "KeyWrapAlgorithm";
    "dhSinglePass-stdDH-sha1kdf-scheme" ~> "KeyWrapAlgorithm";
    "dhSinglePass-stdDH-sha224kdf-scheme" ~> "KeyWrapAlgorithm";
    "dhSinglePass-stdDH-sha256kdf-scheme" ~> "KeyWrapAlgorithm";
    "dhSinglePass-stdDH-sha384kdf-scheme" ~> "KeyWrapAlgorithm";
    "dhSinglePass-stdDH-sha512kdf-scheme" ~> "KeyWrapAlgorithm"; "mqvSinglePass-sha1kdf-scheme" ~> "KeyWrapAlgorithm";
    "mqvSinglePass-sha224kdf-scheme" ~> "KeyWrapAlgorithm"; "mqvSinglePass-sha256kdf-scheme" ~> "KeyWrapAlgorithm";
    "mqvSinglePass-sha384kdf-scheme" ~> "KeyWrapAlgorithm"; "mqvSinglePass-sha512kdf-scheme" ~> "KeyWrapAlgorithm"] ++
  on "rfc5755" "rfc5280" "certificateAttributesMap" [
    "id-aca-accessIdentity" ~> "SvceAuthInfo"; "id-aca-authenticationInfo" ~> "SvceAuthInfo";
    "id-aca-chargingIdentity" ~> "IetfAttrSyntax"; "id-aca-encAttrs" ~> "ContentInfo";
    "id-aca-group" ~> "IetfAttrSyntax"; "id-at-clearance" ~> "Clearance";
    "id-at-clearance-rfc3281" ~> "Clearance_rfc3281"; "id-at-role" ~> "RoleSyntax"] ++
  on "rfc5755" "rfc5280" "certificateExtensionsMap" [
    (Id "id-ce-noRevAvail", Inline NULL); "id-ce-targetInformation" ~> "Targets"; "id-pe-aaControls" ~> "AAControls";
    (Id "id-pe-ac-auditIdentity", Inline OCTET_STRING); "id-pe-ac-proxying" ~> "ProxyInfo"] ++
  on "rfc5913" "rfc5280" "certificateExtensionsMap" [
    "id-pe-clearanceConstraints" ~> "AuthorityClearanceConstraints"] ++
  on "rfc5916" "rfc5280" "certificateAttributesMap" [
    (Id "id-deviceOwner", Inline OBJECT_IDENTIFIER)] ++
  on "rfc5917" "rfc5280" "certificateAttributesMap" [
    "id-clearanceSponsor" ~> "DirectoryString"] ++
  on "rfc5934" "rfc5280" "certificateExtensionsMap" [
    "id-pe-wrappedApexContinKey" ~> "ApexContingencyKey"] ++
  on "rfc5934" "rfc5652" "cmsAttributesMap" [
    "id-aa-TAMP-contingencyPublicKeyDecryptKey" ~> "PlaintextSymmetricKey"] ++
  on "rfc5934" "rfc5652" "cmsContentTypesMap" [
    "id-ct-TAMP-apexUpdate" ~> "TAMPApexUpdate"; "id-ct-TAMP-apexUpdateConfirm" ~> "TAMPApexUpdateConfirm";
    "id-ct-TAMP-communityUpdate" ~> "TAMPCommunityUpdate";
    "id-ct-TAMP-communityUpdateConfirm" ~> "TAMPCommunityUpdateConfirm"; "id-ct-TAMP-error" ~> "TAMPError";
    "id-ct-TAMP-seqNumAdjust" ~> "SequenceNumberAdjust";
    "id-ct-TAMP-seqNumAdjustConfirm" ~> "SequenceNumberAdjustConfirm"; "id-ct-TAMP-statusQuery" ~> "TAMPStatusQuery";
    "id-ct-TAMP-statusResponse" ~> "TAMPStatusResponse"; "id-ct-TAMP-update" ~> "TAMPUpdate";
    "id-ct-TAMP-updateConfirm" ~> "TAMPUpdateConfirm"] ++
  on "rfc5940" "rfc5652" "otherRevInfoFormatMap" [
    "id-ri-ocsp-response" ~> "OCSPResponse"; "id-ri-scvp" ~> "SCVPReqRes"] ++
  on "rfc5958" "rfc5652" "cmsContentTypesMap" [
    "id-ct-KP-aKeyPackage" ~> "AsymmetricKeyPackage"] ++
  on "rfc5990" "rfc5280" "algorithmIdentifierMap" [
    (Id "id-alg-CMS3DESwrap", Inline NULL); "id-kdf-kdf2" ~> "KDF2_HashFunction"; "id-kdf-kdf3" ~> "KDF3_HashFunction";
    "id-kem-rsa" ~> "RsaKemParameters"; "id-rsa-kem" ~> "GenericHybridParameters"; (Id "id-sha1", Inline NULL);
    (Id "id-sha224", Inline NULL); (Id "id-sha256", Inline NULL); (Id "id-sha384", Inline NULL);
    (Id "id-sha512", Inline NULL)] ++
  on "rfc6010" "rfc5280" "certificateExtensionsMap" [
    "id-pe-cmsContentConstraints" ~> "CMSContentConstraints"] ++
  on "rfc6019" "rfc5652" "cmsAttributesMap" [
    "id-aa-binarySigningTime" ~> "BinarySigningTime"] ++
  on "rfc6031" "rfc5652" "cmsContentTypesMap" [
    "id-ct-KP-sKeyPackage" ~> "SymmetricKeyPackage"] ++
  on "rfc6031" "rfc6031" "sKeyAttributesMap" [
    "id-pskc-algorithm" ~> "at_pskc_algorithm"; "id-pskc-algorithmParameters" ~> "at_pskc_algorithmParameters";
    "id-pskc-counter" ~> "at_pskc_counter"; "id-pskc-friendlyName" ~> "at_pskc_friendlyName";
    "id-pskc-issuer" ~> "at_pskc_issuer"; "id-pskc-keyExpiryDate" ~> "at_pskc_keyExpiryDate";
    "id-pskc-keyId" ~> "at_pskc_keyId"; "id-pskc-keyProfileId" ~> "at_pskc_keyProfileId";
    "id-pskc-keyReference" ~> "at_pskc_keyReference"; "id-pskc-keyStartDate" ~> "at_pskc_keyStartDate";
    "id-pskc-keyUsages" ~> "at_pskc_keyUsage"; "id-pskc-keyUserId" ~> "at_pskc_keyUserId";
    "id-pskc-numberOfTransactions" ~> "at_pskc_numberOfTransactions"; "id-pskc-pinPolicy" ~> "at_pskc_pinPolicy";
    "id-pskc-time" ~> "at_pskc_time"; "id-pskc-timeDrift" ~> "at_pskc_timeDrift";
    "id-pskc-timeInterval" ~> "at_pskc_timeInterval"; "id-pskc-valueMAC" ~> "at_pskc_valueMAC"] ++
  on "rfc6031" "rfc6031" "sKeyPkgAttributesMap" [
    "id-pskc-deviceBinding" ~> "at_pskc_deviceBinding"; "id-pskc-deviceExpiryDate" ~> "at_pskc_deviceExpiryDate";
    "id-pskc-deviceStartDate" ~> "at_pskc_deviceStartDate"; "id-pskc-deviceUserId" ~> "at_pskc_deviceUserId";
    "id-pskc-issueNo" ~> "at_pskc_issueNo"; "id-pskc-manufacturer" ~> "at_pskc_manufacturer";
    "id-pskc-model" ~> "at_pskc_model"; "id-pskc-moduleId" ~> "at_pskc_moduleId";
    "id-pskc-serialNo" ~> "at_pskc_serialNo"] ++
  on "rfc6032" "rfc5652" "cmsAttributesMap" [
    "id-aa-KP-contentDecryptKeyID" ~> "ContentDecryptKeyID"] ++
  on "rfc6032" "rfc5652" "cmsContentTypesMap" [
    "id-ct-KP-encryptedKeyPkg" ~> "EncryptedKeyPackage"] ++
  on "rfc6120" "rfc5280" "anotherNameMap" [
    "id-on-xmppAddr" ~> "XmppAddr"] ++
  on "rfc6210" "rfc5280" "algorithmIdentifierMap" [
    "id-alg-MD5-XOR-EXPERIMENT" ~> "MD5_XOR_EXPERIMENT"] ++
  on "rfc6211" "rfc5652" "cmsAttributesMap" [
    "id-aa-cmsAlgorithmProtect" ~> "CMSAlgorithmProtection"] ++
  on "rfc6402" "rfc5652" "cmsAttributesMap" [
    "id-ExtensionReq" ~> "ExtensionReq"; "id-cmc-addExtensions" ~> "AddExtensions";
    "id-cmc-authData" ~> "AuthPublish"; "id-cmc-batchRequests" ~> "BodyPartList";
    "id-cmc-batchResponses" ~> "BodyPartList"; "id-cmc-confirmCertAcceptance" ~> "CMCCertId";
    "id-cmc-controlProcessed" ~> "ControlsProcessed"; (Id "id-cmc-dataReturn", Inline OCTET_STRING);
    "id-cmc-decryptedPOP" ~> "DecryptedPOP"; "id-cmc-encryptedPOP" ~> "EncryptedPOP"; "id-cmc-getCRL" ~> "GetCRL";
    "id-cmc-getCert" ~> "GetCert"; (Id "id-cmc-identification", Inline UTF8String);
    (Id "id-cmc-identityProof", Inline OCTET_STRING); "id-cmc-identityProofV2" ~> "IdentifyProofV2";
    "id-cmc-lraPOPWitness" ~> "LraPopWitness"; "id-cmc-modCertTemplate" ~> "ModCertTemplate";
    (Id "id-cmc-popLinkRandom", Inline OCTET_STRING); (Id "id-cmc-popLinkWitness", Inline OCTET_STRING);
    "id-cmc-popLinkWitnessV2" ~> "PopLinkWitnessV2"; "id-cmc-publishCert" ~> "CMCPublicationInfo";
    (Id "id-cmc-queryPending", Inline OCTET_STRING); (Id "id-cmc-recipientNonce", Inline OCTET_STRING);
    (Id "id-cmc-regInfo", Inline OCTET_STRING); (Id "id-cmc-responseInfo", Inline OCTET_STRING);
    "id-cmc-revokeRequest" ~> "RevokeRequest"; (Id "id-cmc-senderNonce", Inline OCTET_STRING);
    "id-cmc-statusInfo" ~> "CMCStatusInfo"; "id-cmc-statusInfoV2" ~> "CMCStatusInfoV2";
    (Id "id-cmc-transactionId", Inline INTEGER); "id-cmc-trustedAnchors" ~> "PublishTrustAnchors"] ++
  on "rfc6402" "rfc5652" "cmsContentTypesMap" [
    "id-cct-PKIData" ~> "PKIData"; "id-cct-PKIResponse" ~> "PKIResponse"] ++
  on "rfc6482" "rfc5652" "cmsContentTypesMap" [
    "id-ct-routeOriginAuthz" ~> "RouteOriginAttestation"] ++
  on "rfc6486" "rfc5652" "cmsContentTypesMap" [
    "id-ct-rpkiManifest" ~> "Manifest"] ++
  on "rfc6664" "rfc5751" "smimeCapabilityMap" [
    "dhpublicnumber" ~> "DSAKeyCapabilities"; "id-RSAES-OAEP" ~> "RSAKeyCapabilities";
    "id-RSASSA-PSS" ~> "RSAKeyCapabilities"; "id-dsa" ~> "DSAKeyCapabilities"; "id-ecDH" ~> "EC_SMimeCaps";
    "id-ecMQV" ~> "EC_SMimeCaps"; "id-ecPublicKey" ~> "EC_SMimeCaps"; "id-mgf1" ~> "AlgorithmIdentifier";
    "rsaEncryption" ~> "RSAKeyCapabilities"] ++
  on "rfc6955" "rfc5280" "algorithmIdentifierMap" [
    "id-alg-dhPop-sha224" ~> "DomainParameters"; "id-alg-dhPop-sha256" ~> "DomainParameters";
    "id-alg-dhPop-sha384" ~> "DomainParameters"; "id-alg-dhPop-sha512" ~> "DomainParameters";
    (Id "id-alg-dhPop-static-sha224-hmac-sha224", Inline NULL);
    (Id "id-alg-dhPop-static-sha256-hmac-sha256", Inline NULL);
    (Id "id-alg-dhPop-static-sha384-hmac-sha384", Inline NULL);
    (Id "id-alg-dhPop-static-sha512-hmac-sha512", Inline NULL); "id-alg-dh-pop" ~> "DomainParameters";
    (Id "id-alg-ecdhPop-static-sha224-hmac-sha224", Inline NULL);
    (Id "id-alg-ecdhPop-static-sha256-hmac-sha256", Inline NULL);
    (Id "id-alg-ecdhPop-static-sha384-hmac-sha384", Inline NULL);
    (Id "id-alg-ecdhPop-static-sha512-hmac-sha512", Inline NULL); (Id "id-dh-sig-hmac-sha1", Inline NULL)] ++
  on "rfc6960" "rfc5280" "certificateExtensionsMap" [
    "id-pkix-ocsp-archive-cutoff" ~> "ArchiveCutoff"; "id-pkix-ocsp-crl" ~> "CrlID";
    (Id "id-pkix-ocsp-extended-revoke", Inline NULL); (Id "id-pkix-ocsp-nocheck", Inline NULL);
    (Id "id-pkix-ocsp-nonce", Inline OCTET_STRING); "id-pkix-ocsp-pref-sig-algs" ~> "PreferredSignatureAlgorithms";
    "id-pkix-ocsp-response" ~> "AcceptableResponses"; "id-pkix-ocsp-service-locator" ~> "ServiceLocator"] ++
  on "rfc6960" "rfc6960" "ocspResponseMap" [
    "id-pkix-ocsp-basic" ~> "BasicOCSPResponse"] ++
  on "rfc7030" "rfc5652" "cmsAttributesMap" [
    "id-aa-asymmDecryptKeyID" ~> "AsymmetricDecryptKeyIdentifier"] ++
  on "rfc7191" "rfc5652" "cmsAttributesMap" [
    "id-aa-KP-keyPkgIdAndReceiptReq" ~> "KeyPkgIdentifierAndReceiptReq"] ++
  on "rfc7191" "rfc5652" "cmsContentTypesMap" [
    "id-ct-KP-keyPackageError" ~> "KeyPackageError"; "id-ct-KP-keyPackageReceipt" ~> "KeyPackageReceipt"] ++
  on "rfc7292" "rfc5280" "algorithmIdentifierMap" [
    "pbeWithSHAAnd128BitRC2-CBC" ~> "Pkcs_12PbeParams"; "pbeWithSHAAnd128BitRC4" ~> "Pkcs_12PbeParams";
    "pbeWithSHAAnd2-KeyTripleDES-CBC" ~> "Pkcs_12PbeParams"; "pbeWithSHAAnd3-KeyTripleDES-CBC" ~> "Pkcs_12PbeParams";
    "pbeWithSHAAnd40BitRC2-CBC" ~> "Pkcs_12PbeParams"; "pbeWithSHAAnd40BitRC4" ~> "Pkcs_12PbeParams"] ++
  on "rfc7292" "rfc5652" "cmsAttributesMap" [
    "pkcs-9-at-friendlyName" ~> "FriendlyName"; (Id "pkcs-9-at-localKeyId", Inline OCTET_STRING)] ++
  on "rfc7292" "rfc7292" "pkcs12BagTypeMap" [
    "id-CRLBag" ~> "CRLBag"; "id-certBag" ~> "CertBag"; "id-keyBag" ~> "KeyBag";
    "id-pkcs8ShroudedKeyBag" ~> "PKCS8ShroudedKeyBag"; "id-safeContentsBag" ~> "SafeContents";
    "id-secretBag" ~> "SecretBag"] ++
  on "rfc7292" "rfc7292" "pkcs12CRLBagMap" [
    (Below "crlTypes" 1, Inline OCTET_STRING)] ++
  on "rfc7292" "rfc7292" "pkcs12CertBagMap" [
    (Below "certTypes" 1, Inline OCTET_STRING); (Below "certTypes" 2, Inline IA5String)] ++
  on "rfc7508" "rfc5652" "cmsAttributesMap" [
    "id-aa-secureHeaderFieldsIdentifier" ~> "SecureHeaderFields"] ++
  on "rfc7585" "rfc5280" "anotherNameMap" [
    "id-on-naiRealm" ~> "NAIRealm"] ++
  on "rfc7633" "rfc5280" "certificateExtensionsMap" [
    "id-pe-tlsfeature" ~> "Features"] ++
  on "rfc7773" "rfc5280" "certificateExtensionsMap" [
    "id-ce-authContext" ~> "AuthenticationContexts"] ++
  on "rfc7894" "rfc5652" "cmsAttributesMap" [
    (Id "id-aa-estIdentityLinking", Inline (DirectoryString 255));
    (Id "id-aa-otpChallenge", Inline (DirectoryString 255));
    (Id "id-aa-revocationChallenge", Inline (DirectoryString 255))] ++
  on "rfc7906" "rfc5652" "cmsAttributesMap" [
    "id-aa-KP-classification" ~> "Classification"; "id-aa-KP-contentDecryptKeyID" ~> "ContentDecryptKeyID";
    "id-aa-KP-crlPointers" ~> "GeneralNames"; "id-aa-KP-keyPkgIdAndReceiptReq" ~> "KeyPkgIdentifierAndReceiptReq";
    "id-aa-KP-keyProvinceV2" ~> "KeyProvinceV2"; "id-aa-KP-manifest" ~> "Manifest";
    "id-aa-binarySigningTime" ~> "BinarySigningTime"; "id-aa-communityIdentifiers" ~> "CommunityIdentifiers";
    "id-aa-contentHint" ~> "ContentHints"; "id-at-pkiPath" ~> "PkiPath"; "id-at-userCertificate" ~> "Certificate";
    "id-contentType" ~> "ContentType"; "id-kma-TSECNomenclature" ~> "TSECNomenclature";
    "id-kma-keyAlgorithm" ~> "KeyAlgorithm"; "id-kma-keyDistPeriod" ~> "KeyDistPeriod";
    "id-kma-keyDuration" ~> "KeyDuration"; "id-kma-keyPkgReceiversV2" ~> "KeyPkgReceiversV2";
    "id-kma-keyPkgType" ~> "KeyPkgType"; "id-kma-keyPurpose" ~> "KeyPurpose"; "id-kma-keyUse" ~> "KeyUse";
    "id-kma-keyValidityPeriod" ~> "KeyValidityPeriod"; "id-kma-keyWrapAlgorithm" ~> "AlgorithmIdentifier";
    "id-kma-otherCertFormats" ~> "CertificateChoices"; "id-kma-sigUsageV3" ~> "SignatureUsage";
    "id-kma-splitID" ~> "SplitID"; "id-kma-transportKey" ~> "TransOp"; "id-kma-usefulCerts" ~> "CertificateSet";
    "id-messageDigest" ~> "MessageDigest"; "id-pe-subjectInfoAccess" ~> "SubjectInfoAccessSyntax"] ++
  on "rfc7914" "rfc5280" "algorithmIdentifierMap" [
    "id-scrypt" ~> "Scrypt_params"] ++
  on "rfc8017" "rfc5280" "algorithmIdentifierMap" [
    "id-RSAES-OAEP" ~> "RSAES_OAEP_params"; "id-RSASSA-PSS" ~> "RSASSA_PSS_params";
    "id-mgf1" ~> "AlgorithmIdentifier"; (Id "id-pSpecified", Inline OCTET_STRING); (Id "id-sha1", Inline NULL);
    (Id "id-sha224", Inline NULL); (Id "id-sha256", Inline NULL); (Id "id-sha384", Inline NULL);
    (Id "id-sha512", Inline NULL); (Id "id-sha512-224", Inline NULL); (Id "id-sha512-256", Inline NULL);
    (Id "md2WithRSAEncryption", Inline NULL); (Id "md5WithRSAEncryption", Inline NULL);
    (Id "sha1WithRSAEncryption", Inline NULL); (Id "sha224WithRSAEncryption", Inline NULL);
    (Id "sha256WithRSAEncryption", Inline NULL); (Id "sha384WithRSAEncryption", Inline NULL);
    (Id "sha512WithRSAEncryption", Inline NULL); (Id "sha512-224WithRSAEncryption", Inline NULL);
    (Id "sha512-256WithRSAEncryption", Inline NULL)] ++
  on "rfc8018" "rfc5280" "algorithmIdentifierMap" [
    "aes128-CBC-PAD" ~> "AES_IV"; "aes192-CBC-PAD" ~> "AES_IV"; "aes256-CBC-PAD" ~> "AES_IV"; "desCBC" ~> "DES_IV";
    "des-EDE3-CBC" ~> "DES_IV"; "id-PBES2" ~> "PBES2_params"; "id-PBKDF2" ~> "PBKDF2_params";
    "id-PBMAC1" ~> "PBMAC1_params"; (Id "id-hmacWithSHA1", Inline NULL); (Id "id-hmacWithSHA224", Inline NULL);
    (Id "id-hmacWithSHA256", Inline NULL); (Id "id-hmacWithSHA384", Inline NULL); (Id "id-hmacWithSHA512", Inline NULL);
    (Id "id-hmacWithSHA512-224", Inline NULL); (Id "id-hmacWithSHA512-256", Inline NULL);
    "pbeWithMD2AndDES-CBC" ~> "PBEParameter"; "pbeWithMD2AndRC2-CBC" ~> "PBEParameter";
    "pbeWithMD5AndDES-CBC" ~> "PBEParameter"; "pbeWithMD5AndRC2-CBC" ~> "PBEParameter";
    "pbeWithSHA1AndDES-CBC" ~> "PBEParameter"; "pbeWithSHA1AndRC2-CBC" ~> "PBEParameter";
    "rc2CBC" ~> "RC2_CBC_Parameter"; "rc5-CBC-PAD" ~> "RC5_CBC_Parameters"] ++
  on "rfc8226" "rfc5280" "certificateExtensionsMap" [
    "id-pe-JWTClaimConstraints" ~> "JWTClaimConstraints"; "id-pe-TNAuthList" ~> "TNAuthorizationList"] ++
  on "rfc8358" "rfc5652" "cmsContentTypesMap" [
    (Id "id-ct-asciiTextWithCRLF", Inline OCTET_STRING); (Id "id-ct-epub", Inline OCTET_STRING);
    (Id "id-ct-htmlWithCRLF", Inline OCTET_STRING); (Id "id-ct-pdf", Inline OCTET_STRING);
    (Id "id-ct-postscript", Inline OCTET_STRING); (Id "id-ct-utf8TextWithCRLF", Inline OCTET_STRING);
    (Id "id-ct-xml", Inline OCTET_STRING)] ++
  on "rfc8360" "rfc5280" "certificateExtensionsMap" [
    "id-pe-autonomousSysIds-v2" ~> "ASIdentifiers"; "id-pe-ipAddrBlocks-v2" ~> "IPAddrBlocks"] ++
  on "rfc8398" "rfc5280" "anotherNameMap" [
    "id-on-SmtpUTF8Mailbox" ~> "SmtpUTF8Mailbox"] ++
  on "rfc8419" "rfc5280" "algorithmIdentifierMap" [
    "id-shake256-len" ~> "ShakeOutputLen"] ++
  on "rfc8479" "rfc5652" "cmsAttributesMap" [
    "id-attr-validation-parameters" ~> "ValidationParams"] ++
  on "rfc8520" "rfc5280" "certificateExtensionsMap" [
    "id-pe-mud-url" ~> "MUDURLSyntax"; "id-pe-mudsigner" ~> "MUDsignerSyntax"] ++
  on "rfc8520" "rfc5652" "cmsContentTypesMap" [
    (Id "id-ct-mudtype", Inline OCTET_STRING)] ++
  on "rfc8649" "rfc5280" "certificateExtensionsMap" [
    "id-ce-hashOfRootKey" ~> "HashedRootKey"] ++
  on "rfc8696" "rfc5652" "otherRecipientInfoMap" [
    "id-ori-keyAgreePSK" ~> "KeyAgreePSKRecipientInfo"; "id-ori-keyTransPSK" ~> "KeyTransPSKRecipientInfo"] ++
  on "rfc8702" "rfc5280" "algorithmIdentifierMap" [
    "id-KMACWithSHAKE128" ~> "KMACwithSHAKE128_params"; "id-KMACWithSHAKE256" ~> "KMACwithSHAKE256_params"].

(** Associations of the RFCs that no module of /repo registers, although the module of the
    RFC defines both the identifier and the type. *)
Definition omitted : list association :=
  on "rfc3161" "rfc5652" "cmsContentTypesMap" [
    "id-ct-TSTInfo" ~> "TSTInfo"] ++
  on "rfc4211" "rfc5652" "cmsContentTypesMap" [
    "id-ct-encKeyWithID" ~> "EncKeyWithID"] ++
  on "rfc4357" "rfc5280" "algorithmIdentifierMap" [
    "id-GostR3410-2001-TestParamSet" ~> "GostR3410_2001_ParamSetParameters";
    "id-GostR3410-2001-CryptoPro-A-ParamSet" ~> "GostR3410_2001_ParamSetParameters";
    "id-GostR3410-2001-CryptoPro-B-ParamSet" ~> "GostR3410_2001_ParamSetParameters";
    "id-GostR3410-2001-CryptoPro-C-ParamSet" ~> "GostR3410_2001_ParamSetParameters";
    "id-GostR3410-2001-CryptoPro-XchA-ParamSet" ~> "GostR3410_2001_ParamSetParameters";
    "id-GostR3410-2001-CryptoPro-XchB-ParamSet" ~> "GostR3410_2001_ParamSetParameters"] ++
  on "rfc5280" "rfc5280" "certificateExtensionsMap" [
    "id-ce-freshestCRL" ~> "FreshestCRL"; "id-ce-inhibitAnyPolicy" ~> "InhibitAnyPolicy";
    "id-pe-subjectInfoAccess" ~> "SubjectInfoAccessSyntax"] ++
  on "rfc5280" "rfc5280" "policyQualifierInfoMap" [
    "id-qt-cps" ~> "CPSuri"; "id-qt-unotice" ~> "UserNotice"] ++
  on "rfc5914" "rfc5652" "cmsContentTypesMap" [
    "id-ct-trustAnchorList" ~> "TrustAnchorList"] ++
  on "rfc6402" "rfc5652" "cmsAttributesMap" [
    "id-cmc-changeSubjectName" ~> "ChangeSubjectName"; "id-cmc-raIdentityWitness" ~> "BodyPartPath";
    "id-cmc-responseBody" ~> "BodyPartPath"; "id-aa-cmc-unsignedData" ~> "CMCUnsignedData"] ++
  on "rfc8103" "rfc5280" "algorithmIdentifierMap" [
    "id-alg-AEADChaCha20Poly1305" ~> "AEADChaCha20Poly1305Nonce"].

(** Registrations of another type than the RFC's, with a value that shows it. *)
Definition strays : list (string * did * ident * aval) := [
  ("rfc3565", ("rfc5280", "algorithmIdentifierMap"), Id "id-aes128-wrap", VNull);
  ("rfc3565", ("rfc5280", "algorithmIdentifierMap"), Id "id-aes192-wrap", VNull);
  ("rfc3565", ("rfc5280", "algorithmIdentifierMap"), Id "id-aes256-wrap", VNull);
  ("rfc4357", ("rfc5280", "algorithmIdentifierMap"), Id "id-GostR3410-2001",
    VSeq [Some (VOid [1; 2; 643; 2; 2; 35; 1]); Some (VOid [1; 2; 643; 2; 2; 30; 1]); None]%N);
  ("rfc7292", ("rfc7292", "pkcs12BagTypeMap"), Id "id-safeContentsBag", VList [])].
(** Registrations of a type of the same encoding without the RFC's bounds. *)
Definition wide : list (string * did * ident * aval) := [
  ("rfc2459", ("rfc2459", "certificateExtensionsMap"), Id "id-ce-cRLNumber", VInt (-1));
  ("rfc5280", ("rfc5280", "certificateExtensionsMap"), Id "id-ce-cRLNumber", VInt (-1))].

Definition ident_eqb (i j : ident) : bool :=
  match i, j with
  | Id a, Id b => String.eqb a b
  | Below a n, Below b k => String.eqb a b && N.eqb n k
  | Number a, Number b => Z.eqb a b
  | _, _ => false
  end.
(** Is the association listed? *)
Definition among (l : list (string * did * ident * aval)) (a : association) : bool :=
  existsb (fun e => match e with (m, d, i, _) =>
             String.eqb m (as_module a) && did_eqb d (as_registry a) && ident_eqb i (as_id a) end) l.

(** The value of an identifier in the notation of module [m]. *)
Definition key_with (R : assignments) (m : string) (i : ident) : option key :=
  match i with
  | Id n => option_map KeyOid (registry_with R m (underscored n))
  | Below n a => option_map (fun p => KeyOid (p ++ [a])) (registry_with R m (underscored n))
  | Number z => Some (KeyInt z)
  end.
Definition key_of : string -> ident -> option key := key_with (respelt registered).
(** The type itself. *)
Definition sty_of (m : string) (c : content) : option sty :=
  match c with Named x => definition m x | Inline s => Some s | Absent => None end.
(** Registries whose name starts with an underscore are update dictionaries that only their
    own module uses. *)
Definition hidden (d : did) : bool := match snd d with String c _ => Ascii.eqb c "_"%char | _ => false end.
