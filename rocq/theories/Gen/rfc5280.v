(** pyasn1_modules/rfc5280.py, printed by tools/py2coq.py.  Every statement is
    preceded by its line number in that file. *)
From Verif Require Import Py.Syntax.
From Coq Require Import List String ZArith NArith.
Import ListNotations.
Open Scope string_scope.
Open Scope Z_scope.

Definition src : module := [
  (18%N, SFrom "pyasn1.type" [("char", "char")]);
  (19%N, SFrom "pyasn1.type" [("constraint", "constraint")]);
  (20%N, SFrom "pyasn1.type" [("namedtype", "namedtype")]);
  (21%N, SFrom "pyasn1.type" [("namedval", "namedval")]);
  (22%N, SFrom "pyasn1.type" [("opentype", "opentype")]);
  (23%N, SFrom "pyasn1.type" [("tag", "tag")]);
  (24%N, SFrom "pyasn1.type" [("univ", "univ")]);
  (25%N, SFrom "pyasn1.type" [("useful", "useful")]);
  (27%N, set "MAX" (call (EName "float") [EStr "inf"]));
  (30%N, SDef "_buildOid" [] (Some "components") [set "output" (EList []); SFor "x" (call (EName "tuple") [EName "components"]) [SIf (call (EName "isinstance") [EName "x"; univ "ObjectIdentifier"]) [SExpr (call (qual "output" "extend") [call (EName "list") [EName "x"]])] [SExpr (call (qual "output" "append") [call (EName "int") [EName "x"]])]]; SReturn (call (univ "ObjectIdentifier") [EName "output"])]);
  (41%N, set "ub_e163_4_sub_address_length" (call (univ "Integer") [EInt 40]));
  (43%N, set "ub_e163_4_number_length" (call (univ "Integer") [EInt 15]));
  (45%N, set "unformatted_postal_address" (call (univ "Integer") [EInt 16]));
  (48%N, SClass "TerminalType" (univ "Integer") [SPass]);
  (52%N, seta "TerminalType" "namedValues" (nvs [nv "telex" 3; nv "teletex" 4; nv "g3-facsimile" 5; nv "g4-facsimile" 6; nv "ia5-terminal" 7; nv "videotex" 8]));
  (62%N, SClass "Extension" (univ "Sequence") [SPass]);
  (66%N, seta "Extension" "componentType" (nts [nt "extnID" (call0 (univ "ObjectIdentifier")); dnt "critical" (withvalue (call0 (univ "Boolean")) (EInt 0)); nt "extnValue" (call0 (univ "OctetString"))]));
  (73%N, SClass "Extensions" (univ "SequenceOf") [SPass]);
  (77%N, seta "Extensions" "componentType" (new "Extension"));
  (78%N, seta "Extensions" "sizeSpec" (sizec (EInt 1) (EName "MAX")));
  (80%N, set "physical_delivery_personal_name" (call (univ "Integer") [EInt 13]));
  (82%N, set "ub_unformatted_address_length" (call (univ "Integer") [EInt 180]));
  (84%N, set "ub_pds_parameter_length" (call (univ "Integer") [EInt 30]));
  (86%N, set "ub_pds_physical_address_lines" (call (univ "Integer") [EInt 6]));
  (89%N, SClass "UnformattedPostalAddress" (univ "Set") [SPass]);
  (93%N, seta "UnformattedPostalAddress" "componentType" (nts [ont "printable-address" (ECall (univ "SequenceOf") [] [("componentType", withspec (call0 (chr "PrintableString")) (sizec (EInt 1) (EName "ub_pds_parameter_length")))]); ont "teletex-string" (withspec (call0 (chr "TeletexString")) (sizec (EInt 1) (EName "ub_unformatted_address_length")))]));
  (100%N, set "ub_organization_name" (call (univ "Integer") [EInt 64]));
  (103%N, SClass "X520OrganizationName" (univ "Choice") [SPass]);
  (107%N, seta "X520OrganizationName" "componentType" (nts [nt "teletexString" (withspec (call0 (chr "TeletexString")) (sizec (EInt 1) (EName "ub_organization_name"))); nt "printableString" (withspec (call0 (chr "PrintableString")) (sizec (EInt 1) (EName "ub_organization_name"))); nt "universalString" (withspec (call0 (chr "UniversalString")) (sizec (EInt 1) (EName "ub_organization_name"))); nt "utf8String" (withspec (call0 (chr "UTF8String")) (sizec (EInt 1) (EName "ub_organization_name"))); nt "bmpString" (withspec (call0 (chr "BMPString")) (sizec (EInt 1) (EName "ub_organization_name")))]));
  (120%N, set "ub_x121_address_length" (call (univ "Integer") [EInt 16]));
  (122%N, set "pds_name" (call (univ "Integer") [EInt 7]));
  (124%N, set "id_pkix" (call (EName "_buildOid") [EInt 1; EInt 3; EInt 6; EInt 1; EInt 5; EInt 5; EInt 7]));
  (126%N, set "id_kp" (call (EName "_buildOid") [EName "id_pkix"; EInt 3]));
  (128%N, set "ub_postal_code_length" (call (univ "Integer") [EInt 16]));
  (131%N, SClass "PostalCode" (univ "Choice") [SPass]);
  (135%N, seta "PostalCode" "componentType" (nts [nt "numeric-code" (withspec (call0 (chr "NumericString")) (sizec (EInt 1) (EName "ub_postal_code_length"))); nt "printable-code" (withspec (call0 (chr "PrintableString")) (sizec (EInt 1) (EName "ub_postal_code_length")))]));
  (142%N, set "ub_generation_qualifier_length" (call (univ "Integer") [EInt 3]));
  (144%N, set "unique_postal_name" (call (univ "Integer") [EInt 20]));
  (147%N, SClass "DomainComponent" (chr "IA5String") [SPass]);
  (151%N, set "ub_domain_defined_attribute_value_length" (call (univ "Integer") [EInt 128]));
  (153%N, set "ub_match" (call (univ "Integer") [EInt 128]));
  (155%N, set "id_at" (call (EName "_buildOid") [EInt 2; EInt 5; EInt 4]));
  (158%N, SClass "AttributeType" (univ "ObjectIdentifier") [SPass]);
  (162%N, set "id_at_organizationalUnitName" (call (EName "_buildOid") [EName "id_at"; EInt 11]));
  (164%N, set "terminal_type" (call (univ "Integer") [EInt 23]));
  (167%N, SClass "PDSParameter" (univ "Set") [SPass]);
  (171%N, seta "PDSParameter" "componentType" (nts [ont "printable-string" (withspec (call0 (chr "PrintableString")) (sizec (EInt 1) (EName "ub_pds_parameter_length"))); ont "teletex-string" (withspec (call0 (chr "TeletexString")) (sizec (EInt 1) (EName "ub_pds_parameter_length")))]));
  (179%N, SClass "PhysicalDeliveryPersonalName" (EName "PDSParameter") [SPass]);
  (183%N, set "ub_surname_length" (call (univ "Integer") [EInt 40]));
  (185%N, set "id_ad" (call (EName "_buildOid") [EName "id_pkix"; EInt 48]));
  (187%N, set "ub_domain_defined_attribute_type_length" (call (univ "Integer") [EInt 8]));
  (190%N, SClass "TeletexDomainDefinedAttribute" (univ "Sequence") [SPass]);
  (194%N, seta "TeletexDomainDefinedAttribute" "componentType" (nts [nt "type" (withspec (call0 (chr "TeletexString")) (sizec (EInt 1) (EName "ub_domain_defined_attribute_type_length"))); nt "value" (withspec (call0 (chr "TeletexString")) (sizec (EInt 1) (EName "ub_domain_defined_attribute_value_length")))]));
  (201%N, set "ub_domain_defined_attributes" (call (univ "Integer") [EInt 4]));
  (204%N, SClass "TeletexDomainDefinedAttributes" (univ "SequenceOf") [SPass]);
  (208%N, seta "TeletexDomainDefinedAttributes" "componentType" (new "TeletexDomainDefinedAttribute"));
  (209%N, seta "TeletexDomainDefinedAttributes" "sizeSpec" (sizec (EInt 1) (EName "ub_domain_defined_attributes")));
  (211%N, set "extended_network_address" (call (univ "Integer") [EInt 22]));
  (213%N, set "ub_locality_name" (call (univ "Integer") [EInt 128]));
  (216%N, SClass "X520LocalityName" (univ "Choice") [SPass]);
  (220%N, seta "X520LocalityName" "componentType" (nts [nt "teletexString" (withspec (call0 (chr "TeletexString")) (sizec (EInt 1) (EName "ub_locality_name"))); nt "printableString" (withspec (call0 (chr "PrintableString")) (sizec (EInt 1) (EName "ub_locality_name"))); nt "universalString" (withspec (call0 (chr "UniversalString")) (sizec (EInt 1) (EName "ub_locality_name"))); nt "utf8String" (withspec (call0 (chr "UTF8String")) (sizec (EInt 1) (EName "ub_locality_name"))); nt "bmpString" (withspec (call0 (chr "BMPString")) (sizec (EInt 1) (EName "ub_locality_name")))]));
  (233%N, set "teletex_organization_name" (call (univ "Integer") [EInt 3]));
  (235%N, set "ub_given_name_length" (call (univ "Integer") [EInt 16]));
  (237%N, set "ub_initials_length" (call (univ "Integer") [EInt 5]));
  (240%N, SClass "PersonalName" (univ "Set") [SPass]);
  (244%N, seta "PersonalName" "componentType" (nts [nt "surname" (implicit (withspec (call0 (chr "PrintableString")) (sizec (EInt 1) (EName "ub_surname_length"))) (ctxS 0)); ont "given-name" (implicit (withspec (call0 (chr "PrintableString")) (sizec (EInt 1) (EName "ub_given_name_length"))) (ctxS 1)); ont "initials" (implicit (withspec (call0 (chr "PrintableString")) (sizec (EInt 1) (EName "ub_initials_length"))) (ctxS 2)); ont "generation-qualifier" (implicit (withspec (call0 (chr "PrintableString")) (sizec (EInt 1) (EName "ub_generation_qualifier_length"))) (ctxS 3))]));
  (259%N, set "ub_organizational_unit_name_length" (call (univ "Integer") [EInt 32]));
  (262%N, SClass "OrganizationalUnitName" (chr "PrintableString") [SPass]);
  (266%N, seta "OrganizationalUnitName" "subtypeSpec" (sizec (EInt 1) (EName "ub_organizational_unit_name_length")));
  (268%N, set "id_at_generationQualifier" (call (EName "_buildOid") [EName "id_at"; EInt 44]));
  (271%N, SClass "Version" (univ "Integer") [SPass]);
  (275%N, seta "Version" "namedValues" (nvs [nv "v1" 0; nv "v2" 1; nv "v3" 2]));
  (282%N, SClass "CertificateSerialNumber" (univ "Integer") [SPass]);
  (286%N, set "algorithmIdentifierMap" (EDict []));
  (289%N, SClass "AlgorithmIdentifier" (univ "Sequence") [set "componentType" (nts [nt "algorithm" (call0 (univ "ObjectIdentifier")); ECall (qual "namedtype" "OptionalNamedType") [EStr "parameters"; call0 (univ "Any")] [("openType", call (qual "opentype" "OpenType") [EStr "algorithm"; EName "algorithmIdentifierMap"])]])]);
  (298%N, SClass "Time" (univ "Choice") [SPass]);
  (302%N, seta "Time" "componentType" (nts [nt "utcTime" (call0 (useful "UTCTime")); nt "generalTime" (call0 (useful "GeneralizedTime"))]));
  (308%N, SClass "AttributeValue" (univ "Any") [SPass]);
  (312%N, set "certificateAttributesMap" (EDict []));
  (315%N, SClass "AttributeTypeAndValue" (univ "Sequence") [set "componentType" (nts [nt "type" (new "AttributeType"); ECall (qual "namedtype" "NamedType") [EStr "value"; new "AttributeValue"] [("openType", call (qual "opentype" "OpenType") [EStr "type"; EName "certificateAttributesMap"])]])]);
  (325%N, SClass "RelativeDistinguishedName" (univ "SetOf") [SPass]);
  (329%N, seta "RelativeDistinguishedName" "componentType" (new "AttributeTypeAndValue"));
  (330%N, seta "RelativeDistinguishedName" "sizeSpec" (sizec (EInt 1) (EName "MAX")));
  (333%N, SClass "RDNSequence" (univ "SequenceOf") [SPass]);
  (337%N, seta "RDNSequence" "componentType" (new "RelativeDistinguishedName"));
  (340%N, SClass "Name" (univ "Choice") [SPass]);
  (344%N, seta "Name" "componentType" (nts [nt "rdnSequence" (new "RDNSequence")]));
  (349%N, SClass "TBSCertList" (univ "Sequence") [SPass]);
  (353%N, seta "TBSCertList" "componentType" (nts [ont "version" (new "Version"); nt "signature" (new "AlgorithmIdentifier"); nt "issuer" (new "Name"); nt "thisUpdate" (new "Time"); ont "nextUpdate" (new "Time"); ont "revokedCertificates" (ECall (univ "SequenceOf") [] [("componentType", ECall (univ "Sequence") [] [("componentType", nts [nt "userCertificate" (new "CertificateSerialNumber"); nt "revocationDate" (new "Time"); ont "crlEntryExtensions" (new "Extensions")])])]); ont "crlExtensions" (explicit (new "Extensions") (ctxS 0))]));
  (375%N, SClass "CertificateList" (univ "Sequence") [SPass]);
  (379%N, seta "CertificateList" "componentType" (nts [nt "tbsCertList" (new "TBSCertList"); nt "signatureAlgorithm" (new "AlgorithmIdentifier"); nt "signature" (call0 (univ "BitString"))]));
  (386%N, SClass "PhysicalDeliveryOfficeName" (EName "PDSParameter") [SPass]);
  (390%N, set "ub_extension_attributes" (call (univ "Integer") [EInt 256]));
  (392%N, set "certificateExtensionsMap" (EDict []));
  (395%N, set "oraddressExtensionAttributeMap" (EDict []));
  (399%N, SClass "ExtensionAttribute" (univ "Sequence") [set "componentType" (nts [nt "extension-attribute-type" (implicit (withspec (call0 (univ "Integer")) (rangec (EInt 0) (EName "ub_extension_attributes"))) (ctxS 0)); ECall (qual "namedtype" "NamedType") [EStr "extension-attribute-value"; explicit (call0 (univ "Any")) (ctxS 1)] [("openType", call (qual "opentype" "OpenType") [EStr "extension-attribute-type"; EName "oraddressExtensionAttributeMap"])]])]);
  (410%N, set "id_qt" (call (EName "_buildOid") [EName "id_pkix"; EInt 2]));
  (412%N, set "id_qt_cps" (call (EName "_buildOid") [EName "id_qt"; EInt 1]));
  (414%N, set "id_at_stateOrProvinceName" (call (EName "_buildOid") [EName "id_at"; EInt 8]));
  (416%N, set "id_at_title" (call (EName "_buildOid") [EName "id_at"; EInt 12]));
  (418%N, set "id_at_serialNumber" (call (EName "_buildOid") [EName "id_at"; EInt 5]));
  (421%N, SClass "X520dnQualifier" (chr "PrintableString") [SPass]);
  (425%N, SClass "PosteRestanteAddress" (EName "PDSParameter") [SPass]);
  (429%N, set "poste_restante_address" (call (univ "Integer") [EInt 19]));
  (432%N, SClass "UniqueIdentifier" (univ "BitString") [SPass]);
  (436%N, SClass "Validity" (univ "Sequence") [SPass]);
  (440%N, seta "Validity" "componentType" (nts [nt "notBefore" (new "Time"); nt "notAfter" (new "Time")]));
  (446%N, SClass "SubjectPublicKeyInfo" (univ "Sequence") [SPass]);
  (450%N, seta "SubjectPublicKeyInfo" "componentType" (nts [nt "algorithm" (new "AlgorithmIdentifier"); nt "subjectPublicKey" (call0 (univ "BitString"))]));
  (456%N, SClass "TBSCertificate" (univ "Sequence") [SPass]);
  (460%N, seta "TBSCertificate" "componentType" (nts [dnt "version" (withvalue (explicit (new "Version") (ctxS 0)) (EStr "v1")); nt "serialNumber" (new "CertificateSerialNumber"); nt "signature" (new "AlgorithmIdentifier"); nt "issuer" (new "Name"); nt "validity" (new "Validity"); nt "subject" (new "Name"); nt "subjectPublicKeyInfo" (new "SubjectPublicKeyInfo"); ont "issuerUniqueID" (implicit (new "UniqueIdentifier") (ctxS 1)); ont "subjectUniqueID" (implicit (new "UniqueIdentifier") (ctxS 2)); ont "extensions" (explicit (new "Extensions") (ctxS 3))]));
  (478%N, set "physical_delivery_office_name" (call (univ "Integer") [EInt 10]));
  (480%N, set "ub_name" (call (univ "Integer") [EInt 32768]));
  (483%N, SClass "X520name" (univ "Choice") [SPass]);
  (487%N, seta "X520name" "componentType" (nts [nt "teletexString" (withspec (call0 (chr "TeletexString")) (sizec (EInt 1) (EName "ub_name"))); nt "printableString" (withspec (call0 (chr "PrintableString")) (sizec (EInt 1) (EName "ub_name"))); nt "universalString" (withspec (call0 (chr "UniversalString")) (sizec (EInt 1) (EName "ub_name"))); nt "utf8String" (withspec (call0 (chr "UTF8String")) (sizec (EInt 1) (EName "ub_name"))); nt "bmpString" (withspec (call0 (chr "BMPString")) (sizec (EInt 1) (EName "ub_name")))]));
  (499%N, set "id_at_dnQualifier" (call (EName "_buildOid") [EName "id_at"; EInt 46]));
  (501%N, set "ub_serial_number" (call (univ "Integer") [EInt 64]));
  (503%N, set "ub_pseudonym" (call (univ "Integer") [EInt 128]));
  (505%N, set "pkcs_9" (call (EName "_buildOid") [EInt 1; EInt 2; EInt 840; EInt 113549; EInt 1; EInt 9]));
  (508%N, SClass "X121Address" (chr "NumericString") [SPass]);
  (512%N, seta "X121Address" "subtypeSpec" (sizec (EInt 1) (EName "ub_x121_address_length")));
  (515%N, SClass "NetworkAddress" (EName "X121Address") [SPass]);
  (519%N, set "ub_integer_options" (call (univ "Integer") [EInt 256]));
  (521%N, set "id_at_commonName" (call (EName "_buildOid") [EName "id_at"; EInt 3]));
  (523%N, set "ub_organization_name_length" (call (univ "Integer") [EInt 64]));
  (525%N, set "id_ad_ocsp" (call (EName "_buildOid") [EName "id_ad"; EInt 1]));
  (527%N, set "ub_country_name_numeric_length" (call (univ "Integer") [EInt 3]));
  (529%N, set "ub_country_name_alpha_length" (call (univ "Integer") [EInt 2]));
  (532%N, SClass "PhysicalDeliveryCountryName" (univ "Choice") [SPass]);
  (536%N, seta "PhysicalDeliveryCountryName" "componentType" (nts [nt "x121-dcc-code" (withspec (call0 (chr "NumericString")) (sizec (EName "ub_country_name_numeric_length") (EName "ub_country_name_numeric_length"))); nt "iso-3166-alpha2-code" (withspec (call0 (chr "PrintableString")) (sizec (EName "ub_country_name_alpha_length") (EName "ub_country_name_alpha_length")))]));
  (543%N, set "id_emailAddress" (call (EName "_buildOid") [EName "pkcs_9"; EInt 1]));
  (545%N, set "common_name" (call (univ "Integer") [EInt 1]));
  (548%N, SClass "X520Pseudonym" (univ "Choice") [SPass]);
  (552%N, seta "X520Pseudonym" "componentType" (nts [nt "teletexString" (withspec (call0 (chr "TeletexString")) (sizec (EInt 1) (EName "ub_pseudonym"))); nt "printableString" (withspec (call0 (chr "PrintableString")) (sizec (EInt 1) (EName "ub_pseudonym"))); nt "universalString" (withspec (call0 (chr "UniversalString")) (sizec (EInt 1) (EName "ub_pseudonym"))); nt "utf8String" (withspec (call0 (chr "UTF8String")) (sizec (EInt 1) (EName "ub_pseudonym"))); nt "bmpString" (withspec (call0 (chr "BMPString")) (sizec (EInt 1) (EName "ub_pseudonym")))]));
  (565%N, set "ub_domain_name_length" (call (univ "Integer") [EInt 16]));
  (568%N, SClass "AdministrationDomainName" (univ "Choice") [SPass]);
  (572%N, seta "AdministrationDomainName" "tagSet" (call (EAttr (EAttr (univ "Choice") "tagSet") "tagExplicitly") [appC 2]));
  (574%N, seta "AdministrationDomainName" "componentType" (nts [nt "numeric" (withspec (call0 (chr "NumericString")) (sizec (EInt 0) (EName "ub_domain_name_length"))); nt "printable" (withspec (call0 (chr "PrintableString")) (sizec (EInt 0) (EName "ub_domain_name_length")))]));
  (582%N, SClass "PresentationAddress" (univ "Sequence") [SPass]);
  (586%N, seta "PresentationAddress" "componentType" (nts [ont "pSelector" (explicit (call0 (univ "OctetString")) (ctxS 0)); ont "sSelector" (explicit (call0 (univ "OctetString")) (ctxS 1)); ont "tSelector" (explicit (call0 (univ "OctetString")) (ctxS 2)); nt "nAddresses" (explicit (ECall (univ "SetOf") [] [("componentType", call0 (univ "OctetString"))]) (ctxS 3))]));
  (598%N, SClass "ExtendedNetworkAddress" (univ "Choice") [SPass]);
  (602%N, seta "ExtendedNetworkAddress" "componentType" (nts [nt "e163-4-address" (ECall (univ "Sequence") [] [("componentType", nts [nt "number" (implicit (withspec (call0 (chr "NumericString")) (sizec (EInt 1) (EName "ub_e163_4_number_length"))) (ctxS 0)); ont "sub-address" (implicit (withspec (call0 (chr "NumericString")) (sizec (EInt 1) (EName "ub_e163_4_sub_address_length"))) (ctxS 1))])]); nt "psap-address" (implicit (new "PresentationAddress") (ctxC 0))]));
  (616%N, SClass "TeletexOrganizationName" (chr "TeletexString") [SPass]);
  (620%N, seta "TeletexOrganizationName" "subtypeSpec" (sizec (EInt 1) (EName "ub_organization_name_length")));
  (622%N, set "ub_terminal_id_length" (call (univ "Integer") [EInt 24]));
  (625%N, SClass "TerminalIdentifier" (chr "PrintableString") [SPass]);
  (629%N, seta "TerminalIdentifier" "subtypeSpec" (sizec (EInt 1) (EName "ub_terminal_id_length")));
  (631%N, set "id_ad_caIssuers" (call (EName "_buildOid") [EName "id_ad"; EInt 2]));
  (633%N, set "id_at_countryName" (call (EName "_buildOid") [EName "id_at"; EInt 6]));
  (636%N, SClass "StreetAddress" (EName "PDSParameter") [SPass]);
  (640%N, set "postal_code" (call (univ "Integer") [EInt 9]));
  (642%N, set "id_at_givenName" (call (EName "_buildOid") [EName "id_at"; EInt 42]));
  (644%N, set "ub_title" (call (univ "Integer") [EInt 64]));
  (647%N, SClass "ExtensionAttributes" (univ "SetOf") [SPass]);
  (651%N, seta "ExtensionAttributes" "componentType" (new "ExtensionAttribute"));
  (652%N, seta "ExtensionAttributes" "sizeSpec" (sizec (EInt 1) (EName "ub_extension_attributes")));
  (654%N, set "ub_emailaddress_length" (call (univ "Integer") [EInt 255]));
  (656%N, set "id_ad_caRepository" (call (EName "_buildOid") [EName "id_ad"; EInt 5]));
  (659%N, SClass "ExtensionORAddressComponents" (EName "PDSParameter") [SPass]);
  (663%N, set "ub_organizational_unit_name" (call (univ "Integer") [EInt 64]));
  (666%N, SClass "X520OrganizationalUnitName" (univ "Choice") [SPass]);
  (670%N, seta "X520OrganizationalUnitName" "componentType" (nts [nt "teletexString" (withspec (call0 (chr "TeletexString")) (sizec (EInt 1) (EName "ub_organizational_unit_name"))); nt "printableString" (withspec (call0 (chr "PrintableString")) (sizec (EInt 1) (EName "ub_organizational_unit_name"))); nt "universalString" (withspec (call0 (chr "UniversalString")) (sizec (EInt 1) (EName "ub_organizational_unit_name"))); nt "utf8String" (withspec (call0 (chr "UTF8String")) (sizec (EInt 1) (EName "ub_organizational_unit_name"))); nt "bmpString" (withspec (call0 (chr "BMPString")) (sizec (EInt 1) (EName "ub_organizational_unit_name")))]));
  (684%N, SClass "LocalPostalAttributes" (EName "PDSParameter") [SPass]);
  (688%N, set "teletex_organizational_unit_names" (call (univ "Integer") [EInt 5]));
  (691%N, SClass "X520Title" (univ "Choice") [SPass]);
  (695%N, seta "X520Title" "componentType" (nts [nt "teletexString" (withspec (call0 (chr "TeletexString")) (sizec (EInt 1) (EName "ub_title"))); nt "printableString" (withspec (call0 (chr "PrintableString")) (sizec (EInt 1) (EName "ub_title"))); nt "universalString" (withspec (call0 (chr "UniversalString")) (sizec (EInt 1) (EName "ub_title"))); nt "utf8String" (withspec (call0 (chr "UTF8String")) (sizec (EInt 1) (EName "ub_title"))); nt "bmpString" (withspec (call0 (chr "BMPString")) (sizec (EInt 1) (EName "ub_title")))]));
  (707%N, set "id_at_localityName" (call (EName "_buildOid") [EName "id_at"; EInt 7]));
  (709%N, set "id_at_initials" (call (EName "_buildOid") [EName "id_at"; EInt 43]));
  (711%N, set "ub_state_name" (call (univ "Integer") [EInt 128]));
  (714%N, SClass "X520StateOrProvinceName" (univ "Choice") [SPass]);
  (718%N, seta "X520StateOrProvinceName" "componentType" (nts [nt "teletexString" (withspec (call0 (chr "TeletexString")) (sizec (EInt 1) (EName "ub_state_name"))); nt "printableString" (withspec (call0 (chr "PrintableString")) (sizec (EInt 1) (EName "ub_state_name"))); nt "universalString" (withspec (call0 (chr "UniversalString")) (sizec (EInt 1) (EName "ub_state_name"))); nt "utf8String" (withspec (call0 (chr "UTF8String")) (sizec (EInt 1) (EName "ub_state_name"))); nt "bmpString" (withspec (call0 (chr "BMPString")) (sizec (EInt 1) (EName "ub_state_name")))]));
  (731%N, set "physical_delivery_organization_name" (call (univ "Integer") [EInt 14]));
  (733%N, set "id_at_surname" (call (EName "_buildOid") [EName "id_at"; EInt 4]));
  (736%N, SClass "X520countryName" (chr "PrintableString") [SPass]);
  (740%N, seta "X520countryName" "subtypeSpec" (sizec (EInt 2) (EInt 2)));
  (742%N, set "physical_delivery_office_number" (call (univ "Integer") [EInt 11]));
  (744%N, set "id_qt_unotice" (call (EName "_buildOid") [EName "id_qt"; EInt 2]));
  (747%N, SClass "X520SerialNumber" (chr "PrintableString") [SPass]);
  (751%N, seta "X520SerialNumber" "subtypeSpec" (sizec (EInt 1) (EName "ub_serial_number")));
  (754%N, SClass "Attribute" (univ "Sequence") [set "componentType" (nts [nt "type" (new "AttributeType"); ECall (qual "namedtype" "NamedType") [EStr "values"; ECall (univ "SetOf") [] [("componentType", new "AttributeValue")]] [("openType", call (qual "opentype" "OpenType") [EStr "type"; EName "certificateAttributesMap"])]])]);
  (762%N, set "ub_common_name" (call (univ "Integer") [EInt 64]));
  (764%N, set "id_pe" (call (EName "_buildOid") [EName "id_pkix"; EInt 1]));
  (767%N, SClass "ExtensionPhysicalDeliveryAddressComponents" (EName "PDSParameter") [SPass]);
  (771%N, SClass "EmailAddress" (chr "IA5String") [SPass]);
  (775%N, seta "EmailAddress" "subtypeSpec" (sizec (EInt 1) (EName "ub_emailaddress_length")));
  (777%N, set "id_at_organizationName" (call (EName "_buildOid") [EName "id_at"; EInt 10]));
  (779%N, set "post_office_box_address" (call (univ "Integer") [EInt 18]));
  (782%N, SClass "BuiltInDomainDefinedAttribute" (univ "Sequence") [SPass]);
  (786%N, seta "BuiltInDomainDefinedAttribute" "componentType" (nts [nt "type" (withspec (call0 (chr "PrintableString")) (sizec (EInt 1) (EName "ub_domain_defined_attribute_type_length"))); nt "value" (withspec (call0 (chr "PrintableString")) (sizec (EInt 1) (EName "ub_domain_defined_attribute_value_length")))]));
  (794%N, SClass "BuiltInDomainDefinedAttributes" (univ "SequenceOf") [SPass]);
  (798%N, seta "BuiltInDomainDefinedAttributes" "componentType" (new "BuiltInDomainDefinedAttribute"));
  (799%N, seta "BuiltInDomainDefinedAttributes" "sizeSpec" (sizec (EInt 1) (EName "ub_domain_defined_attributes")));
  (801%N, set "id_at_pseudonym" (call (EName "_buildOid") [EName "id_at"; EInt 65]));
  (803%N, set "id_domainComponent" (call (EName "_buildOid") [EInt 0; EInt 9; EInt 2342; EInt 19200300; EInt 100; EInt 1; EInt 25]));
  (806%N, SClass "X520CommonName" (univ "Choice") [SPass]);
  (810%N, seta "X520CommonName" "componentType" (nts [nt "teletexString" (withspec (call0 (chr "TeletexString")) (sizec (EInt 1) (EName "ub_common_name"))); nt "printableString" (withspec (call0 (chr "PrintableString")) (sizec (EInt 1) (EName "ub_common_name"))); nt "universalString" (withspec (call0 (chr "UniversalString")) (sizec (EInt 1) (EName "ub_common_name"))); nt "utf8String" (withspec (call0 (chr "UTF8String")) (sizec (EInt 1) (EName "ub_common_name"))); nt "bmpString" (withspec (call0 (chr "BMPString")) (sizec (EInt 1) (EName "ub_common_name")))]));
  (823%N, set "extension_OR_address_components" (call (univ "Integer") [EInt 12]));
  (825%N, set "ub_organizational_units" (call (univ "Integer") [EInt 4]));
  (827%N, set "teletex_personal_name" (call (univ "Integer") [EInt 4]));
  (829%N, set "ub_numeric_user_id_length" (call (univ "Integer") [EInt 32]));
  (831%N, set "ub_common_name_length" (call (univ "Integer") [EInt 64]));
  (834%N, SClass "TeletexCommonName" (chr "TeletexString") [SPass]);
  (838%N, seta "TeletexCommonName" "subtypeSpec" (sizec (EInt 1) (EName "ub_common_name_length")));
  (841%N, SClass "PhysicalDeliveryOrganizationName" (EName "PDSParameter") [SPass]);
  (845%N, set "extension_physical_delivery_address_components" (call (univ "Integer") [EInt 15]));
  (848%N, SClass "NumericUserIdentifier" (chr "NumericString") [SPass]);
  (852%N, seta "NumericUserIdentifier" "subtypeSpec" (sizec (EInt 1) (EName "ub_numeric_user_id_length")));
  (855%N, SClass "CountryName" (univ "Choice") [SPass]);
  (859%N, seta "CountryName" "tagSet" (call (EAttr (EAttr (univ "Choice") "tagSet") "tagExplicitly") [appC 1]));
  (860%N, seta "CountryName" "componentType" (nts [nt "x121-dcc-code" (withspec (call0 (chr "NumericString")) (sizec (EName "ub_country_name_numeric_length") (EName "ub_country_name_numeric_length"))); nt "iso-3166-alpha2-code" (withspec (call0 (chr "PrintableString")) (sizec (EName "ub_country_name_alpha_length") (EName "ub_country_name_alpha_length")))]));
  (868%N, SClass "OrganizationName" (chr "PrintableString") [SPass]);
  (872%N, seta "OrganizationName" "subtypeSpec" (sizec (EInt 1) (EName "ub_organization_name_length")));
  (875%N, SClass "OrganizationalUnitNames" (univ "SequenceOf") [SPass]);
  (879%N, seta "OrganizationalUnitNames" "componentType" (new "OrganizationalUnitName"));
  (880%N, seta "OrganizationalUnitNames" "sizeSpec" (sizec (EInt 1) (EName "ub_organizational_units")));
  (883%N, SClass "PrivateDomainName" (univ "Choice") [SPass]);
  (887%N, seta "PrivateDomainName" "componentType" (nts [nt "numeric" (withspec (call0 (chr "NumericString")) (sizec (EInt 1) (EName "ub_domain_name_length"))); nt "printable" (withspec (call0 (chr "PrintableString")) (sizec (EInt 1) (EName "ub_domain_name_length")))]));
  (895%N, SClass "BuiltInStandardAttributes" (univ "Sequence") [SPass]);
  (899%N, seta "BuiltInStandardAttributes" "componentType" (nts [ont "country-name" (new "CountryName"); ont "administration-domain-name" (new "AdministrationDomainName"); ont "network-address" (implicit (new "NetworkAddress") (ctxS 0)); ont "terminal-identifier" (implicit (new "TerminalIdentifier") (ctxS 1)); ont "private-domain-name" (explicit (new "PrivateDomainName") (ctxC 2)); ont "organization-name" (implicit (new "OrganizationName") (ctxS 3)); ont "numeric-user-identifier" (implicit (new "NumericUserIdentifier") (ctxS 4)); ont "personal-name" (implicit (new "PersonalName") (ctxC 5)); ont "organizational-unit-names" (implicit (new "OrganizationalUnitNames") (ctxS 6))]));
  (919%N, SClass "ORAddress" (univ "Sequence") [SPass]);
  (923%N, seta "ORAddress" "componentType" (nts [nt "built-in-standard-attributes" (new "BuiltInStandardAttributes"); ont "built-in-domain-defined-attributes" (new "BuiltInDomainDefinedAttributes"); ont "extension-attributes" (new "ExtensionAttributes")]));
  (930%N, SClass "DistinguishedName" (EName "RDNSequence") [SPass]);
  (934%N, set "id_ad_timeStamping" (call (EName "_buildOid") [EName "id_ad"; EInt 3]));
  (937%N, SClass "PhysicalDeliveryOfficeNumber" (EName "PDSParameter") [SPass]);
  (941%N, set "teletex_domain_defined_attributes" (call (univ "Integer") [EInt 6]));
  (944%N, SClass "UniquePostalName" (EName "PDSParameter") [SPass]);
  (948%N, set "physical_delivery_country_name" (call (univ "Integer") [EInt 8]));
  (950%N, set "ub_pds_name_length" (call (univ "Integer") [EInt 16]));
  (953%N, SClass "PDSName" (chr "PrintableString") [SPass]);
  (957%N, seta "PDSName" "subtypeSpec" (sizec (EInt 1) (EName "ub_pds_name_length")));
  (960%N, SClass "TeletexPersonalName" (univ "Set") [SPass]);
  (964%N, seta "TeletexPersonalName" "componentType" (nts [nt "surname" (implicit (withspec (call0 (chr "TeletexString")) (sizec (EInt 1) (EName "ub_surname_length"))) (ctxS 0)); ont "given-name" (implicit (withspec (call0 (chr "TeletexString")) (sizec (EInt 1) (EName "ub_given_name_length"))) (ctxS 1)); ont "initials" (implicit (withspec (call0 (chr "TeletexString")) (sizec (EInt 1) (EName "ub_initials_length"))) (ctxS 2)); ont "generation-qualifier" (implicit (withspec (call0 (chr "TeletexString")) (sizec (EInt 1) (EName "ub_generation_qualifier_length"))) (ctxS 3))]));
  (979%N, set "street_address" (call (univ "Integer") [EInt 17]));
  (982%N, SClass "PostOfficeBoxAddress" (EName "PDSParameter") [SPass]);
  (986%N, set "local_postal_attributes" (call (univ "Integer") [EInt 21]));
  (989%N, SClass "DirectoryString" (univ "Choice") [SPass]);
  (993%N, seta "DirectoryString" "componentType" (nts [nt "teletexString" (withspec (call0 (chr "TeletexString")) (sizec (EInt 1) (EName "MAX"))); nt "printableString" (withspec (call0 (chr "PrintableString")) (sizec (EInt 1) (EName "MAX"))); nt "universalString" (withspec (call0 (chr "UniversalString")) (sizec (EInt 1) (EName "MAX"))); nt "utf8String" (withspec (call0 (chr "UTF8String")) (sizec (EInt 1) (EName "MAX"))); nt "bmpString" (withspec (call0 (chr "BMPString")) (sizec (EInt 1) (EName "MAX")))]));
  (1004%N, set "teletex_common_name" (call (univ "Integer") [EInt 2]));
  (1007%N, SClass "CommonName" (chr "PrintableString") [SPass]);
  (1011%N, seta "CommonName" "subtypeSpec" (sizec (EInt 1) (EName "ub_common_name_length")));
  (1014%N, SClass "Certificate" (univ "Sequence") [SPass]);
  (1018%N, seta "Certificate" "componentType" (nts [nt "tbsCertificate" (new "TBSCertificate"); nt "signatureAlgorithm" (new "AlgorithmIdentifier"); nt "signature" (call0 (univ "BitString"))]));
  (1025%N, SClass "TeletexOrganizationalUnitName" (chr "TeletexString") [SPass]);
  (1029%N, seta "TeletexOrganizationalUnitName" "subtypeSpec" (sizec (EInt 1) (EName "ub_organizational_unit_name_length")));
  (1031%N, set "id_at_name" (call (EName "_buildOid") [EName "id_at"; EInt 41]));
  (1034%N, SClass "TeletexOrganizationalUnitNames" (univ "SequenceOf") [SPass]);
  (1038%N, seta "TeletexOrganizationalUnitNames" "componentType" (new "TeletexOrganizationalUnitName"));
  (1039%N, seta "TeletexOrganizationalUnitNames" "sizeSpec" (sizec (EInt 1) (EName "ub_organizational_units")));
  (1041%N, set "id_ce" (call (EName "_buildOid") [EInt 2; EInt 5; EInt 29]));
  (1043%N, set "id_ce_issuerAltName" (call (EName "_buildOid") [EName "id_ce"; EInt 18]));
  (1046%N, SClass "SkipCerts" (univ "Integer") [SPass]);
  (1050%N, seta "SkipCerts" "subtypeSpec" (rangec (EInt 0) (EName "MAX")));
  (1053%N, SClass "CRLReason" (univ "Enumerated") [SPass]);
  (1057%N, seta "CRLReason" "namedValues" (nvs [nv "unspecified" 0; nv "keyCompromise" 1; nv "cACompromise" 2; nv "affiliationChanged" 3; nv "superseded" 4; nv "cessationOfOperation" 5; nv "certificateHold" 6; nv "removeFromCRL" 8; nv "privilegeWithdrawn" 9; nv "aACompromise" 10]));
  (1071%N, SClass "PrivateKeyUsagePeriod" (univ "Sequence") [SPass]);
  (1075%N, seta "PrivateKeyUsagePeriod" "componentType" (nts [ont "notBefore" (implicit (call0 (useful "GeneralizedTime")) (ctxS 0)); ont "notAfter" (implicit (call0 (useful "GeneralizedTime")) (ctxS 1))]));
  (1083%N, set "anotherNameMap" (EDict []));
  (1088%N, SClass "AnotherName" (univ "Sequence") [set "componentType" (nts [nt "type-id" (call0 (univ "ObjectIdentifier")); ECall (qual "namedtype" "NamedType") [EStr "value"; explicit (call0 (univ "Any")) (ctxS 0)] [("openType", call (qual "opentype" "OpenType") [EStr "type-id"; EName "anotherNameMap"])]])]);
  (1099%N, SClass "EDIPartyName" (univ "Sequence") [SPass]);
  (1103%N, seta "EDIPartyName" "componentType" (nts [ont "nameAssigner" (implicit (new "DirectoryString") (ctxC 0)); nt "partyName" (implicit (new "DirectoryString") (ctxC 1))]));
  (1111%N, SClass "GeneralName" (univ "Choice") [SPass]);
  (1115%N, seta "GeneralName" "componentType" (nts [nt "otherName" (implicit (new "AnotherName") (ctxC 0)); nt "rfc822Name" (implicit (call0 (chr "IA5String")) (ctxS 1)); nt "dNSName" (implicit (call0 (chr "IA5String")) (ctxS 2)); nt "x400Address" (implicit (new "ORAddress") (ctxS 3)); nt "directoryName" (implicit (new "Name") (ctxC 4)); nt "ediPartyName" (implicit (new "EDIPartyName") (ctxC 5)); nt "uniformResourceIdentifier" (implicit (call0 (chr "IA5String")) (ctxS 6)); nt "iPAddress" (implicit (call0 (univ "OctetString")) (ctxS 7)); nt "registeredID" (implicit (call0 (univ "ObjectIdentifier")) (ctxS 8))]));
  (1137%N, SClass "BaseDistance" (univ "Integer") [SPass]);
  (1141%N, seta "BaseDistance" "subtypeSpec" (rangec (EInt 0) (EName "MAX")));
  (1144%N, SClass "GeneralSubtree" (univ "Sequence") [SPass]);
  (1148%N, seta "GeneralSubtree" "componentType" (nts [nt "base" (new "GeneralName"); dnt "minimum" (withvalue (implicit (new "BaseDistance") (ctxS 0)) (EInt 0)); ont "maximum" (implicit (new "BaseDistance") (ctxS 1))]));
  (1157%N, SClass "GeneralNames" (univ "SequenceOf") [SPass]);
  (1161%N, seta "GeneralNames" "componentType" (new "GeneralName"));
  (1162%N, seta "GeneralNames" "sizeSpec" (sizec (EInt 1) (EName "MAX")));
  (1165%N, SClass "DistributionPointName" (univ "Choice") [SPass]);
  (1169%N, seta "DistributionPointName" "componentType" (nts [nt "fullName" (implicit (new "GeneralNames") (ctxS 0)); nt "nameRelativeToCRLIssuer" (implicit (new "RelativeDistinguishedName") (ctxS 1))]));
  (1177%N, SClass "ReasonFlags" (univ "BitString") [SPass]);
  (1181%N, seta "ReasonFlags" "namedValues" (nvs [nv "unused" 0; nv "keyCompromise" 1; nv "cACompromise" 2; nv "affiliationChanged" 3; nv "superseded" 4; nv "cessationOfOperation" 5; nv "certificateHold" 6; nv "privilegeWithdrawn" 7; nv "aACompromise" 8]));
  (1194%N, SClass "IssuingDistributionPoint" (univ "Sequence") [SPass]);
  (1198%N, seta "IssuingDistributionPoint" "componentType" (nts [ont "distributionPoint" (implicit (new "DistributionPointName") (ctxC 0)); dnt "onlyContainsUserCerts" (withvalue (implicit (call0 (univ "Boolean")) (ctxS 1)) (EInt 0)); dnt "onlyContainsCACerts" (withvalue (implicit (call0 (univ "Boolean")) (ctxS 2)) (EInt 0)); ont "onlySomeReasons" (implicit (new "ReasonFlags") (ctxS 3)); dnt "indirectCRL" (withvalue (implicit (call0 (univ "Boolean")) (ctxS 4)) (EInt 0)); dnt "onlyContainsAttributeCerts" (withvalue (implicit (call0 (univ "Boolean")) (ctxS 5)) (EInt 0))]));
  (1213%N, set "id_ce_certificatePolicies" (call (EName "_buildOid") [EName "id_ce"; EInt 32]));
  (1215%N, set "id_kp_emailProtection" (call (EName "_buildOid") [EName "id_kp"; EInt 4]));
  (1218%N, SClass "AccessDescription" (univ "Sequence") [SPass]);
  (1222%N, seta "AccessDescription" "componentType" (nts [nt "accessMethod" (call0 (univ "ObjectIdentifier")); nt "accessLocation" (new "GeneralName")]));
  (1228%N, SClass "IssuerAltName" (EName "GeneralNames") [SPass]);
  (1232%N, set "id_ce_cRLDistributionPoints" (call (EName "_buildOid") [EName "id_ce"; EInt 31]));
  (1234%N, set "holdInstruction" (call (EName "_buildOid") [EInt 2; EInt 2; EInt 840; EInt 10040; EInt 2]));
  (1236%N, set "id_holdinstruction_callissuer" (call (EName "_buildOid") [EName "holdInstruction"; EInt 2]));
  (1238%N, set "id_ce_subjectDirectoryAttributes" (call (EName "_buildOid") [EName "id_ce"; EInt 9]));
  (1240%N, set "id_ce_issuingDistributionPoint" (call (EName "_buildOid") [EName "id_ce"; EInt 28]));
  (1243%N, SClass "DistributionPoint" (univ "Sequence") [SPass]);
  (1247%N, seta "DistributionPoint" "componentType" (nts [ont "distributionPoint" (implicit (new "DistributionPointName") (ctxC 0)); ont "reasons" (implicit (new "ReasonFlags") (ctxS 1)); ont "cRLIssuer" (implicit (new "GeneralNames") (ctxS 2))]));
  (1257%N, SClass "CRLDistributionPoints" (univ "SequenceOf") [SPass]);
  (1261%N, seta "CRLDistributionPoints" "componentType" (new "DistributionPoint"));
  (1262%N, seta "CRLDistributionPoints" "sizeSpec" (sizec (EInt 1) (EName "MAX")));
  (1265%N, SClass "GeneralSubtrees" (univ "SequenceOf") [SPass]);
  (1269%N, seta "GeneralSubtrees" "componentType" (new "GeneralSubtree"));
  (1270%N, seta "GeneralSubtrees" "sizeSpec" (sizec (EInt 1) (EName "MAX")));
  (1273%N, SClass "NameConstraints" (univ "Sequence") [SPass]);
  (1277%N, seta "NameConstraints" "componentType" (nts [ont "permittedSubtrees" (implicit (new "GeneralSubtrees") (ctxS 0)); ont "excludedSubtrees" (implicit (new "GeneralSubtrees") (ctxS 1))]));
  (1285%N, SClass "SubjectDirectoryAttributes" (univ "SequenceOf") [SPass]);
  (1289%N, seta "SubjectDirectoryAttributes" "componentType" (new "Attribute"));
  (1290%N, seta "SubjectDirectoryAttributes" "sizeSpec" (sizec (EInt 1) (EName "MAX")));
  (1292%N, set "id_kp_OCSPSigning" (call (EName "_buildOid") [EName "id_kp"; EInt 9]));
  (1294%N, set "id_kp_timeStamping" (call (EName "_buildOid") [EName "id_kp"; EInt 8]));
  (1297%N, SClass "DisplayText" (univ "Choice") [SPass]);
  (1301%N, seta "DisplayText" "componentType" (nts [nt "ia5String" (withspec (call0 (chr "IA5String")) (sizec (EInt 1) (EInt 200))); nt "visibleString" (withspec (call0 (chr "VisibleString")) (sizec (EInt 1) (EInt 200))); nt "bmpString" (withspec (call0 (chr "BMPString")) (sizec (EInt 1) (EInt 200))); nt "utf8String" (withspec (call0 (chr "UTF8String")) (sizec (EInt 1) (EInt 200)))]));
  (1310%N, SClass "NoticeReference" (univ "Sequence") [SPass]);
  (1314%N, seta "NoticeReference" "componentType" (nts [nt "organization" (new "DisplayText"); nt "noticeNumbers" (ECall (univ "SequenceOf") [] [("componentType", call0 (univ "Integer"))])]));
  (1320%N, SClass "UserNotice" (univ "Sequence") [SPass]);
  (1324%N, seta "UserNotice" "componentType" (nts [ont "noticeRef" (new "NoticeReference"); ont "explicitText" (new "DisplayText")]));
  (1330%N, SClass "PolicyQualifierId" (univ "ObjectIdentifier") [SPass]);
  (1334%N, set "policyQualifierInfoMap" (EDict []));
  (1339%N, SClass "PolicyQualifierInfo" (univ "Sequence") [set "componentType" (nts [nt "policyQualifierId" (new "PolicyQualifierId"); ECall (qual "namedtype" "NamedType") [EStr "qualifier"; call0 (univ "Any")] [("openType", call (qual "opentype" "OpenType") [EStr "policyQualifierId"; EName "policyQualifierInfoMap"])]])]);
  (1349%N, SClass "CertPolicyId" (univ "ObjectIdentifier") [SPass]);
  (1353%N, SClass "PolicyInformation" (univ "Sequence") [SPass]);
  (1357%N, seta "PolicyInformation" "componentType" (nts [nt "policyIdentifier" (new "CertPolicyId"); ont "policyQualifiers" (ECall (univ "SequenceOf") [] [("componentType", new "PolicyQualifierInfo")])]));
  (1363%N, SClass "CertificatePolicies" (univ "SequenceOf") [SPass]);
  (1367%N, seta "CertificatePolicies" "componentType" (new "PolicyInformation"));
  (1368%N, seta "CertificatePolicies" "sizeSpec" (sizec (EInt 1) (EName "MAX")));
  (1371%N, SClass "SubjectAltName" (EName "GeneralNames") [SPass]);
  (1375%N, set "id_ce_basicConstraints" (call (EName "_buildOid") [EName "id_ce"; EInt 19]));
  (1377%N, set "id_ce_authorityKeyIdentifier" (call (EName "_buildOid") [EName "id_ce"; EInt 35]));
  (1379%N, set "id_kp_codeSigning" (call (EName "_buildOid") [EName "id_kp"; EInt 3]));
  (1382%N, SClass "BasicConstraints" (univ "Sequence") [SPass]);
  (1386%N, seta "BasicConstraints" "componentType" (nts [dnt "cA" (withvalue (call0 (univ "Boolean")) (EInt 0)); ont "pathLenConstraint" (withspec (call0 (univ "Integer")) (rangec (EInt 0) (EName "MAX")))]));
  (1392%N, set "id_ce_certificateIssuer" (call (EName "_buildOid") [EName "id_ce"; EInt 29]));
  (1395%N, SClass "PolicyMappings" (univ "SequenceOf") [SPass]);
  (1399%N, seta "PolicyMappings" "componentType" (ECall (univ "Sequence") [] [("componentType", nts [nt "issuerDomainPolicy" (new "CertPolicyId"); nt "subjectDomainPolicy" (new "CertPolicyId")])]));
  (1406%N, seta "PolicyMappings" "sizeSpec" (sizec (EInt 1) (EName "MAX")));
  (1409%N, SClass "InhibitAnyPolicy" (EName "SkipCerts") [SPass]);
  (1413%N, set "anyPolicy" (call (EName "_buildOid") [EName "id_ce_certificatePolicies"; EInt 0]));
  (1416%N, SClass "CRLNumber" (univ "Integer") [SPass]);
  (1420%N, seta "CRLNumber" "subtypeSpec" (rangec (EInt 0) (EName "MAX")));
  (1423%N, SClass "BaseCRLNumber" (EName "CRLNumber") [SPass]);
  (1427%N, set "id_ce_nameConstraints" (call (EName "_buildOid") [EName "id_ce"; EInt 30]));
  (1429%N, set "id_kp_serverAuth" (call (EName "_buildOid") [EName "id_kp"; EInt 1]));
  (1431%N, set "id_ce_freshestCRL" (call (EName "_buildOid") [EName "id_ce"; EInt 46]));
  (1433%N, set "id_ce_cRLReasons" (call (EName "_buildOid") [EName "id_ce"; EInt 21]));
  (1435%N, set "id_ce_extKeyUsage" (call (EName "_buildOid") [EName "id_ce"; EInt 37]));
  (1438%N, SClass "KeyIdentifier" (univ "OctetString") [SPass]);
  (1442%N, SClass "AuthorityKeyIdentifier" (univ "Sequence") [SPass]);
  (1446%N, seta "AuthorityKeyIdentifier" "componentType" (nts [ont "keyIdentifier" (implicit (new "KeyIdentifier") (ctxS 0)); ont "authorityCertIssuer" (implicit (new "GeneralNames") (ctxS 1)); ont "authorityCertSerialNumber" (implicit (new "CertificateSerialNumber") (ctxS 2))]));
  (1456%N, SClass "FreshestCRL" (EName "CRLDistributionPoints") [SPass]);
  (1460%N, set "id_ce_policyConstraints" (call (EName "_buildOid") [EName "id_ce"; EInt 36]));
  (1462%N, set "id_pe_authorityInfoAccess" (call (EName "_buildOid") [EName "id_pe"; EInt 1]));
  (1465%N, SClass "AuthorityInfoAccessSyntax" (univ "SequenceOf") [SPass]);
  (1469%N, seta "AuthorityInfoAccessSyntax" "componentType" (new "AccessDescription"));
  (1470%N, seta "AuthorityInfoAccessSyntax" "sizeSpec" (sizec (EInt 1) (EName "MAX")));
  (1472%N, set "id_holdinstruction_none" (call (EName "_buildOid") [EName "holdInstruction"; EInt 1]));
  (1475%N, SClass "CPSuri" (chr "IA5String") [SPass]);
  (1479%N, set "id_pe_subjectInfoAccess" (call (EName "_buildOid") [EName "id_pe"; EInt 11]));
  (1482%N, SClass "SubjectKeyIdentifier" (EName "KeyIdentifier") [SPass]);
  (1486%N, set "id_ce_subjectAltName" (call (EName "_buildOid") [EName "id_ce"; EInt 17]));
  (1489%N, SClass "KeyPurposeId" (univ "ObjectIdentifier") [SPass]);
  (1493%N, SClass "ExtKeyUsageSyntax" (univ "SequenceOf") [SPass]);
  (1497%N, seta "ExtKeyUsageSyntax" "componentType" (new "KeyPurposeId"));
  (1498%N, seta "ExtKeyUsageSyntax" "sizeSpec" (sizec (EInt 1) (EName "MAX")));
  (1501%N, SClass "HoldInstructionCode" (univ "ObjectIdentifier") [SPass]);
  (1505%N, set "id_ce_deltaCRLIndicator" (call (EName "_buildOid") [EName "id_ce"; EInt 27]));
  (1507%N, set "id_ce_keyUsage" (call (EName "_buildOid") [EName "id_ce"; EInt 15]));
  (1509%N, set "id_ce_holdInstructionCode" (call (EName "_buildOid") [EName "id_ce"; EInt 23]));
  (1512%N, SClass "SubjectInfoAccessSyntax" (univ "SequenceOf") [SPass]);
  (1516%N, seta "SubjectInfoAccessSyntax" "componentType" (new "AccessDescription"));
  (1517%N, seta "SubjectInfoAccessSyntax" "sizeSpec" (sizec (EInt 1) (EName "MAX")));
  (1520%N, SClass "InvalidityDate" (useful "GeneralizedTime") [SPass]);
  (1524%N, SClass "KeyUsage" (univ "BitString") [SPass]);
  (1528%N, seta "KeyUsage" "namedValues" (nvs [nv "digitalSignature" 0; nv "nonRepudiation" 1; nv "keyEncipherment" 2; nv "dataEncipherment" 3; nv "keyAgreement" 4; nv "keyCertSign" 5; nv "cRLSign" 6; nv "encipherOnly" 7; nv "decipherOnly" 8]));
  (1540%N, set "id_ce_invalidityDate" (call (EName "_buildOid") [EName "id_ce"; EInt 24]));
  (1542%N, set "id_ce_policyMappings" (call (EName "_buildOid") [EName "id_ce"; EInt 33]));
  (1544%N, set "anyExtendedKeyUsage" (call (EName "_buildOid") [EName "id_ce_extKeyUsage"; EInt 0]));
  (1546%N, set "id_ce_privateKeyUsagePeriod" (call (EName "_buildOid") [EName "id_ce"; EInt 16]));
  (1548%N, set "id_ce_cRLNumber" (call (EName "_buildOid") [EName "id_ce"; EInt 20]));
  (1551%N, SClass "CertificateIssuer" (EName "GeneralNames") [SPass]);
  (1555%N, set "id_holdinstruction_reject" (call (EName "_buildOid") [EName "holdInstruction"; EInt 3]));
  (1558%N, SClass "PolicyConstraints" (univ "Sequence") [SPass]);
  (1562%N, seta "PolicyConstraints" "componentType" (nts [ont "requireExplicitPolicy" (implicit (new "SkipCerts") (ctxS 0)); ont "inhibitPolicyMapping" (implicit (new "SkipCerts") (ctxS 1))]));
  (1569%N, set "id_kp_clientAuth" (call (EName "_buildOid") [EName "id_kp"; EInt 2]));
  (1571%N, set "id_ce_subjectKeyIdentifier" (call (EName "_buildOid") [EName "id_ce"; EInt 14]));
  (1573%N, set "id_ce_inhibitAnyPolicy" (call (EName "_buildOid") [EName "id_ce"; EInt 54]));
  (1577%N, set "_oraddressExtensionAttributeMapUpdate" (EDict [(EName "common_name", new "CommonName"); (EName "teletex_common_name", new "TeletexCommonName"); (EName "teletex_organization_name", new "TeletexOrganizationName"); (EName "teletex_personal_name", new "TeletexPersonalName"); (EName "teletex_organizational_unit_names", new "TeletexOrganizationalUnitNames"); (EName "pds_name", new "PDSName"); (EName "physical_delivery_country_name", new "PhysicalDeliveryCountryName"); (EName "postal_code", new "PostalCode"); (EName "physical_delivery_office_name", new "PhysicalDeliveryOfficeName"); (EName "physical_delivery_office_number", new "PhysicalDeliveryOfficeNumber"); (EName "extension_OR_address_components", new "ExtensionORAddressComponents"); (EName "physical_delivery_personal_name", new "PhysicalDeliveryPersonalName"); (EName "physical_delivery_organization_name", new "PhysicalDeliveryOrganizationName"); (EName "extension_physical_delivery_address_components", new "ExtensionPhysicalDeliveryAddressComponents"); (EName "unformatted_postal_address", new "UnformattedPostalAddress"); (EName "street_address", new "StreetAddress"); (EName "post_office_box_address", new "PostOfficeBoxAddress"); (EName "poste_restante_address", new "PosteRestanteAddress"); (EName "unique_postal_name", new "UniquePostalName"); (EName "local_postal_attributes", new "LocalPostalAttributes"); (EName "extended_network_address", new "ExtendedNetworkAddress"); (EName "terminal_type", new "TerminalType"); (EName "teletex_domain_defined_attributes", new "TeletexDomainDefinedAttributes")]));
  (1603%N, SExpr (call (qual "oraddressExtensionAttributeMap" "update") [EName "_oraddressExtensionAttributeMapUpdate"]));
  (1608%N, set "_certificateAttributesMapUpdate" (EDict [(EName "id_at_name", new "X520name"); (EName "id_at_surname", new "X520name"); (EName "id_at_givenName", new "X520name"); (EName "id_at_initials", new "X520name"); (EName "id_at_generationQualifier", new "X520name"); (EName "id_at_commonName", new "X520CommonName"); (EName "id_at_localityName", new "X520LocalityName"); (EName "id_at_stateOrProvinceName", new "X520StateOrProvinceName"); (EName "id_at_organizationName", new "X520OrganizationName"); (EName "id_at_organizationalUnitName", new "X520OrganizationalUnitName"); (EName "id_at_title", new "X520Title"); (EName "id_at_dnQualifier", new "X520dnQualifier"); (EName "id_at_countryName", new "X520countryName"); (EName "id_at_serialNumber", new "X520SerialNumber"); (EName "id_at_pseudonym", new "X520Pseudonym"); (EName "id_domainComponent", new "DomainComponent"); (EName "id_emailAddress", new "EmailAddress")]));
  (1628%N, SExpr (call (qual "certificateAttributesMap" "update") [EName "_certificateAttributesMapUpdate"]));
  (1633%N, set "_certificateExtensionsMap" (EDict [(EName "id_ce_authorityKeyIdentifier", new "AuthorityKeyIdentifier"); (EName "id_ce_subjectKeyIdentifier", new "SubjectKeyIdentifier"); (EName "id_ce_keyUsage", new "KeyUsage"); (EName "id_ce_privateKeyUsagePeriod", new "PrivateKeyUsagePeriod"); (EName "id_ce_certificatePolicies", new "CertificatePolicies"); (EName "id_ce_policyMappings", new "PolicyMappings"); (EName "id_ce_subjectAltName", new "SubjectAltName"); (EName "id_ce_issuerAltName", new "IssuerAltName"); (EName "id_ce_subjectDirectoryAttributes", new "SubjectDirectoryAttributes"); (EName "id_ce_basicConstraints", new "BasicConstraints"); (EName "id_ce_nameConstraints", new "NameConstraints"); (EName "id_ce_policyConstraints", new "PolicyConstraints"); (EName "id_ce_extKeyUsage", new "ExtKeyUsageSyntax"); (EName "id_ce_cRLDistributionPoints", new "CRLDistributionPoints"); (EName "id_pe_authorityInfoAccess", new "AuthorityInfoAccessSyntax"); (EName "id_ce_cRLNumber", call0 (univ "Integer")); (EName "id_ce_deltaCRLIndicator", new "BaseCRLNumber"); (EName "id_ce_issuingDistributionPoint", new "IssuingDistributionPoint"); (EName "id_ce_cRLReasons", new "CRLReason"); (EName "id_ce_holdInstructionCode", call0 (univ "ObjectIdentifier")); (EName "id_ce_invalidityDate", call0 (useful "GeneralizedTime")); (EName "id_ce_certificateIssuer", new "GeneralNames")]));
  (1658%N, SExpr (call (qual "certificateExtensionsMap" "update") [EName "_certificateExtensionsMap"]))
].
