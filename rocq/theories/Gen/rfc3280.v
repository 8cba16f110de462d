(** pyasn1_modules/rfc3280.py, printed by tools/py2coq.py.  Every statement is
    preceded by its line number in that file. *)
From Verif Require Import Py.Syntax.
From Coq Require Import List String ZArith NArith.
Import ListNotations.
Open Scope string_scope.
Open Scope Z_scope.

Definition src : module := [
  (15%N, SFrom "pyasn1.type" [("char", "char")]);
  (16%N, SFrom "pyasn1.type" [("constraint", "constraint")]);
  (17%N, SFrom "pyasn1.type" [("namedtype", "namedtype")]);
  (18%N, SFrom "pyasn1.type" [("namedval", "namedval")]);
  (19%N, SFrom "pyasn1.type" [("tag", "tag")]);
  (20%N, SFrom "pyasn1.type" [("univ", "univ")]);
  (21%N, SFrom "pyasn1.type" [("useful", "useful")]);
  (23%N, set "MAX" (call (EName "float") [EStr "inf"]));
  (26%N, SDef "_OID" [] (Some "components") [set "output" (EList []); SFor "x" (call (EName "tuple") [EName "components"]) [SIf (call (EName "isinstance") [EName "x"; univ "ObjectIdentifier"]) [SExpr (call (qual "output" "extend") [call (EName "list") [EName "x"]])] [SExpr (call (qual "output" "append") [call (EName "int") [EName "x"]])]]; SReturn (call (univ "ObjectIdentifier") [EName "output"])]);
  (37%N, set "unformatted_postal_address" (call (univ "Integer") [EInt 16]));
  (39%N, set "ub_organizational_units" (call (univ "Integer") [EInt 4]));
  (41%N, set "ub_organizational_unit_name_length" (call (univ "Integer") [EInt 32]));
  (44%N, SClass "OrganizationalUnitName" (chr "PrintableString") [SPass]);
  (48%N, seta "OrganizationalUnitName" "subtypeSpec" (sizec (EInt 1) (EName "ub_organizational_unit_name_length")));
  (51%N, SClass "OrganizationalUnitNames" (univ "SequenceOf") [SPass]);
  (55%N, seta "OrganizationalUnitNames" "componentType" (new "OrganizationalUnitName"));
  (56%N, seta "OrganizationalUnitNames" "sizeSpec" (sizec (EInt 1) (EName "ub_organizational_units")));
  (59%N, SClass "AttributeType" (univ "ObjectIdentifier") [SPass]);
  (63%N, set "id_at" (call (EName "_OID") [EInt 2; EInt 5; EInt 4]));
  (65%N, set "id_at_name" (call (EName "_OID") [EName "id_at"; EInt 41]));
  (67%N, set "ub_pds_parameter_length" (call (univ "Integer") [EInt 30]));
  (70%N, SClass "PDSParameter" (univ "Set") [SPass]);
  (74%N, seta "PDSParameter" "componentType" (nts [ont "printable-string" (withspec (call0 (chr "PrintableString")) (sizec (EInt 1) (EName "ub_pds_parameter_length"))); ont "teletex-string" (withspec (call0 (chr "TeletexString")) (sizec (EInt 1) (EName "ub_pds_parameter_length")))]));
  (82%N, SClass "PhysicalDeliveryOrganizationName" (EName "PDSParameter") [SPass]);
  (86%N, set "ub_organization_name_length" (call (univ "Integer") [EInt 64]));
  (88%N, set "ub_domain_defined_attribute_type_length" (call (univ "Integer") [EInt 8]));
  (90%N, set "ub_domain_defined_attribute_value_length" (call (univ "Integer") [EInt 128]));
  (93%N, SClass "TeletexDomainDefinedAttribute" (univ "Sequence") [SPass]);
  (97%N, seta "TeletexDomainDefinedAttribute" "componentType" (nts [nt "type" (withspec (call0 (chr "TeletexString")) (sizec (EInt 1) (EName "ub_domain_defined_attribute_type_length"))); nt "value" (withspec (call0 (chr "TeletexString")) (sizec (EInt 1) (EName "ub_domain_defined_attribute_value_length")))]));
  (104%N, set "id_pkix" (call (EName "_OID") [EInt 1; EInt 3; EInt 6; EInt 1; EInt 5; EInt 5; EInt 7]));
  (106%N, set "id_qt" (call (EName "_OID") [EName "id_pkix"; EInt 2]));
  (109%N, SClass "PresentationAddress" (univ "Sequence") [SPass]);
  (113%N, seta "PresentationAddress" "componentType" (nts [ont "pSelector" (explicit (call0 (univ "OctetString")) (ctxS 0)); ont "sSelector" (explicit (call0 (univ "OctetString")) (ctxS 1)); ont "tSelector" (explicit (call0 (univ "OctetString")) (ctxS 2)); nt "nAddresses" (explicit (ECall (univ "SetOf") [] [("componentType", call0 (univ "OctetString"))]) (ctxS 3))]));
  (125%N, SClass "AlgorithmIdentifier" (univ "Sequence") [SPass]);
  (129%N, seta "AlgorithmIdentifier" "componentType" (nts [nt "algorithm" (call0 (univ "ObjectIdentifier")); ont "parameters" (call0 (univ "Any"))]));
  (135%N, SClass "UniqueIdentifier" (univ "BitString") [SPass]);
  (139%N, SClass "Extension" (univ "Sequence") [SPass]);
  (143%N, seta "Extension" "componentType" (nts [nt "extnID" (call0 (univ "ObjectIdentifier")); dnt "critical" (withvalue (call0 (univ "Boolean")) (EInt 0)); nt "extnValue" (call0 (univ "OctetString"))]));
  (150%N, SClass "Extensions" (univ "SequenceOf") [SPass]);
  (154%N, seta "Extensions" "componentType" (new "Extension"));
  (155%N, seta "Extensions" "sizeSpec" (sizec (EInt 1) (EName "MAX")));
  (158%N, SClass "CertificateSerialNumber" (univ "Integer") [SPass]);
  (162%N, SClass "SubjectPublicKeyInfo" (univ "Sequence") [SPass]);
  (166%N, seta "SubjectPublicKeyInfo" "componentType" (nts [nt "algorithm" (new "AlgorithmIdentifier"); nt "subjectPublicKey" (call0 (univ "BitString"))]));
  (172%N, SClass "Time" (univ "Choice") [SPass]);
  (176%N, seta "Time" "componentType" (nts [nt "utcTime" (call0 (useful "UTCTime")); nt "generalTime" (call0 (useful "GeneralizedTime"))]));
  (182%N, SClass "Validity" (univ "Sequence") [SPass]);
  (186%N, seta "Validity" "componentType" (nts [nt "notBefore" (new "Time"); nt "notAfter" (new "Time")]));
  (192%N, SClass "Version" (univ "Integer") [SPass]);
  (196%N, seta "Version" "namedValues" (nvs [nv "v1" 0; nv "v2" 1; nv "v3" 2]));
  (203%N, SClass "AttributeValue" (univ "Any") [SPass]);
  (207%N, SClass "AttributeTypeAndValue" (univ "Sequence") [SPass]);
  (211%N, seta "AttributeTypeAndValue" "componentType" (nts [nt "type" (new "AttributeType"); nt "value" (new "AttributeValue")]));
  (217%N, SClass "RelativeDistinguishedName" (univ "SetOf") [SPass]);
  (221%N, seta "RelativeDistinguishedName" "componentType" (new "AttributeTypeAndValue"));
  (222%N, seta "RelativeDistinguishedName" "sizeSpec" (sizec (EInt 1) (EName "MAX")));
  (225%N, SClass "RDNSequence" (univ "SequenceOf") [SPass]);
  (229%N, seta "RDNSequence" "componentType" (new "RelativeDistinguishedName"));
  (232%N, SClass "Name" (univ "Choice") [SPass]);
  (236%N, seta "Name" "componentType" (nts [nt "rdnSequence" (new "RDNSequence")]));
  (241%N, SClass "TBSCertificate" (univ "Sequence") [SPass]);
  (245%N, seta "TBSCertificate" "componentType" (nts [dnt "version" (withvalue (explicit (new "Version") (ctxS 0)) (EStr "v1")); nt "serialNumber" (new "CertificateSerialNumber"); nt "signature" (new "AlgorithmIdentifier"); nt "issuer" (new "Name"); nt "validity" (new "Validity"); nt "subject" (new "Name"); nt "subjectPublicKeyInfo" (new "SubjectPublicKeyInfo"); ont "issuerUniqueID" (implicit (new "UniqueIdentifier") (ctxS 1)); ont "subjectUniqueID" (implicit (new "UniqueIdentifier") (ctxS 2)); ont "extensions" (explicit (new "Extensions") (ctxS 3))]));
  (264%N, SClass "Certificate" (univ "Sequence") [SPass]);
  (268%N, seta "Certificate" "componentType" (nts [nt "tbsCertificate" (new "TBSCertificate"); nt "signatureAlgorithm" (new "AlgorithmIdentifier"); nt "signature" (call0 (univ "BitString"))]));
  (274%N, set "ub_surname_length" (call (univ "Integer") [EInt 40]));
  (277%N, SClass "TeletexOrganizationName" (chr "TeletexString") [SPass]);
  (281%N, seta "TeletexOrganizationName" "subtypeSpec" (sizec (EInt 1) (EName "ub_organization_name_length")));
  (283%N, set "ub_e163_4_sub_address_length" (call (univ "Integer") [EInt 40]));
  (285%N, set "teletex_common_name" (call (univ "Integer") [EInt 2]));
  (287%N, set "ub_country_name_alpha_length" (call (univ "Integer") [EInt 2]));
  (289%N, set "ub_country_name_numeric_length" (call (univ "Integer") [EInt 3]));
  (292%N, SClass "CountryName" (univ "Choice") [SPass]);
  (296%N, seta "CountryName" "tagSet" (call (EAttr (EAttr (univ "Choice") "tagSet") "tagExplicitly") [appC 1]));
  (297%N, seta "CountryName" "componentType" (nts [nt "x121-dcc-code" (withspec (call0 (chr "NumericString")) (sizec (EName "ub_country_name_numeric_length") (EName "ub_country_name_numeric_length"))); nt "iso-3166-alpha2-code" (withspec (call0 (chr "PrintableString")) (sizec (EName "ub_country_name_alpha_length") (EName "ub_country_name_alpha_length")))]));
  (304%N, set "extension_OR_address_components" (call (univ "Integer") [EInt 12]));
  (306%N, set "id_at_dnQualifier" (call (EName "_OID") [EName "id_at"; EInt 46]));
  (308%N, set "ub_e163_4_number_length" (call (univ "Integer") [EInt 15]));
  (311%N, SClass "ExtendedNetworkAddress" (univ "Choice") [SPass]);
  (315%N, seta "ExtendedNetworkAddress" "componentType" (nts [nt "e163-4-address" (ECall (univ "Sequence") [] [("componentType", nts [nt "number" (implicit (withspec (call0 (chr "NumericString")) (sizec (EInt 1) (EName "ub_e163_4_number_length"))) (ctxS 0)); ont "sub-address" (implicit (withspec (call0 (chr "NumericString")) (sizec (EInt 1) (EName "ub_e163_4_sub_address_length"))) (ctxS 1))])]); nt "psap-address" (implicit (new "PresentationAddress") (ctxC 0))]));
  (329%N, set "terminal_type" (call (univ "Integer") [EInt 23]));
  (331%N, set "id_domainComponent" (call (EName "_OID") [EInt 0; EInt 9; EInt 2342; EInt 19200300; EInt 100; EInt 1; EInt 25]));
  (333%N, set "ub_state_name" (call (univ "Integer") [EInt 128]));
  (336%N, SClass "X520StateOrProvinceName" (univ "Choice") [SPass]);
  (340%N, seta "X520StateOrProvinceName" "componentType" (nts [nt "teletexString" (withspec (call0 (chr "TeletexString")) (sizec (EInt 1) (EName "ub_state_name"))); nt "printableString" (withspec (call0 (chr "PrintableString")) (sizec (EInt 1) (EName "ub_state_name"))); nt "universalString" (withspec (call0 (chr "UniversalString")) (sizec (EInt 1) (EName "ub_state_name"))); nt "utf8String" (withspec (call0 (chr "UTF8String")) (sizec (EInt 1) (EName "ub_state_name"))); nt "bmpString" (withspec (call0 (chr "BMPString")) (sizec (EInt 1) (EName "ub_state_name")))]));
  (353%N, set "ub_organization_name" (call (univ "Integer") [EInt 64]));
  (356%N, SClass "X520OrganizationName" (univ "Choice") [SPass]);
  (360%N, seta "X520OrganizationName" "componentType" (nts [nt "teletexString" (withspec (call0 (chr "TeletexString")) (sizec (EInt 1) (EName "ub_organization_name"))); nt "printableString" (withspec (call0 (chr "PrintableString")) (sizec (EInt 1) (EName "ub_organization_name"))); nt "universalString" (withspec (call0 (chr "UniversalString")) (sizec (EInt 1) (EName "ub_organization_name"))); nt "utf8String" (withspec (call0 (chr "UTF8String")) (sizec (EInt 1) (EName "ub_organization_name"))); nt "bmpString" (withspec (call0 (chr "BMPString")) (sizec (EInt 1) (EName "ub_organization_name")))]));
  (373%N, set "ub_emailaddress_length" (call (univ "Integer") [EInt 128]));
  (376%N, SClass "ExtensionPhysicalDeliveryAddressComponents" (EName "PDSParameter") [SPass]);
  (380%N, set "id_at_surname" (call (EName "_OID") [EName "id_at"; EInt 4]));
  (382%N, set "ub_common_name_length" (call (univ "Integer") [EInt 64]));
  (384%N, set "id_ad" (call (EName "_OID") [EName "id_pkix"; EInt 48]));
  (386%N, set "ub_numeric_user_id_length" (call (univ "Integer") [EInt 32]));
  (389%N, SClass "NumericUserIdentifier" (chr "NumericString") [SPass]);
  (393%N, seta "NumericUserIdentifier" "subtypeSpec" (sizec (EInt 1) (EName "ub_numeric_user_id_length")));
  (396%N, SClass "OrganizationName" (chr "PrintableString") [SPass]);
  (400%N, seta "OrganizationName" "subtypeSpec" (sizec (EInt 1) (EName "ub_organization_name_length")));
  (402%N, set "ub_domain_name_length" (call (univ "Integer") [EInt 16]));
  (405%N, SClass "AdministrationDomainName" (univ "Choice") [SPass]);
  (409%N, seta "AdministrationDomainName" "tagSet" (call (EAttr (EAttr (univ "Choice") "tagSet") "tagExplicitly") [appC 2]));
  (411%N, seta "AdministrationDomainName" "componentType" (nts [nt "numeric" (withspec (call0 (chr "NumericString")) (sizec (EInt 0) (EName "ub_domain_name_length"))); nt "printable" (withspec (call0 (chr "PrintableString")) (sizec (EInt 0) (EName "ub_domain_name_length")))]));
  (419%N, SClass "PrivateDomainName" (univ "Choice") [SPass]);
  (423%N, seta "PrivateDomainName" "componentType" (nts [nt "numeric" (withspec (call0 (chr "NumericString")) (sizec (EInt 1) (EName "ub_domain_name_length"))); nt "printable" (withspec (call0 (chr "PrintableString")) (sizec (EInt 1) (EName "ub_domain_name_length")))]));
  (430%N, set "ub_generation_qualifier_length" (call (univ "Integer") [EInt 3]));
  (432%N, set "ub_given_name_length" (call (univ "Integer") [EInt 16]));
  (434%N, set "ub_initials_length" (call (univ "Integer") [EInt 5]));
  (437%N, SClass "PersonalName" (univ "Set") [SPass]);
  (441%N, seta "PersonalName" "componentType" (nts [nt "surname" (implicit (withspec (call0 (chr "PrintableString")) (sizec (EInt 1) (EName "ub_surname_length"))) (ctxS 0)); ont "given-name" (implicit (withspec (call0 (chr "PrintableString")) (sizec (EInt 1) (EName "ub_given_name_length"))) (ctxS 1)); ont "initials" (implicit (withspec (call0 (chr "PrintableString")) (sizec (EInt 1) (EName "ub_initials_length"))) (ctxS 2)); ont "generation-qualifier" (implicit (withspec (call0 (chr "PrintableString")) (sizec (EInt 1) (EName "ub_generation_qualifier_length"))) (ctxS 3))]));
  (456%N, set "ub_terminal_id_length" (call (univ "Integer") [EInt 24]));
  (459%N, SClass "TerminalIdentifier" (chr "PrintableString") [SPass]);
  (463%N, seta "TerminalIdentifier" "subtypeSpec" (sizec (EInt 1) (EName "ub_terminal_id_length")));
  (465%N, set "ub_x121_address_length" (call (univ "Integer") [EInt 16]));
  (468%N, SClass "X121Address" (chr "NumericString") [SPass]);
  (472%N, seta "X121Address" "subtypeSpec" (sizec (EInt 1) (EName "ub_x121_address_length")));
  (475%N, SClass "NetworkAddress" (EName "X121Address") [SPass]);
  (479%N, SClass "BuiltInStandardAttributes" (univ "Sequence") [SPass]);
  (483%N, seta "BuiltInStandardAttributes" "componentType" (nts [ont "country-name" (new "CountryName"); ont "administration-domain-name" (new "AdministrationDomainName"); ont "network-address" (implicit (new "NetworkAddress") (ctxS 0)); ont "terminal-identifier" (implicit (new "TerminalIdentifier") (ctxS 1)); ont "private-domain-name" (explicit (new "PrivateDomainName") (ctxC 2)); ont "organization-name" (implicit (new "OrganizationName") (ctxS 3)); ont "numeric-user-identifier" (implicit (new "NumericUserIdentifier") (ctxS 4)); ont "personal-name" (implicit (new "PersonalName") (ctxC 5)); ont "organizational-unit-names" (implicit (new "OrganizationalUnitNames") (ctxS 6))]));
  (502%N, set "ub_domain_defined_attributes" (call (univ "Integer") [EInt 4]));
  (505%N, SClass "BuiltInDomainDefinedAttribute" (univ "Sequence") [SPass]);
  (509%N, seta "BuiltInDomainDefinedAttribute" "componentType" (nts [nt "type" (withspec (call0 (chr "PrintableString")) (sizec (EInt 1) (EName "ub_domain_defined_attribute_type_length"))); nt "value" (withspec (call0 (chr "PrintableString")) (sizec (EInt 1) (EName "ub_domain_defined_attribute_value_length")))]));
  (517%N, SClass "BuiltInDomainDefinedAttributes" (univ "SequenceOf") [SPass]);
  (521%N, seta "BuiltInDomainDefinedAttributes" "componentType" (new "BuiltInDomainDefinedAttribute"));
  (522%N, seta "BuiltInDomainDefinedAttributes" "sizeSpec" (sizec (EInt 1) (EName "ub_domain_defined_attributes")));
  (524%N, set "ub_extension_attributes" (call (univ "Integer") [EInt 256]));
  (527%N, SClass "ExtensionAttribute" (univ "Sequence") [SPass]);
  (531%N, seta "ExtensionAttribute" "componentType" (nts [nt "extension-attribute-type" (implicit (withspec (call0 (univ "Integer")) (rangec (EInt 0) (EName "ub_extension_attributes"))) (ctxS 0)); nt "extension-attribute-value" (explicit (call0 (univ "Any")) (ctxS 1))]));
  (540%N, SClass "ExtensionAttributes" (univ "SetOf") [SPass]);
  (544%N, seta "ExtensionAttributes" "componentType" (new "ExtensionAttribute"));
  (545%N, seta "ExtensionAttributes" "sizeSpec" (sizec (EInt 1) (EName "ub_extension_attributes")));
  (548%N, SClass "ORAddress" (univ "Sequence") [SPass]);
  (552%N, seta "ORAddress" "componentType" (nts [nt "built-in-standard-attributes" (new "BuiltInStandardAttributes"); ont "built-in-domain-defined-attributes" (new "BuiltInDomainDefinedAttributes"); ont "extension-attributes" (new "ExtensionAttributes")]));
  (558%N, set "id_pe" (call (EName "_OID") [EName "id_pkix"; EInt 1]));
  (560%N, set "ub_title" (call (univ "Integer") [EInt 64]));
  (563%N, SClass "X520Title" (univ "Choice") [SPass]);
  (567%N, seta "X520Title" "componentType" (nts [nt "teletexString" (withspec (call0 (chr "TeletexString")) (sizec (EInt 1) (EName "ub_title"))); nt "printableString" (withspec (call0 (chr "PrintableString")) (sizec (EInt 1) (EName "ub_title"))); nt "universalString" (withspec (call0 (chr "UniversalString")) (sizec (EInt 1) (EName "ub_title"))); nt "utf8String" (withspec (call0 (chr "UTF8String")) (sizec (EInt 1) (EName "ub_title"))); nt "bmpString" (withspec (call0 (chr "BMPString")) (sizec (EInt 1) (EName "ub_title")))]));
  (579%N, set "id_at_organizationalUnitName" (call (EName "_OID") [EName "id_at"; EInt 11]));
  (582%N, SClass "EmailAddress" (chr "IA5String") [SPass]);
  (586%N, seta "EmailAddress" "subtypeSpec" (sizec (EInt 1) (EName "ub_emailaddress_length")));
  (588%N, set "physical_delivery_country_name" (call (univ "Integer") [EInt 8]));
  (590%N, set "id_at_givenName" (call (EName "_OID") [EName "id_at"; EInt 42]));
  (593%N, SClass "TeletexCommonName" (chr "TeletexString") [SPass]);
  (597%N, seta "TeletexCommonName" "subtypeSpec" (sizec (EInt 1) (EName "ub_common_name_length")));
  (599%N, set "id_qt_cps" (call (EName "_OID") [EName "id_qt"; EInt 1]));
  (602%N, SClass "LocalPostalAttributes" (EName "PDSParameter") [SPass]);
  (606%N, SClass "StreetAddress" (EName "PDSParameter") [SPass]);
  (610%N, set "id_kp" (call (EName "_OID") [EName "id_pkix"; EInt 3]));
  (613%N, SClass "DirectoryString" (univ "Choice") [SPass]);
  (617%N, seta "DirectoryString" "componentType" (nts [nt "teletexString" (withspec (call0 (chr "TeletexString")) (sizec (EInt 1) (EName "MAX"))); nt "printableString" (withspec (call0 (chr "PrintableString")) (sizec (EInt 1) (EName "MAX"))); nt "universalString" (withspec (call0 (chr "UniversalString")) (sizec (EInt 1) (EName "MAX"))); nt "utf8String" (withspec (call0 (chr "UTF8String")) (sizec (EInt 1) (EName "MAX"))); nt "bmpString" (withspec (call0 (chr "BMPString")) (sizec (EInt 1) (EName "MAX")))]));
  (629%N, SClass "DomainComponent" (chr "IA5String") [SPass]);
  (633%N, set "id_at_initials" (call (EName "_OID") [EName "id_at"; EInt 43]));
  (635%N, set "id_qt_unotice" (call (EName "_OID") [EName "id_qt"; EInt 2]));
  (637%N, set "ub_pds_name_length" (call (univ "Integer") [EInt 16]));
  (640%N, SClass "PDSName" (chr "PrintableString") [SPass]);
  (644%N, seta "PDSName" "subtypeSpec" (sizec (EInt 1) (EName "ub_pds_name_length")));
  (647%N, SClass "PosteRestanteAddress" (EName "PDSParameter") [SPass]);
  (651%N, SClass "DistinguishedName" (EName "RDNSequence") [SPass]);
  (655%N, SClass "CommonName" (chr "PrintableString") [SPass]);
  (659%N, seta "CommonName" "subtypeSpec" (sizec (EInt 1) (EName "ub_common_name_length")));
  (661%N, set "ub_serial_number" (call (univ "Integer") [EInt 64]));
  (664%N, SClass "X520SerialNumber" (chr "PrintableString") [SPass]);
  (668%N, seta "X520SerialNumber" "subtypeSpec" (sizec (EInt 1) (EName "ub_serial_number")));
  (670%N, set "id_at_generationQualifier" (call (EName "_OID") [EName "id_at"; EInt 44]));
  (672%N, set "ub_organizational_unit_name" (call (univ "Integer") [EInt 64]));
  (674%N, set "id_ad_ocsp" (call (EName "_OID") [EName "id_ad"; EInt 1]));
  (677%N, SClass "TeletexOrganizationalUnitName" (chr "TeletexString") [SPass]);
  (681%N, seta "TeletexOrganizationalUnitName" "subtypeSpec" (sizec (EInt 1) (EName "ub_organizational_unit_name_length")));
  (684%N, SClass "TeletexPersonalName" (univ "Set") [SPass]);
  (688%N, seta "TeletexPersonalName" "componentType" (nts [nt "surname" (implicit (withspec (call0 (chr "TeletexString")) (sizec (EInt 1) (EName "ub_surname_length"))) (ctxS 0)); ont "given-name" (implicit (withspec (call0 (chr "TeletexString")) (sizec (EInt 1) (EName "ub_given_name_length"))) (ctxS 1)); ont "initials" (implicit (withspec (call0 (chr "TeletexString")) (sizec (EInt 1) (EName "ub_initials_length"))) (ctxS 2)); ont "generation-qualifier" (implicit (withspec (call0 (chr "TeletexString")) (sizec (EInt 1) (EName "ub_generation_qualifier_length"))) (ctxS 3))]));
  (704%N, SClass "TeletexDomainDefinedAttributes" (univ "SequenceOf") [SPass]);
  (708%N, seta "TeletexDomainDefinedAttributes" "componentType" (new "TeletexDomainDefinedAttribute"));
  (709%N, seta "TeletexDomainDefinedAttributes" "sizeSpec" (sizec (EInt 1) (EName "ub_domain_defined_attributes")));
  (712%N, SClass "TBSCertList" (univ "Sequence") [SPass]);
  (716%N, seta "TBSCertList" "componentType" (nts [ont "version" (new "Version"); nt "signature" (new "AlgorithmIdentifier"); nt "issuer" (new "Name"); nt "thisUpdate" (new "Time"); ont "nextUpdate" (new "Time"); ont "revokedCertificates" (ECall (univ "SequenceOf") [] [("componentType", ECall (univ "Sequence") [] [("componentType", nts [nt "userCertificate" (new "CertificateSerialNumber"); nt "revocationDate" (new "Time"); ont "crlEntryExtensions" (new "Extensions")])])]); ont "crlExtensions" (explicit (new "Extensions") (ctxS 0))]));
  (733%N, set "local_postal_attributes" (call (univ "Integer") [EInt 21]));
  (735%N, set "pkcs_9" (call (EName "_OID") [EInt 1; EInt 2; EInt 840; EInt 113549; EInt 1; EInt 9]));
  (738%N, SClass "PhysicalDeliveryCountryName" (univ "Choice") [SPass]);
  (742%N, seta "PhysicalDeliveryCountryName" "componentType" (nts [nt "x121-dcc-code" (withspec (call0 (chr "NumericString")) (sizec (EName "ub_country_name_numeric_length") (EName "ub_country_name_numeric_length"))); nt "iso-3166-alpha2-code" (withspec (call0 (chr "PrintableString")) (sizec (EName "ub_country_name_alpha_length") (EName "ub_country_name_alpha_length")))]));
  (749%N, set "ub_name" (call (univ "Integer") [EInt 32768]));
  (752%N, SClass "X520name" (univ "Choice") [SPass]);
  (756%N, seta "X520name" "componentType" (nts [nt "teletexString" (withspec (call0 (chr "TeletexString")) (sizec (EInt 1) (EName "ub_name"))); nt "printableString" (withspec (call0 (chr "PrintableString")) (sizec (EInt 1) (EName "ub_name"))); nt "universalString" (withspec (call0 (chr "UniversalString")) (sizec (EInt 1) (EName "ub_name"))); nt "utf8String" (withspec (call0 (chr "UTF8String")) (sizec (EInt 1) (EName "ub_name"))); nt "bmpString" (withspec (call0 (chr "BMPString")) (sizec (EInt 1) (EName "ub_name")))]));
  (768%N, set "id_emailAddress" (call (EName "_OID") [EName "pkcs_9"; EInt 1]));
  (771%N, SClass "TerminalType" (univ "Integer") [SPass]);
  (775%N, seta "TerminalType" "namedValues" (nvs [nv "telex" 3; nv "teletex" 4; nv "g3-facsimile" 5; nv "g4-facsimile" 6; nv "ia5-terminal" 7; nv "videotex" 8]));
  (785%N, SClass "X520OrganizationalUnitName" (univ "Choice") [SPass]);
  (789%N, seta "X520OrganizationalUnitName" "componentType" (nts [nt "teletexString" (withspec (call0 (chr "TeletexString")) (sizec (EInt 1) (EName "ub_organizational_unit_name"))); nt "printableString" (withspec (call0 (chr "PrintableString")) (sizec (EInt 1) (EName "ub_organizational_unit_name"))); nt "universalString" (withspec (call0 (chr "UniversalString")) (sizec (EInt 1) (EName "ub_organizational_unit_name"))); nt "utf8String" (withspec (call0 (chr "UTF8String")) (sizec (EInt 1) (EName "ub_organizational_unit_name"))); nt "bmpString" (withspec (call0 (chr "BMPString")) (sizec (EInt 1) (EName "ub_organizational_unit_name")))]));
  (802%N, set "id_at_commonName" (call (EName "_OID") [EName "id_at"; EInt 3]));
  (804%N, set "pds_name" (call (univ "Integer") [EInt 7]));
  (806%N, set "post_office_box_address" (call (univ "Integer") [EInt 18]));
  (808%N, set "ub_locality_name" (call (univ "Integer") [EInt 128]));
  (811%N, SClass "X520LocalityName" (univ "Choice") [SPass]);
  (815%N, seta "X520LocalityName" "componentType" (nts [nt "teletexString" (withspec (call0 (chr "TeletexString")) (sizec (EInt 1) (EName "ub_locality_name"))); nt "printableString" (withspec (call0 (chr "PrintableString")) (sizec (EInt 1) (EName "ub_locality_name"))); nt "universalString" (withspec (call0 (chr "UniversalString")) (sizec (EInt 1) (EName "ub_locality_name"))); nt "utf8String" (withspec (call0 (chr "UTF8String")) (sizec (EInt 1) (EName "ub_locality_name"))); nt "bmpString" (withspec (call0 (chr "BMPString")) (sizec (EInt 1) (EName "ub_locality_name")))]));
  (828%N, set "id_ad_timeStamping" (call (EName "_OID") [EName "id_ad"; EInt 3]));
  (830%N, set "id_at_countryName" (call (EName "_OID") [EName "id_at"; EInt 6]));
  (832%N, set "physical_delivery_personal_name" (call (univ "Integer") [EInt 13]));
  (834%N, set "teletex_personal_name" (call (univ "Integer") [EInt 4]));
  (836%N, set "teletex_organizational_unit_names" (call (univ "Integer") [EInt 5]));
  (839%N, SClass "PhysicalDeliveryPersonalName" (EName "PDSParameter") [SPass]);
  (843%N, set "ub_postal_code_length" (call (univ "Integer") [EInt 16]));
  (846%N, SClass "PostalCode" (univ "Choice") [SPass]);
  (850%N, seta "PostalCode" "componentType" (nts [nt "numeric-code" (withspec (call0 (chr "NumericString")) (sizec (EInt 1) (EName "ub_postal_code_length"))); nt "printable-code" (withspec (call0 (chr "PrintableString")) (sizec (EInt 1) (EName "ub_postal_code_length")))]));
  (858%N, SClass "X520countryName" (chr "PrintableString") [SPass]);
  (862%N, seta "X520countryName" "subtypeSpec" (sizec (EInt 2) (EInt 2)));
  (864%N, set "postal_code" (call (univ "Integer") [EInt 9]));
  (866%N, set "id_ad_caRepository" (call (EName "_OID") [EName "id_ad"; EInt 5]));
  (868%N, set "extension_physical_delivery_address_components" (call (univ "Integer") [EInt 15]));
  (871%N, SClass "PostOfficeBoxAddress" (EName "PDSParameter") [SPass]);
  (875%N, SClass "PhysicalDeliveryOfficeName" (EName "PDSParameter") [SPass]);
  (879%N, set "id_at_title" (call (EName "_OID") [EName "id_at"; EInt 12]));
  (881%N, set "id_at_serialNumber" (call (EName "_OID") [EName "id_at"; EInt 5]));
  (883%N, set "id_ad_caIssuers" (call (EName "_OID") [EName "id_ad"; EInt 2]));
  (885%N, set "ub_integer_options" (call (univ "Integer") [EInt 256]));
  (888%N, SClass "CertificateList" (univ "Sequence") [SPass]);
  (892%N, seta "CertificateList" "componentType" (nts [nt "tbsCertList" (new "TBSCertList"); nt "signatureAlgorithm" (new "AlgorithmIdentifier"); nt "signature" (call0 (univ "BitString"))]));
  (899%N, SClass "PhysicalDeliveryOfficeNumber" (EName "PDSParameter") [SPass]);
  (903%N, SClass "TeletexOrganizationalUnitNames" (univ "SequenceOf") [SPass]);
  (907%N, seta "TeletexOrganizationalUnitNames" "componentType" (new "TeletexOrganizationalUnitName"));
  (908%N, seta "TeletexOrganizationalUnitNames" "sizeSpec" (sizec (EInt 1) (EName "ub_organizational_units")));
  (910%N, set "physical_delivery_office_name" (call (univ "Integer") [EInt 10]));
  (912%N, set "ub_common_name" (call (univ "Integer") [EInt 64]));
  (915%N, SClass "ExtensionORAddressComponents" (EName "PDSParameter") [SPass]);
  (919%N, set "ub_pseudonym" (call (univ "Integer") [EInt 128]));
  (921%N, set "poste_restante_address" (call (univ "Integer") [EInt 19]));
  (923%N, set "id_at_organizationName" (call (EName "_OID") [EName "id_at"; EInt 10]));
  (925%N, set "physical_delivery_office_number" (call (univ "Integer") [EInt 11]));
  (927%N, set "id_at_pseudonym" (call (EName "_OID") [EName "id_at"; EInt 65]));
  (930%N, SClass "X520CommonName" (univ "Choice") [SPass]);
  (934%N, seta "X520CommonName" "componentType" (nts [nt "teletexString" (withspec (call0 (chr "TeletexString")) (sizec (EInt 1) (EName "ub_common_name"))); nt "printableString" (withspec (call0 (chr "PrintableString")) (sizec (EInt 1) (EName "ub_common_name"))); nt "universalString" (withspec (call0 (chr "UniversalString")) (sizec (EInt 1) (EName "ub_common_name"))); nt "utf8String" (withspec (call0 (chr "UTF8String")) (sizec (EInt 1) (EName "ub_common_name"))); nt "bmpString" (withspec (call0 (chr "BMPString")) (sizec (EInt 1) (EName "ub_common_name")))]));
  (947%N, set "physical_delivery_organization_name" (call (univ "Integer") [EInt 14]));
  (950%N, SClass "X520dnQualifier" (chr "PrintableString") [SPass]);
  (954%N, set "id_at_stateOrProvinceName" (call (EName "_OID") [EName "id_at"; EInt 8]));
  (956%N, set "common_name" (call (univ "Integer") [EInt 1]));
  (958%N, set "id_at_localityName" (call (EName "_OID") [EName "id_at"; EInt 7]));
  (960%N, set "ub_match" (call (univ "Integer") [EInt 128]));
  (962%N, set "ub_unformatted_address_length" (call (univ "Integer") [EInt 180]));
  (965%N, SClass "Attribute" (univ "Sequence") [SPass]);
  (969%N, seta "Attribute" "componentType" (nts [nt "type" (new "AttributeType"); nt "values" (ECall (univ "SetOf") [] [("componentType", new "AttributeValue")])]));
  (974%N, set "extended_network_address" (call (univ "Integer") [EInt 22]));
  (976%N, set "unique_postal_name" (call (univ "Integer") [EInt 20]));
  (978%N, set "ub_pds_physical_address_lines" (call (univ "Integer") [EInt 6]));
  (981%N, SClass "UnformattedPostalAddress" (univ "Set") [SPass]);
  (985%N, seta "UnformattedPostalAddress" "componentType" (nts [ont "printable-address" (ECall (univ "SequenceOf") [] [("componentType", withspec (call0 (chr "PrintableString")) (sizec (EInt 1) (EName "ub_pds_parameter_length")))]); ont "teletex-string" (withspec (call0 (chr "TeletexString")) (sizec (EInt 1) (EName "ub_unformatted_address_length")))]));
  (993%N, SClass "UniquePostalName" (EName "PDSParameter") [SPass]);
  (997%N, SClass "X520Pseudonym" (univ "Choice") [SPass]);
  (1001%N, seta "X520Pseudonym" "componentType" (nts [nt "teletexString" (withspec (call0 (chr "TeletexString")) (sizec (EInt 1) (EName "ub_pseudonym"))); nt "printableString" (withspec (call0 (chr "PrintableString")) (sizec (EInt 1) (EName "ub_pseudonym"))); nt "universalString" (withspec (call0 (chr "UniversalString")) (sizec (EInt 1) (EName "ub_pseudonym"))); nt "utf8String" (withspec (call0 (chr "UTF8String")) (sizec (EInt 1) (EName "ub_pseudonym"))); nt "bmpString" (withspec (call0 (chr "BMPString")) (sizec (EInt 1) (EName "ub_pseudonym")))]));
  (1014%N, set "teletex_organization_name" (call (univ "Integer") [EInt 3]));
  (1016%N, set "teletex_domain_defined_attributes" (call (univ "Integer") [EInt 6]));
  (1018%N, set "street_address" (call (univ "Integer") [EInt 17]));
  (1020%N, set "id_kp_OCSPSigning" (call (EName "_OID") [EName "id_kp"; EInt 9]));
  (1022%N, set "id_ce" (call (EName "_OID") [EInt 2; EInt 5; EInt 29]));
  (1024%N, set "id_ce_certificatePolicies" (call (EName "_OID") [EName "id_ce"; EInt 32]));
  (1027%N, SClass "EDIPartyName" (univ "Sequence") [SPass]);
  (1031%N, seta "EDIPartyName" "componentType" (nts [ont "nameAssigner" (implicit (new "DirectoryString") (ctxS 0)); nt "partyName" (implicit (new "DirectoryString") (ctxS 1))]));
  (1039%N, SClass "AnotherName" (univ "Sequence") [SPass]);
  (1043%N, seta "AnotherName" "componentType" (nts [nt "type-id" (call0 (univ "ObjectIdentifier")); nt "value" (explicit (call0 (univ "Any")) (ctxS 0))]));
  (1049%N, SClass "GeneralName" (univ "Choice") [SPass]);
  (1053%N, seta "GeneralName" "componentType" (nts [nt "otherName" (implicit (new "AnotherName") (ctxC 0)); nt "rfc822Name" (implicit (call0 (chr "IA5String")) (ctxS 1)); nt "dNSName" (implicit (call0 (chr "IA5String")) (ctxS 2)); nt "x400Address" (implicit (new "ORAddress") (ctxS 3)); nt "directoryName" (implicit (new "Name") (ctxC 4)); nt "ediPartyName" (implicit (new "EDIPartyName") (ctxC 5)); nt "uniformResourceIdentifier" (implicit (call0 (chr "IA5String")) (ctxS 6)); nt "iPAddress" (implicit (call0 (univ "OctetString")) (ctxS 7)); nt "registeredID" (implicit (call0 (univ "ObjectIdentifier")) (ctxS 8))]));
  (1075%N, SClass "GeneralNames" (univ "SequenceOf") [SPass]);
  (1079%N, seta "GeneralNames" "componentType" (new "GeneralName"));
  (1080%N, seta "GeneralNames" "sizeSpec" (sizec (EInt 1) (EName "MAX")));
  (1083%N, SClass "IssuerAltName" (EName "GeneralNames") [SPass]);
  (1087%N, set "id_ce_cRLDistributionPoints" (call (EName "_OID") [EName "id_ce"; EInt 31]));
  (1090%N, SClass "CertPolicyId" (univ "ObjectIdentifier") [SPass]);
  (1094%N, SClass "PolicyMappings" (univ "SequenceOf") [SPass]);
  (1098%N, seta "PolicyMappings" "componentType" (ECall (univ "Sequence") [] [("componentType", nts [nt "issuerDomainPolicy" (new "CertPolicyId"); nt "subjectDomainPolicy" (new "CertPolicyId")])]));
  (1103%N, seta "PolicyMappings" "sizeSpec" (sizec (EInt 1) (EName "MAX")));
  (1106%N, SClass "PolicyQualifierId" (univ "ObjectIdentifier") [SPass]);
  (1110%N, set "holdInstruction" (call (EName "_OID") [EInt 2; EInt 2; EInt 840; EInt 10040; EInt 2]));
  (1112%N, set "id_ce_subjectDirectoryAttributes" (call (EName "_OID") [EName "id_ce"; EInt 9]));
  (1114%N, set "id_holdinstruction_callissuer" (call (EName "_OID") [EName "holdInstruction"; EInt 2]));
  (1117%N, SClass "SubjectDirectoryAttributes" (univ "SequenceOf") [SPass]);
  (1121%N, seta "SubjectDirectoryAttributes" "componentType" (new "Attribute"));
  (1122%N, seta "SubjectDirectoryAttributes" "sizeSpec" (sizec (EInt 1) (EName "MAX")));
  (1124%N, set "anyPolicy" (call (EName "_OID") [EName "id_ce_certificatePolicies"; EInt 0]));
  (1126%N, set "id_ce_subjectAltName" (call (EName "_OID") [EName "id_ce"; EInt 17]));
  (1128%N, set "id_kp_emailProtection" (call (EName "_OID") [EName "id_kp"; EInt 4]));
  (1131%N, SClass "ReasonFlags" (univ "BitString") [SPass]);
  (1135%N, seta "ReasonFlags" "namedValues" (nvs [nv "unused" 0; nv "keyCompromise" 1; nv "cACompromise" 2; nv "affiliationChanged" 3; nv "superseded" 4; nv "cessationOfOperation" 5; nv "certificateHold" 6; nv "privilegeWithdrawn" 7; nv "aACompromise" 8]));
  (1148%N, SClass "DistributionPointName" (univ "Choice") [SPass]);
  (1152%N, seta "DistributionPointName" "componentType" (nts [nt "fullName" (implicit (new "GeneralNames") (ctxS 0)); nt "nameRelativeToCRLIssuer" (implicit (new "RelativeDistinguishedName") (ctxS 1))]));
  (1160%N, SClass "DistributionPoint" (univ "Sequence") [SPass]);
  (1164%N, seta "DistributionPoint" "componentType" (nts [ont "distributionPoint" (implicit (new "DistributionPointName") (ctxC 0)); ont "reasons" (implicit (new "ReasonFlags") (ctxS 1)); ont "cRLIssuer" (implicit (new "GeneralNames") (ctxS 2))]));
  (1173%N, set "id_ce_keyUsage" (call (EName "_OID") [EName "id_ce"; EInt 15]));
  (1176%N, SClass "PolicyQualifierInfo" (univ "Sequence") [SPass]);
  (1180%N, seta "PolicyQualifierInfo" "componentType" (nts [nt "policyQualifierId" (new "PolicyQualifierId"); nt "qualifier" (call0 (univ "Any"))]));
  (1186%N, SClass "PolicyInformation" (univ "Sequence") [SPass]);
  (1190%N, seta "PolicyInformation" "componentType" (nts [nt "policyIdentifier" (new "CertPolicyId"); ont "policyQualifiers" (ECall (univ "SequenceOf") [] [("componentType", new "PolicyQualifierInfo")])]));
  (1196%N, SClass "CertificatePolicies" (univ "SequenceOf") [SPass]);
  (1200%N, seta "CertificatePolicies" "componentType" (new "PolicyInformation"));
  (1201%N, seta "CertificatePolicies" "sizeSpec" (sizec (EInt 1) (EName "MAX")));
  (1203%N, set "id_ce_basicConstraints" (call (EName "_OID") [EName "id_ce"; EInt 19]));
  (1206%N, SClass "HoldInstructionCode" (univ "ObjectIdentifier") [SPass]);
  (1210%N, SClass "KeyPurposeId" (univ "ObjectIdentifier") [SPass]);
  (1214%N, SClass "ExtKeyUsageSyntax" (univ "SequenceOf") [SPass]);
  (1218%N, seta "ExtKeyUsageSyntax" "componentType" (new "KeyPurposeId"));
  (1219%N, seta "ExtKeyUsageSyntax" "sizeSpec" (sizec (EInt 1) (EName "MAX")));
  (1222%N, SClass "SubjectAltName" (EName "GeneralNames") [SPass]);
  (1226%N, SClass "BasicConstraints" (univ "Sequence") [SPass]);
  (1230%N, seta "BasicConstraints" "componentType" (nts [dnt "cA" (withvalue (call0 (univ "Boolean")) (EInt 0)); ont "pathLenConstraint" (withspec (call0 (univ "Integer")) (rangec (EInt 0) (EName "MAX")))]));
  (1237%N, SClass "SkipCerts" (univ "Integer") [SPass]);
  (1241%N, seta "SkipCerts" "subtypeSpec" (rangec (EInt 0) (EName "MAX")));
  (1244%N, SClass "InhibitAnyPolicy" (EName "SkipCerts") [SPass]);
  (1248%N, SClass "CRLNumber" (univ "Integer") [SPass]);
  (1252%N, seta "CRLNumber" "subtypeSpec" (rangec (EInt 0) (EName "MAX")));
  (1255%N, SClass "BaseCRLNumber" (EName "CRLNumber") [SPass]);
  (1259%N, SClass "KeyIdentifier" (univ "OctetString") [SPass]);
  (1263%N, SClass "AuthorityKeyIdentifier" (univ "Sequence") [SPass]);
  (1267%N, seta "AuthorityKeyIdentifier" "componentType" (nts [ont "keyIdentifier" (implicit (new "KeyIdentifier") (ctxS 0)); ont "authorityCertIssuer" (implicit (new "GeneralNames") (ctxS 1)); ont "authorityCertSerialNumber" (implicit (new "CertificateSerialNumber") (ctxS 2))]));
  (1276%N, set "id_ce_nameConstraints" (call (EName "_OID") [EName "id_ce"; EInt 30]));
  (1278%N, set "id_kp_serverAuth" (call (EName "_OID") [EName "id_kp"; EInt 1]));
  (1280%N, set "id_ce_freshestCRL" (call (EName "_OID") [EName "id_ce"; EInt 46]));
  (1282%N, set "id_ce_cRLReasons" (call (EName "_OID") [EName "id_ce"; EInt 21]));
  (1285%N, SClass "CRLDistributionPoints" (univ "SequenceOf") [SPass]);
  (1289%N, seta "CRLDistributionPoints" "componentType" (new "DistributionPoint"));
  (1290%N, seta "CRLDistributionPoints" "sizeSpec" (sizec (EInt 1) (EName "MAX")));
  (1293%N, SClass "FreshestCRL" (EName "CRLDistributionPoints") [SPass]);
  (1297%N, set "id_ce_inhibitAnyPolicy" (call (EName "_OID") [EName "id_ce"; EInt 54]));
  (1300%N, SClass "CRLReason" (univ "Enumerated") [SPass]);
  (1304%N, seta "CRLReason" "namedValues" (nvs [nv "unspecified" 0; nv "keyCompromise" 1; nv "cACompromise" 2; nv "affiliationChanged" 3; nv "superseded" 4; nv "cessationOfOperation" 5; nv "certificateHold" 6; nv "removeFromCRL" 8; nv "privilegeWithdrawn" 9; nv "aACompromise" 10]));
  (1318%N, SClass "BaseDistance" (univ "Integer") [SPass]);
  (1322%N, seta "BaseDistance" "subtypeSpec" (rangec (EInt 0) (EName "MAX")));
  (1325%N, SClass "GeneralSubtree" (univ "Sequence") [SPass]);
  (1329%N, seta "GeneralSubtree" "componentType" (nts [nt "base" (new "GeneralName"); dnt "minimum" (withvalue (implicit (new "BaseDistance") (ctxS 0)) (EInt 0)); ont "maximum" (implicit (new "BaseDistance") (ctxS 1))]));
  (1338%N, SClass "GeneralSubtrees" (univ "SequenceOf") [SPass]);
  (1342%N, seta "GeneralSubtrees" "componentType" (new "GeneralSubtree"));
  (1343%N, seta "GeneralSubtrees" "sizeSpec" (sizec (EInt 1) (EName "MAX")));
  (1346%N, SClass "NameConstraints" (univ "Sequence") [SPass]);
  (1350%N, seta "NameConstraints" "componentType" (nts [ont "permittedSubtrees" (implicit (new "GeneralSubtrees") (ctxS 0)); ont "excludedSubtrees" (implicit (new "GeneralSubtrees") (ctxS 1))]));
  (1357%N, set "id_pe_authorityInfoAccess" (call (EName "_OID") [EName "id_pe"; EInt 1]));
  (1359%N, set "id_pe_subjectInfoAccess" (call (EName "_OID") [EName "id_pe"; EInt 11]));
  (1361%N, set "id_ce_certificateIssuer" (call (EName "_OID") [EName "id_ce"; EInt 29]));
  (1363%N, set "id_ce_invalidityDate" (call (EName "_OID") [EName "id_ce"; EInt 24]));
  (1366%N, SClass "DirectoryString" (univ "Choice") [SPass]);
  (1370%N, seta "DirectoryString" "componentType" (nts [nt "any" (call0 (univ "Any"))]));
  (1374%N, set "id_ce_authorityKeyIdentifier" (call (EName "_OID") [EName "id_ce"; EInt 35]));
  (1377%N, SClass "AccessDescription" (univ "Sequence") [SPass]);
  (1381%N, seta "AccessDescription" "componentType" (nts [nt "accessMethod" (call0 (univ "ObjectIdentifier")); nt "accessLocation" (new "GeneralName")]));
  (1387%N, SClass "AuthorityInfoAccessSyntax" (univ "SequenceOf") [SPass]);
  (1391%N, seta "AuthorityInfoAccessSyntax" "componentType" (new "AccessDescription"));
  (1392%N, seta "AuthorityInfoAccessSyntax" "sizeSpec" (sizec (EInt 1) (EName "MAX")));
  (1394%N, set "id_ce_issuingDistributionPoint" (call (EName "_OID") [EName "id_ce"; EInt 28]));
  (1397%N, SClass "CPSuri" (chr "IA5String") [SPass]);
  (1401%N, SClass "DisplayText" (univ "Choice") [SPass]);
  (1405%N, seta "DisplayText" "componentType" (nts [nt "ia5String" (withspec (call0 (chr "IA5String")) (sizec (EInt 1) (EInt 200))); nt "visibleString" (withspec (call0 (chr "VisibleString")) (sizec (EInt 1) (EInt 200))); nt "bmpString" (withspec (call0 (chr "BMPString")) (sizec (EInt 1) (EInt 200))); nt "utf8String" (withspec (call0 (chr "UTF8String")) (sizec (EInt 1) (EInt 200)))]));
  (1414%N, SClass "NoticeReference" (univ "Sequence") [SPass]);
  (1418%N, seta "NoticeReference" "componentType" (nts [nt "organization" (new "DisplayText"); nt "noticeNumbers" (ECall (univ "SequenceOf") [] [("componentType", call0 (univ "Integer"))])]));
  (1424%N, SClass "UserNotice" (univ "Sequence") [SPass]);
  (1428%N, seta "UserNotice" "componentType" (nts [ont "noticeRef" (new "NoticeReference"); ont "explicitText" (new "DisplayText")]));
  (1434%N, SClass "PrivateKeyUsagePeriod" (univ "Sequence") [SPass]);
  (1438%N, seta "PrivateKeyUsagePeriod" "componentType" (nts [ont "notBefore" (implicit (call0 (useful "GeneralizedTime")) (ctxS 0)); ont "notAfter" (implicit (call0 (useful "GeneralizedTime")) (ctxS 1))]));
  (1445%N, set "id_ce_subjectKeyIdentifier" (call (EName "_OID") [EName "id_ce"; EInt 14]));
  (1448%N, SClass "CertificateIssuer" (EName "GeneralNames") [SPass]);
  (1452%N, SClass "InvalidityDate" (useful "GeneralizedTime") [SPass]);
  (1456%N, SClass "SubjectInfoAccessSyntax" (univ "SequenceOf") [SPass]);
  (1460%N, seta "SubjectInfoAccessSyntax" "componentType" (new "AccessDescription"));
  (1461%N, seta "SubjectInfoAccessSyntax" "sizeSpec" (sizec (EInt 1) (EName "MAX")));
  (1464%N, SClass "KeyUsage" (univ "BitString") [SPass]);
  (1468%N, seta "KeyUsage" "namedValues" (nvs [nv "digitalSignature" 0; nv "nonRepudiation" 1; nv "keyEncipherment" 2; nv "dataEncipherment" 3; nv "keyAgreement" 4; nv "keyCertSign" 5; nv "cRLSign" 6; nv "encipherOnly" 7; nv "decipherOnly" 8]));
  (1480%N, set "id_ce_extKeyUsage" (call (EName "_OID") [EName "id_ce"; EInt 37]));
  (1482%N, set "anyExtendedKeyUsage" (call (EName "_OID") [EName "id_ce_extKeyUsage"; EInt 0]));
  (1484%N, set "id_ce_privateKeyUsagePeriod" (call (EName "_OID") [EName "id_ce"; EInt 16]));
  (1486%N, set "id_ce_policyMappings" (call (EName "_OID") [EName "id_ce"; EInt 33]));
  (1488%N, set "id_ce_cRLNumber" (call (EName "_OID") [EName "id_ce"; EInt 20]));
  (1490%N, set "id_ce_policyConstraints" (call (EName "_OID") [EName "id_ce"; EInt 36]));
  (1492%N, set "id_holdinstruction_none" (call (EName "_OID") [EName "holdInstruction"; EInt 1]));
  (1494%N, set "id_holdinstruction_reject" (call (EName "_OID") [EName "holdInstruction"; EInt 3]));
  (1496%N, set "id_kp_timeStamping" (call (EName "_OID") [EName "id_kp"; EInt 8]));
  (1499%N, SClass "PolicyConstraints" (univ "Sequence") [SPass]);
  (1503%N, seta "PolicyConstraints" "componentType" (nts [ont "requireExplicitPolicy" (implicit (new "SkipCerts") (ctxS 0)); ont "inhibitPolicyMapping" (implicit (new "SkipCerts") (ctxS 1))]));
  (1511%N, SClass "SubjectKeyIdentifier" (EName "KeyIdentifier") [SPass]);
  (1515%N, set "id_kp_clientAuth" (call (EName "_OID") [EName "id_kp"; EInt 2]));
  (1517%N, set "id_ce_deltaCRLIndicator" (call (EName "_OID") [EName "id_ce"; EInt 27]));
  (1519%N, set "id_ce_issuerAltName" (call (EName "_OID") [EName "id_ce"; EInt 18]));
  (1521%N, set "id_kp_codeSigning" (call (EName "_OID") [EName "id_kp"; EInt 3]));
  (1523%N, set "id_ce_holdInstructionCode" (call (EName "_OID") [EName "id_ce"; EInt 23]));
  (1526%N, SClass "IssuingDistributionPoint" (univ "Sequence") [SPass]);
  (1530%N, seta "IssuingDistributionPoint" "componentType" (nts [ont "distributionPoint" (implicit (new "DistributionPointName") (ctxC 0)); dnt "onlyContainsUserCerts" (withvalue (implicit (call0 (univ "Boolean")) (ctxS 1)) (EInt 0)); dnt "onlyContainsCACerts" (withvalue (implicit (call0 (univ "Boolean")) (ctxS 2)) (EInt 0)); ont "onlySomeReasons" (implicit (new "ReasonFlags") (ctxS 3)); dnt "indirectCRL" (withvalue (implicit (call0 (univ "Boolean")) (ctxS 4)) (EInt 0)); dnt "onlyContainsAttributeCerts" (withvalue (implicit (call0 (univ "Boolean")) (ctxS 5)) (EInt 0))]))
].
