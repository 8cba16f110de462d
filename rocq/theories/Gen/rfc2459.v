(** pyasn1_modules/rfc2459.py, printed by tools/py2coq.py.  Every statement is
    preceded by its line number in that file. *)
From Verif Require Import Py.Syntax.
From Coq Require Import List String ZArith NArith.
Import ListNotations.
Open Scope string_scope.
Open Scope Z_scope.

Definition src : module := [
  (19%N, SFrom "pyasn1.type" [("char", "char")]);
  (20%N, SFrom "pyasn1.type" [("constraint", "constraint")]);
  (21%N, SFrom "pyasn1.type" [("namedtype", "namedtype")]);
  (22%N, SFrom "pyasn1.type" [("namedval", "namedval")]);
  (23%N, SFrom "pyasn1.type" [("opentype", "opentype")]);
  (24%N, SFrom "pyasn1.type" [("tag", "tag")]);
  (25%N, SFrom "pyasn1.type" [("univ", "univ")]);
  (26%N, SFrom "pyasn1.type" [("useful", "useful")]);
  (28%N, set "MAX" (call (EName "float") [EStr "inf"]));
  (35%N, set "ub_name" (call (univ "Integer") [EInt 32768]));
  (36%N, set "ub_common_name" (call (univ "Integer") [EInt 64]));
  (37%N, set "ub_locality_name" (call (univ "Integer") [EInt 128]));
  (38%N, set "ub_state_name" (call (univ "Integer") [EInt 128]));
  (39%N, set "ub_organization_name" (call (univ "Integer") [EInt 64]));
  (40%N, set "ub_organizational_unit_name" (call (univ "Integer") [EInt 64]));
  (41%N, set "ub_title" (call (univ "Integer") [EInt 64]));
  (42%N, set "ub_match" (call (univ "Integer") [EInt 128]));
  (43%N, set "ub_emailaddress_length" (call (univ "Integer") [EInt 128]));
  (44%N, set "ub_common_name_length" (call (univ "Integer") [EInt 64]));
  (45%N, set "ub_country_name_alpha_length" (call (univ "Integer") [EInt 2]));
  (46%N, set "ub_country_name_numeric_length" (call (univ "Integer") [EInt 3]));
  (47%N, set "ub_domain_defined_attributes" (call (univ "Integer") [EInt 4]));
  (48%N, set "ub_domain_defined_attribute_type_length" (call (univ "Integer") [EInt 8]));
  (49%N, set "ub_domain_defined_attribute_value_length" (call (univ "Integer") [EInt 128]));
  (50%N, set "ub_domain_name_length" (call (univ "Integer") [EInt 16]));
  (51%N, set "ub_extension_attributes" (call (univ "Integer") [EInt 256]));
  (52%N, set "ub_e163_4_number_length" (call (univ "Integer") [EInt 15]));
  (53%N, set "ub_e163_4_sub_address_length" (call (univ "Integer") [EInt 40]));
  (54%N, set "ub_generation_qualifier_length" (call (univ "Integer") [EInt 3]));
  (55%N, set "ub_given_name_length" (call (univ "Integer") [EInt 16]));
  (56%N, set "ub_initials_length" (call (univ "Integer") [EInt 5]));
  (57%N, set "ub_integer_options" (call (univ "Integer") [EInt 256]));
  (58%N, set "ub_numeric_user_id_length" (call (univ "Integer") [EInt 32]));
  (59%N, set "ub_organization_name_length" (call (univ "Integer") [EInt 64]));
  (60%N, set "ub_organizational_unit_name_length" (call (univ "Integer") [EInt 32]));
  (61%N, set "ub_organizational_units" (call (univ "Integer") [EInt 4]));
  (62%N, set "ub_pds_name_length" (call (univ "Integer") [EInt 16]));
  (63%N, set "ub_pds_parameter_length" (call (univ "Integer") [EInt 30]));
  (64%N, set "ub_pds_physical_address_lines" (call (univ "Integer") [EInt 6]));
  (65%N, set "ub_postal_code_length" (call (univ "Integer") [EInt 16]));
  (66%N, set "ub_surname_length" (call (univ "Integer") [EInt 40]));
  (67%N, set "ub_terminal_id_length" (call (univ "Integer") [EInt 24]));
  (68%N, set "ub_unformatted_address_length" (call (univ "Integer") [EInt 180]));
  (69%N, set "ub_x121_address_length" (call (univ "Integer") [EInt 16]));
  (72%N, SClass "UniversalString" (chr "UniversalString") [SPass]);
  (76%N, SClass "BMPString" (chr "BMPString") [SPass]);
  (80%N, SClass "UTF8String" (chr "UTF8String") [SPass]);
  (84%N, set "id_pkix" (call (univ "ObjectIdentifier") [EStr "1.3.6.1.5.5.7"]));
  (85%N, set "id_pe" (call (univ "ObjectIdentifier") [EStr "1.3.6.1.5.5.7.1"]));
  (86%N, set "id_qt" (call (univ "ObjectIdentifier") [EStr "1.3.6.1.5.5.7.2"]));
  (87%N, set "id_kp" (call (univ "ObjectIdentifier") [EStr "1.3.6.1.5.5.7.3"]));
  (88%N, set "id_ad" (call (univ "ObjectIdentifier") [EStr "1.3.6.1.5.5.7.48"]));
  (90%N, set "id_qt_cps" (call (univ "ObjectIdentifier") [EStr "1.3.6.1.5.5.7.2.1"]));
  (91%N, set "id_qt_unotice" (call (univ "ObjectIdentifier") [EStr "1.3.6.1.5.5.7.2.2"]));
  (93%N, set "id_ad_ocsp" (call (univ "ObjectIdentifier") [EStr "1.3.6.1.5.5.7.48.1"]));
  (94%N, set "id_ad_caIssuers" (call (univ "ObjectIdentifier") [EStr "1.3.6.1.5.5.7.48.2"]));
  (99%N, set "id_at" (call (univ "ObjectIdentifier") [EStr "2.5.4"]));
  (100%N, set "id_at_name" (call (univ "ObjectIdentifier") [EStr "2.5.4.41"]));
  (102%N, SAssign [EName "id_at_sutname"; EName "id_at_surname"] (call (univ "ObjectIdentifier") [EStr "2.5.4.4"]));
  (103%N, set "id_at_givenName" (call (univ "ObjectIdentifier") [EStr "2.5.4.42"]));
  (104%N, set "id_at_initials" (call (univ "ObjectIdentifier") [EStr "2.5.4.43"]));
  (105%N, set "id_at_generationQualifier" (call (univ "ObjectIdentifier") [EStr "2.5.4.44"]));
  (108%N, SClass "X520name" (univ "Choice") [set "componentType" (nts [nt "teletexString" (withspec (call0 (chr "TeletexString")) (sizec (EInt 1) (EName "ub_name"))); nt "printableString" (withspec (call0 (chr "PrintableString")) (sizec (EInt 1) (EName "ub_name"))); nt "universalString" (withspec (call0 (chr "UniversalString")) (sizec (EInt 1) (EName "ub_name"))); nt "utf8String" (withspec (call0 (chr "UTF8String")) (sizec (EInt 1) (EName "ub_name"))); nt "bmpString" (withspec (call0 (chr "BMPString")) (sizec (EInt 1) (EName "ub_name")))])]);
  (123%N, set "id_at_commonName" (call (univ "ObjectIdentifier") [EStr "2.5.4.3"]));
  (126%N, SClass "X520CommonName" (univ "Choice") [set "componentType" (nts [nt "teletexString" (withspec (call0 (chr "TeletexString")) (sizec (EInt 1) (EName "ub_common_name"))); nt "printableString" (withspec (call0 (chr "PrintableString")) (sizec (EInt 1) (EName "ub_common_name"))); nt "universalString" (withspec (call0 (chr "UniversalString")) (sizec (EInt 1) (EName "ub_common_name"))); nt "utf8String" (withspec (call0 (chr "UTF8String")) (sizec (EInt 1) (EName "ub_common_name"))); nt "bmpString" (withspec (call0 (chr "BMPString")) (sizec (EInt 1) (EName "ub_common_name")))])]);
  (141%N, set "id_at_localityName" (call (univ "ObjectIdentifier") [EStr "2.5.4.7"]));
  (144%N, SClass "X520LocalityName" (univ "Choice") [set "componentType" (nts [nt "teletexString" (withspec (call0 (chr "TeletexString")) (sizec (EInt 1) (EName "ub_locality_name"))); nt "printableString" (withspec (call0 (chr "PrintableString")) (sizec (EInt 1) (EName "ub_locality_name"))); nt "universalString" (withspec (call0 (chr "UniversalString")) (sizec (EInt 1) (EName "ub_locality_name"))); nt "utf8String" (withspec (call0 (chr "UTF8String")) (sizec (EInt 1) (EName "ub_locality_name"))); nt "bmpString" (withspec (call0 (chr "BMPString")) (sizec (EInt 1) (EName "ub_locality_name")))])]);
  (159%N, set "id_at_stateOrProvinceName" (call (univ "ObjectIdentifier") [EStr "2.5.4.8"]));
  (162%N, SClass "X520StateOrProvinceName" (univ "Choice") [set "componentType" (nts [nt "teletexString" (withspec (call0 (chr "TeletexString")) (sizec (EInt 1) (EName "ub_state_name"))); nt "printableString" (withspec (call0 (chr "PrintableString")) (sizec (EInt 1) (EName "ub_state_name"))); nt "universalString" (withspec (call0 (chr "UniversalString")) (sizec (EInt 1) (EName "ub_state_name"))); nt "utf8String" (withspec (call0 (chr "UTF8String")) (sizec (EInt 1) (EName "ub_state_name"))); nt "bmpString" (withspec (call0 (chr "BMPString")) (sizec (EInt 1) (EName "ub_state_name")))])]);
  (177%N, set "id_at_organizationName" (call (univ "ObjectIdentifier") [EStr "2.5.4.10"]));
  (180%N, SClass "X520OrganizationName" (univ "Choice") [set "componentType" (nts [nt "teletexString" (withspec (call0 (chr "TeletexString")) (sizec (EInt 1) (EName "ub_organization_name"))); nt "printableString" (withspec (call0 (chr "PrintableString")) (sizec (EInt 1) (EName "ub_organization_name"))); nt "universalString" (withspec (call0 (chr "UniversalString")) (sizec (EInt 1) (EName "ub_organization_name"))); nt "utf8String" (withspec (call0 (chr "UTF8String")) (sizec (EInt 1) (EName "ub_organization_name"))); nt "bmpString" (withspec (call0 (chr "BMPString")) (sizec (EInt 1) (EName "ub_organization_name")))])]);
  (195%N, set "id_at_organizationalUnitName" (call (univ "ObjectIdentifier") [EStr "2.5.4.11"]));
  (198%N, SClass "X520OrganizationalUnitName" (univ "Choice") [set "componentType" (nts [nt "teletexString" (withspec (call0 (chr "TeletexString")) (sizec (EInt 1) (EName "ub_organizational_unit_name"))); nt "printableString" (withspec (call0 (chr "PrintableString")) (sizec (EInt 1) (EName "ub_organizational_unit_name"))); nt "universalString" (withspec (call0 (chr "UniversalString")) (sizec (EInt 1) (EName "ub_organizational_unit_name"))); nt "utf8String" (withspec (call0 (chr "UTF8String")) (sizec (EInt 1) (EName "ub_organizational_unit_name"))); nt "bmpString" (withspec (call0 (chr "BMPString")) (sizec (EInt 1) (EName "ub_organizational_unit_name")))])]);
  (213%N, set "id_at_title" (call (univ "ObjectIdentifier") [EStr "2.5.4.12"]));
  (216%N, SClass "X520Title" (univ "Choice") [set "componentType" (nts [nt "teletexString" (withspec (call0 (chr "TeletexString")) (sizec (EInt 1) (EName "ub_title"))); nt "printableString" (withspec (call0 (chr "PrintableString")) (sizec (EInt 1) (EName "ub_title"))); nt "universalString" (withspec (call0 (chr "UniversalString")) (sizec (EInt 1) (EName "ub_title"))); nt "utf8String" (withspec (call0 (chr "UTF8String")) (sizec (EInt 1) (EName "ub_title"))); nt "bmpString" (withspec (call0 (chr "BMPString")) (sizec (EInt 1) (EName "ub_title")))])]);
  (231%N, set "id_at_dnQualifier" (call (univ "ObjectIdentifier") [EStr "2.5.4.46"]));
  (234%N, SClass "X520dnQualifier" (chr "PrintableString") [SPass]);
  (238%N, set "id_at_countryName" (call (univ "ObjectIdentifier") [EStr "2.5.4.6"]));
  (241%N, SClass "X520countryName" (chr "PrintableString") [set "subtypeSpec" (EBin OAdd (EAttr (chr "PrintableString") "subtypeSpec") (sizec (EInt 2) (EInt 2)))]);
  (245%N, set "pkcs_9" (call (univ "ObjectIdentifier") [EStr "1.2.840.113549.1.9"]));
  (247%N, set "emailAddress" (call (univ "ObjectIdentifier") [EStr "1.2.840.113549.1.9.1"]));
  (250%N, SClass "Pkcs9email" (chr "IA5String") [set "subtypeSpec" (EBin OAdd (EAttr (chr "IA5String") "subtypeSpec") (sizec (EInt 1) (EName "ub_emailaddress_length")))]);
  (256%N, SClass "DSAPrivateKey" (univ "Sequence") [SPass; set "componentType" (nts [nt "version" (ECall (univ "Integer") [] [("namedValues", nvs [nv "v1" 0])]); nt "p" (call0 (univ "Integer")); nt "q" (call0 (univ "Integer")); nt "g" (call0 (univ "Integer")); nt "public" (call0 (univ "Integer")); nt "private" (call0 (univ "Integer"))])]);
  (271%N, SClass "DirectoryString" (univ "Choice") [set "componentType" (nts [nt "teletexString" (withspec (call0 (chr "TeletexString")) (sizec (EInt 1) (EName "MAX"))); nt "printableString" (withspec (call0 (chr "PrintableString")) (sizec (EInt 1) (EName "MAX"))); nt "universalString" (withspec (call0 (chr "UniversalString")) (sizec (EInt 1) (EName "MAX"))); nt "utf8String" (withspec (call0 (chr "UTF8String")) (sizec (EInt 1) (EName "MAX"))); nt "bmpString" (withspec (call0 (chr "BMPString")) (sizec (EInt 1) (EName "MAX"))); nt "ia5String" (withspec (call0 (chr "IA5String")) (sizec (EInt 1) (EName "MAX")))])]);
  (289%N, SClass "AlgorithmIdentifier" (univ "Sequence") [set "componentType" (nts [nt "algorithm" (call0 (univ "ObjectIdentifier")); ont "parameters" (call0 (univ "Any"))])]);
  (299%N, set "pkcs_1" (call (univ "ObjectIdentifier") [EStr "1.2.840.113549.1.1"]));
  (300%N, set "rsaEncryption" (call (univ "ObjectIdentifier") [EStr "1.2.840.113549.1.1.1"]));
  (301%N, set "md2WithRSAEncryption" (call (univ "ObjectIdentifier") [EStr "1.2.840.113549.1.1.2"]));
  (302%N, set "md5WithRSAEncryption" (call (univ "ObjectIdentifier") [EStr "1.2.840.113549.1.1.4"]));
  (303%N, set "sha1WithRSAEncryption" (call (univ "ObjectIdentifier") [EStr "1.2.840.113549.1.1.5"]));
  (304%N, set "id_dsa_with_sha1" (call (univ "ObjectIdentifier") [EStr "1.2.840.10040.4.3"]));
  (307%N, SClass "Dss_Sig_Value" (univ "Sequence") [set "componentType" (nts [nt "r" (call0 (univ "Integer")); nt "s" (call0 (univ "Integer"))])]);
  (314%N, set "dhpublicnumber" (call (univ "ObjectIdentifier") [EStr "1.2.840.10046.2.1"]));
  (317%N, SClass "ValidationParms" (univ "Sequence") [set "componentType" (nts [nt "seed" (call0 (univ "BitString")); nt "pgenCounter" (call0 (univ "Integer"))])]);
  (324%N, SClass "DomainParameters" (univ "Sequence") [set "componentType" (nts [nt "p" (call0 (univ "Integer")); nt "g" (call0 (univ "Integer")); nt "q" (call0 (univ "Integer")); nt "j" (call0 (univ "Integer")); ont "validationParms" (new "ValidationParms")])]);
  (334%N, set "id_dsa" (call (univ "ObjectIdentifier") [EStr "1.2.840.10040.4.1"]));
  (337%N, SClass "Dss_Parms" (univ "Sequence") [set "componentType" (nts [nt "p" (call0 (univ "Integer")); nt "q" (call0 (univ "Integer")); nt "g" (call0 (univ "Integer"))])]);
  (347%N, set "teletex_domain_defined_attributes" (call (univ "Integer") [EInt 6]));
  (350%N, SClass "TeletexDomainDefinedAttribute" (univ "Sequence") [set "componentType" (nts [nt "type" (withspec (call0 (chr "TeletexString")) (sizec (EInt 1) (EName "ub_domain_defined_attribute_type_length"))); nt "value" (call0 (chr "TeletexString"))])]);
  (358%N, SClass "TeletexDomainDefinedAttributes" (univ "SequenceOf") [set "componentType" (new "TeletexDomainDefinedAttribute"); set "sizeSpec" (EBin OAdd (EAttr (univ "SequenceOf") "sizeSpec") (sizec (EInt 1) (EName "ub_domain_defined_attributes")))]);
  (363%N, set "terminal_type" (call (univ "Integer") [EInt 23]));
  (366%N, SClass "TerminalType" (univ "Integer") [set "subtypeSpec" (EBin OAdd (EAttr (univ "Integer") "subtypeSpec") (sizec (EInt 0) (EName "ub_integer_options"))); set "namedValues" (nvs [nv "telex" 3; nv "teletelex" 4; nv "g3-facsimile" 5; nv "g4-facsimile" 6; nv "ia5-terminal" 7; nv "videotex" 8])]);
  (378%N, SClass "PresentationAddress" (univ "Sequence") [set "componentType" (nts [ont "pSelector" (explicit (call0 (univ "OctetString")) (ctxS 0)); ont "sSelector" (explicit (call0 (univ "OctetString")) (ctxS 1)); ont "tSelector" (explicit (call0 (univ "OctetString")) (ctxS 2)); ont "nAddresses" (ECall (EAttr (ECall (univ "SetOf") [] [("componentType", call0 (univ "OctetString"))]) "subtype") [] [("explicitTag", ctxS 3); ("subtypeSpec", sizec (EInt 1) (EName "MAX"))])])]);
  (392%N, set "extended_network_address" (call (univ "Integer") [EInt 22]));
  (395%N, SClass "E163_4_address" (univ "Sequence") [set "componentType" (nts [nt "number" (ECall (EAttr (call0 (chr "NumericString")) "subtype") [] [("subtypeSpec", sizec (EInt 1) (EName "ub_e163_4_number_length")); ("explicitTag", ctxS 0)]); ont "sub-address" (ECall (EAttr (call0 (chr "NumericString")) "subtype") [] [("subtypeSpec", sizec (EInt 1) (EName "ub_e163_4_sub_address_length")); ("explicitTag", ctxS 1)])])]);
  (406%N, SClass "ExtendedNetworkAddress" (univ "Choice") [set "componentType" (nts [nt "e163-4-address" (new "E163_4_address"); nt "psap-address" (explicit (new "PresentationAddress") (ctxS 0))])]);
  (414%N, SClass "PDSParameter" (univ "Set") [set "componentType" (nts [ont "printable-string" (withspec (call0 (chr "PrintableString")) (sizec (EInt 1) (EName "ub_pds_parameter_length"))); ont "teletex-string" (withspec (call0 (chr "TeletexString")) (sizec (EInt 1) (EName "ub_pds_parameter_length")))])]);
  (423%N, set "local_postal_attributes" (call (univ "Integer") [EInt 21]));
  (426%N, SClass "LocalPostalAttributes" (EName "PDSParameter") [SPass]);
  (430%N, SClass "UniquePostalName" (EName "PDSParameter") [SPass]);
  (434%N, set "unique_postal_name" (call (univ "Integer") [EInt 20]));
  (436%N, set "poste_restante_address" (call (univ "Integer") [EInt 19]));
  (439%N, SClass "PosteRestanteAddress" (EName "PDSParameter") [SPass]);
  (443%N, set "post_office_box_address" (call (univ "Integer") [EInt 18]));
  (446%N, SClass "PostOfficeBoxAddress" (EName "PDSParameter") [SPass]);
  (450%N, set "street_address" (call (univ "Integer") [EInt 17]));
  (453%N, SClass "StreetAddress" (EName "PDSParameter") [SPass]);
  (457%N, SClass "UnformattedPostalAddress" (univ "Set") [set "componentType" (nts [ont "printable-address" (ECall (univ "SequenceOf") [] [("componentType", withspec (withspec (call0 (chr "PrintableString")) (sizec (EInt 1) (EName "ub_pds_parameter_length"))) (sizec (EInt 1) (EName "ub_pds_physical_address_lines")))]); ont "teletex-string" (withspec (call0 (chr "TeletexString")) (sizec (EInt 1) (EName "ub_unformatted_address_length")))])]);
  (467%N, set "physical_delivery_office_name" (call (univ "Integer") [EInt 10]));
  (470%N, SClass "PhysicalDeliveryOfficeName" (EName "PDSParameter") [SPass]);
  (474%N, set "physical_delivery_office_number" (call (univ "Integer") [EInt 11]));
  (477%N, SClass "PhysicalDeliveryOfficeNumber" (EName "PDSParameter") [SPass]);
  (481%N, set "extension_OR_address_components" (call (univ "Integer") [EInt 12]));
  (484%N, SClass "ExtensionORAddressComponents" (EName "PDSParameter") [SPass]);
  (488%N, set "physical_delivery_personal_name" (call (univ "Integer") [EInt 13]));
  (491%N, SClass "PhysicalDeliveryPersonalName" (EName "PDSParameter") [SPass]);
  (495%N, set "physical_delivery_organization_name" (call (univ "Integer") [EInt 14]));
  (498%N, SClass "PhysicalDeliveryOrganizationName" (EName "PDSParameter") [SPass]);
  (502%N, set "extension_physical_delivery_address_components" (call (univ "Integer") [EInt 15]));
  (505%N, SClass "ExtensionPhysicalDeliveryAddressComponents" (EName "PDSParameter") [SPass]);
  (509%N, set "unformatted_postal_address" (call (univ "Integer") [EInt 16]));
  (511%N, set "postal_code" (call (univ "Integer") [EInt 9]));
  (514%N, SClass "PostalCode" (univ "Choice") [set "componentType" (nts [nt "numeric-code" (withspec (call0 (chr "NumericString")) (sizec (EInt 1) (EName "ub_postal_code_length"))); nt "printable-code" (withspec (call0 (chr "PrintableString")) (sizec (EInt 1) (EName "ub_postal_code_length")))])]);
  (523%N, SClass "PhysicalDeliveryCountryName" (univ "Choice") [set "componentType" (nts [nt "x121-dcc-code" (withspec (call0 (chr "NumericString")) (sizec (EName "ub_country_name_numeric_length") (EName "ub_country_name_numeric_length"))); nt "iso-3166-alpha2-code" (withspec (call0 (chr "PrintableString")) (sizec (EName "ub_country_name_alpha_length") (EName "ub_country_name_alpha_length")))])]);
  (533%N, SClass "PDSName" (chr "PrintableString") [set "subtypeSpec" (EBin OAdd (EAttr (chr "PrintableString") "subtypeSpec") (sizec (EInt 1) (EName "ub_pds_name_length")))]);
  (537%N, set "physical_delivery_country_name" (call (univ "Integer") [EInt 8]));
  (540%N, SClass "TeletexOrganizationalUnitName" (chr "TeletexString") [set "subtypeSpec" (EBin OAdd (EAttr (chr "TeletexString") "subtypeSpec") (sizec (EInt 1) (EName "ub_organizational_unit_name_length")))]);
  (544%N, set "pds_name" (call (univ "Integer") [EInt 7]));
  (546%N, set "teletex_organizational_unit_names" (call (univ "Integer") [EInt 5]));
  (549%N, SClass "TeletexOrganizationalUnitNames" (univ "SequenceOf") [set "componentType" (new "TeletexOrganizationalUnitName"); set "sizeSpec" (EBin OAdd (EAttr (univ "SequenceOf") "sizeSpec") (sizec (EInt 1) (EName "ub_organizational_units")))]);
  (554%N, set "teletex_personal_name" (call (univ "Integer") [EInt 4]));
  (557%N, SClass "TeletexPersonalName" (univ "Set") [set "componentType" (nts [nt "surname" (ECall (EAttr (call0 (chr "TeletexString")) "subtype") [] [("subtypeSpec", sizec (EInt 1) (EName "ub_surname_length")); ("explicitTag", ctxS 0)]); ont "given-name" (ECall (EAttr (call0 (chr "TeletexString")) "subtype") [] [("subtypeSpec", sizec (EInt 1) (EName "ub_given_name_length")); ("explicitTag", ctxS 1)]); ont "initials" (ECall (EAttr (call0 (chr "TeletexString")) "subtype") [] [("subtypeSpec", sizec (EInt 1) (EName "ub_initials_length")); ("explicitTag", ctxS 2)]); ont "generation-qualifier" (ECall (EAttr (call0 (chr "TeletexString")) "subtype") [] [("subtypeSpec", sizec (EInt 1) (EName "ub_generation_qualifier_length")); ("explicitTag", ctxS 3)])])]);
  (574%N, set "teletex_organization_name" (call (univ "Integer") [EInt 3]));
  (577%N, SClass "TeletexOrganizationName" (chr "TeletexString") [set "subtypeSpec" (EBin OAdd (EAttr (chr "TeletexString") "subtypeSpec") (sizec (EInt 1) (EName "ub_organization_name_length")))]);
  (581%N, set "teletex_common_name" (call (univ "Integer") [EInt 2]));
  (584%N, SClass "TeletexCommonName" (chr "TeletexString") [set "subtypeSpec" (EBin OAdd (EAttr (chr "TeletexString") "subtypeSpec") (sizec (EInt 1) (EName "ub_common_name_length")))]);
  (588%N, SClass "CommonName" (chr "PrintableString") [set "subtypeSpec" (EBin OAdd (EAttr (chr "PrintableString") "subtypeSpec") (sizec (EInt 1) (EName "ub_common_name_length")))]);
  (592%N, set "common_name" (call (univ "Integer") [EInt 1]));
  (595%N, SClass "ExtensionAttribute" (univ "Sequence") [set "componentType" (nts [nt "extension-attribute-type" (ECall (EAttr (call0 (univ "Integer")) "subtype") [] [("subtypeSpec", sizec (EInt 0) (EName "ub_extension_attributes")); ("explicitTag", ctxS 0)]); nt "extension-attribute-value" (explicit (call0 (univ "Any")) (ctxS 1))])]);
  (605%N, SClass "ExtensionAttributes" (univ "SetOf") [set "componentType" (new "ExtensionAttribute"); set "sizeSpec" (EBin OAdd (EAttr (univ "SetOf") "sizeSpec") (sizec (EInt 1) (EName "ub_extension_attributes")))]);
  (610%N, SClass "BuiltInDomainDefinedAttribute" (univ "Sequence") [set "componentType" (nts [nt "type" (withspec (call0 (chr "PrintableString")) (sizec (EInt 1) (EName "ub_domain_defined_attribute_type_length"))); nt "value" (withspec (call0 (chr "PrintableString")) (sizec (EInt 1) (EName "ub_domain_defined_attribute_value_length")))])]);
  (619%N, SClass "BuiltInDomainDefinedAttributes" (univ "SequenceOf") [set "componentType" (new "BuiltInDomainDefinedAttribute"); set "sizeSpec" (EBin OAdd (EAttr (univ "SequenceOf") "sizeSpec") (sizec (EInt 1) (EName "ub_domain_defined_attributes")))]);
  (624%N, SClass "OrganizationalUnitName" (chr "PrintableString") [set "subtypeSpec" (EBin OAdd (EAttr (chr "PrintableString") "subtypeSpec") (sizec (EInt 1) (EName "ub_organizational_unit_name_length")))]);
  (628%N, SClass "OrganizationalUnitNames" (univ "SequenceOf") [set "componentType" (new "OrganizationalUnitName"); set "sizeSpec" (EBin OAdd (EAttr (univ "SequenceOf") "sizeSpec") (sizec (EInt 1) (EName "ub_organizational_units")))]);
  (633%N, SClass "PersonalName" (univ "Set") [set "componentType" (nts [nt "surname" (ECall (EAttr (call0 (chr "PrintableString")) "subtype") [] [("subtypeSpec", sizec (EInt 1) (EName "ub_surname_length")); ("explicitTag", ctxS 0)]); ont "given-name" (ECall (EAttr (call0 (chr "PrintableString")) "subtype") [] [("subtypeSpec", sizec (EInt 1) (EName "ub_given_name_length")); ("explicitTag", ctxS 1)]); ont "initials" (ECall (EAttr (call0 (chr "PrintableString")) "subtype") [] [("subtypeSpec", sizec (EInt 1) (EName "ub_initials_length")); ("explicitTag", ctxS 2)]); ont "generation-qualifier" (ECall (EAttr (call0 (chr "PrintableString")) "subtype") [] [("subtypeSpec", sizec (EInt 1) (EName "ub_generation_qualifier_length")); ("explicitTag", ctxS 3)])])]);
  (650%N, SClass "NumericUserIdentifier" (chr "NumericString") [set "subtypeSpec" (EBin OAdd (EAttr (chr "NumericString") "subtypeSpec") (sizec (EInt 1) (EName "ub_numeric_user_id_length")))]);
  (654%N, SClass "OrganizationName" (chr "PrintableString") [set "subtypeSpec" (EBin OAdd (EAttr (chr "PrintableString") "subtypeSpec") (sizec (EInt 1) (EName "ub_organization_name_length")))]);
  (658%N, SClass "PrivateDomainName" (univ "Choice") [set "componentType" (nts [nt "numeric" (withspec (call0 (chr "NumericString")) (sizec (EInt 1) (EName "ub_domain_name_length"))); nt "printable" (withspec (call0 (chr "PrintableString")) (sizec (EInt 1) (EName "ub_domain_name_length")))])]);
  (667%N, SClass "TerminalIdentifier" (chr "PrintableString") [set "subtypeSpec" (EBin OAdd (EAttr (chr "PrintableString") "subtypeSpec") (sizec (EInt 1) (EName "ub_terminal_id_length")))]);
  (671%N, SClass "X121Address" (chr "NumericString") [set "subtypeSpec" (EBin OAdd (EAttr (chr "NumericString") "subtypeSpec") (sizec (EInt 1) (EName "ub_x121_address_length")))]);
  (675%N, SClass "NetworkAddress" (EName "X121Address") [SPass]);
  (679%N, SClass "AdministrationDomainName" (univ "Choice") [set "tagSet" (call (EAttr (EAttr (univ "Choice") "tagSet") "tagExplicitly") [appC 2]); set "componentType" (nts [nt "numeric" (withspec (call0 (chr "NumericString")) (sizec (EInt 0) (EName "ub_domain_name_length"))); nt "printable" (withspec (call0 (chr "PrintableString")) (sizec (EInt 0) (EName "ub_domain_name_length")))])]);
  (691%N, SClass "CountryName" (univ "Choice") [set "tagSet" (call (EAttr (EAttr (univ "Choice") "tagSet") "tagExplicitly") [appC 1]); set "componentType" (nts [nt "x121-dcc-code" (withspec (call0 (chr "NumericString")) (sizec (EName "ub_country_name_numeric_length") (EName "ub_country_name_numeric_length"))); nt "iso-3166-alpha2-code" (withspec (call0 (chr "PrintableString")) (sizec (EName "ub_country_name_alpha_length") (EName "ub_country_name_alpha_length")))])]);
  (704%N, SClass "BuiltInStandardAttributes" (univ "Sequence") [set "componentType" (nts [ont "country-name" (new "CountryName"); ont "administration-domain-name" (new "AdministrationDomainName"); ont "network-address" (explicit (new "NetworkAddress") (ctxS 0)); ont "terminal-identifier" (explicit (new "TerminalIdentifier") (ctxS 1)); ont "private-domain-name" (explicit (new "PrivateDomainName") (ctxS 2)); ont "organization-name" (explicit (new "OrganizationName") (ctxS 3)); ont "numeric-user-identifier" (explicit (new "NumericUserIdentifier") (ctxS 4)); ont "personal-name" (explicit (new "PersonalName") (ctxS 5)); ont "organizational-unit-names" (explicit (new "OrganizationalUnitNames") (ctxS 6))])]);
  (725%N, SClass "ORAddress" (univ "Sequence") [set "componentType" (nts [nt "built-in-standard-attributes" (new "BuiltInStandardAttributes"); ont "built-in-domain-defined-attributes" (new "BuiltInDomainDefinedAttributes"); ont "extension-attributes" (new "ExtensionAttributes")])]);
  (737%N, set "id_ce_invalidityDate" (call (univ "ObjectIdentifier") [EStr "2.5.29.24"]));
  (740%N, SClass "InvalidityDate" (useful "GeneralizedTime") [SPass]);
  (744%N, set "id_holdinstruction_none" (call (univ "ObjectIdentifier") [EStr "2.2.840.10040.2.1"]));
  (745%N, set "id_holdinstruction_callissuer" (call (univ "ObjectIdentifier") [EStr "2.2.840.10040.2.2"]));
  (746%N, set "id_holdinstruction_reject" (call (univ "ObjectIdentifier") [EStr "2.2.840.10040.2.3"]));
  (748%N, set "holdInstruction" (call (univ "ObjectIdentifier") [EStr "2.2.840.10040.2"]));
  (750%N, set "id_ce_holdInstructionCode" (call (univ "ObjectIdentifier") [EStr "2.5.29.23"]));
  (753%N, SClass "HoldInstructionCode" (univ "ObjectIdentifier") [SPass]);
  (757%N, set "id_ce_cRLReasons" (call (univ "ObjectIdentifier") [EStr "2.5.29.21"]));
  (760%N, SClass "CRLReason" (univ "Enumerated") [set "namedValues" (nvs [nv "unspecified" 0; nv "keyCompromise" 1; nv "cACompromise" 2; nv "affiliationChanged" 3; nv "superseded" 4; nv "cessationOfOperation" 5; nv "certificateHold" 6; nv "removeFromCRL" 8])]);
  (773%N, set "id_ce_cRLNumber" (call (univ "ObjectIdentifier") [EStr "2.5.29.20"]));
  (776%N, SClass "CRLNumber" (univ "Integer") [set "subtypeSpec" (EBin OAdd (EAttr (univ "Integer") "subtypeSpec") (sizec (EInt 0) (EName "MAX")))]);
  (780%N, SClass "BaseCRLNumber" (EName "CRLNumber") [SPass]);
  (784%N, set "id_kp_serverAuth" (call (univ "ObjectIdentifier") [EStr "1.3.6.1.5.5.7.3.1"]));
  (785%N, set "id_kp_clientAuth" (call (univ "ObjectIdentifier") [EStr "1.3.6.1.5.5.7.3.2"]));
  (786%N, set "id_kp_codeSigning" (call (univ "ObjectIdentifier") [EStr "1.3.6.1.5.5.7.3.3"]));
  (787%N, set "id_kp_emailProtection" (call (univ "ObjectIdentifier") [EStr "1.3.6.1.5.5.7.3.4"]));
  (788%N, set "id_kp_ipsecEndSystem" (call (univ "ObjectIdentifier") [EStr "1.3.6.1.5.5.7.3.5"]));
  (789%N, set "id_kp_ipsecTunnel" (call (univ "ObjectIdentifier") [EStr "1.3.6.1.5.5.7.3.6"]));
  (790%N, set "id_kp_ipsecUser" (call (univ "ObjectIdentifier") [EStr "1.3.6.1.5.5.7.3.7"]));
  (791%N, set "id_kp_timeStamping" (call (univ "ObjectIdentifier") [EStr "1.3.6.1.5.5.7.3.8"]));
  (792%N, set "id_pe_authorityInfoAccess" (call (univ "ObjectIdentifier") [EStr "1.3.6.1.5.5.7.1.1"]));
  (793%N, set "id_ce_extKeyUsage" (call (univ "ObjectIdentifier") [EStr "2.5.29.37"]));
  (796%N, SClass "KeyPurposeId" (univ "ObjectIdentifier") [SPass]);
  (800%N, SClass "ExtKeyUsageSyntax" (univ "SequenceOf") [set "componentType" (new "KeyPurposeId"); set "sizeSpec" (EBin OAdd (EAttr (univ "SequenceOf") "sizeSpec") (sizec (EInt 1) (EName "MAX")))]);
  (805%N, SClass "ReasonFlags" (univ "BitString") [set "namedValues" (nvs [nv "unused" 0; nv "keyCompromise" 1; nv "cACompromise" 2; nv "affiliationChanged" 3; nv "superseded" 4; nv "cessationOfOperation" 5; nv "certificateHold" 6])]);
  (817%N, SClass "SkipCerts" (univ "Integer") [set "subtypeSpec" (EBin OAdd (EAttr (univ "Integer") "subtypeSpec") (sizec (EInt 0) (EName "MAX")))]);
  (821%N, set "id_ce_policyConstraints" (call (univ "ObjectIdentifier") [EStr "2.5.29.36"]));
  (824%N, SClass "PolicyConstraints" (univ "Sequence") [set "componentType" (nts [ont "requireExplicitPolicy" (implicit (new "SkipCerts") (ctxC 0)); ont "inhibitPolicyMapping" (implicit (new "SkipCerts") (ctxC 1))])]);
  (833%N, set "id_ce_basicConstraints" (call (univ "ObjectIdentifier") [EStr "2.5.29.19"]));
  (836%N, SClass "BasicConstraints" (univ "Sequence") [set "componentType" (nts [dnt "cA" (call (univ "Boolean") [EBool false]); ont "pathLenConstraint" (withspec (call0 (univ "Integer")) (rangec (EInt 0) (EName "MAX")))])]);
  (844%N, set "id_ce_subjectDirectoryAttributes" (call (univ "ObjectIdentifier") [EStr "2.5.29.9"]));
  (847%N, SClass "EDIPartyName" (univ "Sequence") [set "componentType" (nts [ont "nameAssigner" (implicit (new "DirectoryString") (ctxS 0)); nt "partyName" (implicit (new "DirectoryString") (ctxS 1))])]);
  (857%N, set "id_ce_deltaCRLIndicator" (call (univ "ObjectIdentifier") [EStr "2.5.29.27"]));
  (861%N, SClass "BaseDistance" (univ "Integer") [set "subtypeSpec" (EBin OAdd (EAttr (univ "Integer") "subtypeSpec") (rangec (EInt 0) (EName "MAX")))]);
  (865%N, set "id_ce_cRLDistributionPoints" (call (univ "ObjectIdentifier") [EStr "2.5.29.31"]));
  (868%N, set "id_ce_issuingDistributionPoint" (call (univ "ObjectIdentifier") [EStr "2.5.29.28"]));
  (873%N, set "id_ce_nameConstraints" (call (univ "ObjectIdentifier") [EStr "2.5.29.30"]));
  (876%N, SClass "DisplayText" (univ "Choice") [set "componentType" (nts [nt "visibleString" (withspec (call0 (chr "VisibleString")) (sizec (EInt 1) (EInt 200))); nt "bmpString" (withspec (call0 (chr "BMPString")) (sizec (EInt 1) (EInt 200))); nt "utf8String" (withspec (call0 (chr "UTF8String")) (sizec (EInt 1) (EInt 200)))])]);
  (885%N, SClass "NoticeReference" (univ "Sequence") [set "componentType" (nts [nt "organization" (new "DisplayText"); nt "noticeNumbers" (ECall (univ "SequenceOf") [] [("componentType", call0 (univ "Integer"))])])]);
  (892%N, SClass "UserNotice" (univ "Sequence") [set "componentType" (nts [ont "noticeRef" (new "NoticeReference"); ont "explicitText" (new "DisplayText")])]);
  (899%N, SClass "CPSuri" (chr "IA5String") [SPass]);
  (903%N, SClass "PolicyQualifierId" (univ "ObjectIdentifier") [set "subtypeSpec" (EBin OAdd (EAttr (univ "ObjectIdentifier") "subtypeSpec") (call (qual "constraint" "SingleValueConstraint") [EName "id_qt_cps"; EName "id_qt_unotice"]))]);
  (907%N, SClass "CertPolicyId" (univ "ObjectIdentifier") [SPass]);
  (911%N, SClass "PolicyQualifierInfo" (univ "Sequence") [set "componentType" (nts [nt "policyQualifierId" (new "PolicyQualifierId"); nt "qualifier" (call0 (univ "Any"))])]);
  (918%N, set "id_ce_certificatePolicies" (call (univ "ObjectIdentifier") [EStr "2.5.29.32"]));
  (921%N, SClass "PolicyInformation" (univ "Sequence") [set "componentType" (nts [nt "policyIdentifier" (new "CertPolicyId"); ont "policyQualifiers" (withspec (ECall (univ "SequenceOf") [] [("componentType", new "PolicyQualifierInfo")]) (sizec (EInt 1) (EName "MAX")))])]);
  (929%N, SClass "CertificatePolicies" (univ "SequenceOf") [set "componentType" (new "PolicyInformation"); set "sizeSpec" (EBin OAdd (EAttr (univ "SequenceOf") "sizeSpec") (sizec (EInt 1) (EName "MAX")))]);
  (934%N, set "id_ce_policyMappings" (call (univ "ObjectIdentifier") [EStr "2.5.29.33"]));
  (937%N, SClass "PolicyMapping" (univ "Sequence") [set "componentType" (nts [nt "issuerDomainPolicy" (new "CertPolicyId"); nt "subjectDomainPolicy" (new "CertPolicyId")])]);
  (944%N, SClass "PolicyMappings" (univ "SequenceOf") [set "componentType" (new "PolicyMapping"); set "sizeSpec" (EBin OAdd (EAttr (univ "SequenceOf") "sizeSpec") (sizec (EInt 1) (EName "MAX")))]);
  (949%N, set "id_ce_privateKeyUsagePeriod" (call (univ "ObjectIdentifier") [EStr "2.5.29.16"]));
  (952%N, SClass "PrivateKeyUsagePeriod" (univ "Sequence") [set "componentType" (nts [ont "notBefore" (implicit (call0 (useful "GeneralizedTime")) (ctxS 0)); ont "notAfter" (implicit (call0 (useful "GeneralizedTime")) (ctxS 1))])]);
  (961%N, set "id_ce_keyUsage" (call (univ "ObjectIdentifier") [EStr "2.5.29.15"]));
  (964%N, SClass "KeyUsage" (univ "BitString") [set "namedValues" (nvs [nv "digitalSignature" 0; nv "nonRepudiation" 1; nv "keyEncipherment" 2; nv "dataEncipherment" 3; nv "keyAgreement" 4; nv "keyCertSign" 5; nv "cRLSign" 6; nv "encipherOnly" 7; nv "decipherOnly" 8])]);
  (978%N, set "id_ce" (call (univ "ObjectIdentifier") [EStr "2.5.29"]));
  (980%N, set "id_ce_authorityKeyIdentifier" (call (univ "ObjectIdentifier") [EStr "2.5.29.35"]));
  (983%N, SClass "KeyIdentifier" (univ "OctetString") [SPass]);
  (987%N, set "id_ce_subjectKeyIdentifier" (call (univ "ObjectIdentifier") [EStr "2.5.29.14"]));
  (990%N, SClass "SubjectKeyIdentifier" (EName "KeyIdentifier") [SPass]);
  (994%N, set "id_ce_certificateIssuer" (call (univ "ObjectIdentifier") [EStr "2.5.29.29"]));
  (997%N, set "id_ce_subjectAltName" (call (univ "ObjectIdentifier") [EStr "2.5.29.17"]));
  (1000%N, set "id_ce_issuerAltName" (call (univ "ObjectIdentifier") [EStr "2.5.29.18"]));
  (1003%N, SClass "AttributeValue" (univ "Any") [SPass]);
  (1007%N, SClass "AttributeType" (univ "ObjectIdentifier") [SPass]);
  (1010%N, set "certificateAttributesMap" (EDict []));
  (1013%N, SClass "AttributeTypeAndValue" (univ "Sequence") [set "componentType" (nts [nt "type" (new "AttributeType"); ECall (qual "namedtype" "NamedType") [EStr "value"; new "AttributeValue"] [("openType", call (qual "opentype" "OpenType") [EStr "type"; EName "certificateAttributesMap"])]])]);
  (1021%N, SClass "Attribute" (univ "Sequence") [set "componentType" (nts [nt "type" (new "AttributeType"); nt "vals" (ECall (univ "SetOf") [] [("componentType", new "AttributeValue")])])]);
  (1028%N, SClass "SubjectDirectoryAttributes" (univ "SequenceOf") [set "componentType" (new "Attribute"); set "sizeSpec" (EBin OAdd (EAttr (univ "SequenceOf") "sizeSpec") (sizec (EInt 1) (EName "MAX")))]);
  (1033%N, SClass "RelativeDistinguishedName" (univ "SetOf") [set "componentType" (new "AttributeTypeAndValue")]);
  (1037%N, SClass "RDNSequence" (univ "SequenceOf") [set "componentType" (new "RelativeDistinguishedName")]);
  (1041%N, SClass "Name" (univ "Choice") [set "componentType" (nts [nt "" (new "RDNSequence")])]);
  (1046%N, SClass "CertificateSerialNumber" (univ "Integer") [SPass]);
  (1050%N, SClass "AnotherName" (univ "Sequence") [set "componentType" (nts [nt "type-id" (call0 (univ "ObjectIdentifier")); nt "value" (explicit (call0 (univ "Any")) (ctxS 0))])]);
  (1058%N, SClass "GeneralName" (univ "Choice") [set "componentType" (nts [nt "otherName" (implicit (new "AnotherName") (ctxS 0)); nt "rfc822Name" (implicit (call0 (chr "IA5String")) (ctxS 1)); nt "dNSName" (implicit (call0 (chr "IA5String")) (ctxS 2)); nt "x400Address" (implicit (new "ORAddress") (ctxS 3)); nt "directoryName" (implicit (new "Name") (ctxS 4)); nt "ediPartyName" (implicit (new "EDIPartyName") (ctxS 5)); nt "uniformResourceIdentifier" (implicit (call0 (chr "IA5String")) (ctxS 6)); nt "iPAddress" (implicit (call0 (univ "OctetString")) (ctxS 7)); nt "registeredID" (implicit (call0 (univ "ObjectIdentifier")) (ctxS 8))])]);
  (1081%N, SClass "GeneralNames" (univ "SequenceOf") [set "componentType" (new "GeneralName"); set "sizeSpec" (EBin OAdd (EAttr (univ "SequenceOf") "sizeSpec") (sizec (EInt 1) (EName "MAX")))]);
  (1086%N, SClass "AccessDescription" (univ "Sequence") [set "componentType" (nts [nt "accessMethod" (call0 (univ "ObjectIdentifier")); nt "accessLocation" (new "GeneralName")])]);
  (1093%N, SClass "AuthorityInfoAccessSyntax" (univ "SequenceOf") [set "componentType" (new "AccessDescription"); set "sizeSpec" (EBin OAdd (EAttr (univ "SequenceOf") "sizeSpec") (sizec (EInt 1) (EName "MAX")))]);
  (1098%N, SClass "AuthorityKeyIdentifier" (univ "Sequence") [set "componentType" (nts [ont "keyIdentifier" (implicit (new "KeyIdentifier") (ctxS 0)); ont "authorityCertIssuer" (implicit (new "GeneralNames") (ctxS 1)); ont "authorityCertSerialNumber" (implicit (new "CertificateSerialNumber") (ctxS 2))])]);
  (1109%N, SClass "DistributionPointName" (univ "Choice") [set "componentType" (nts [nt "fullName" (implicit (new "GeneralNames") (ctxC 0)); nt "nameRelativeToCRLIssuer" (implicit (new "RelativeDistinguishedName") (ctxC 1))])]);
  (1118%N, SClass "DistributionPoint" (univ "Sequence") [set "componentType" (nts [ont "distributionPoint" (implicit (new "DistributionPointName") (ctxC 0)); ont "reasons" (implicit (new "ReasonFlags") (ctxS 1)); ont "cRLIssuer" (implicit (new "GeneralNames") (ctxC 2))])]);
  (1129%N, SClass "CRLDistPointsSyntax" (univ "SequenceOf") [set "componentType" (new "DistributionPoint"); set "sizeSpec" (EBin OAdd (EAttr (univ "SequenceOf") "sizeSpec") (sizec (EInt 1) (EName "MAX")))]);
  (1134%N, SClass "IssuingDistributionPoint" (univ "Sequence") [set "componentType" (nts [ont "distributionPoint" (implicit (new "DistributionPointName") (ctxC 0)); nt "onlyContainsUserCerts" (implicit (call (univ "Boolean") [EBool false]) (ctxS 1)); nt "onlyContainsCACerts" (implicit (call (univ "Boolean") [EBool false]) (ctxS 2)); ont "onlySomeReasons" (implicit (new "ReasonFlags") (ctxS 3)); nt "indirectCRL" (implicit (call (univ "Boolean") [EBool false]) (ctxS 4))])]);
  (1149%N, SClass "GeneralSubtree" (univ "Sequence") [set "componentType" (nts [nt "base" (new "GeneralName"); dnt "minimum" (implicit (call (EName "BaseDistance") [EInt 0]) (ctxC 0)); ont "maximum" (implicit (new "BaseDistance") (ctxC 1))])]);
  (1159%N, SClass "GeneralSubtrees" (univ "SequenceOf") [set "componentType" (new "GeneralSubtree"); set "sizeSpec" (EBin OAdd (EAttr (univ "SequenceOf") "sizeSpec") (sizec (EInt 1) (EName "MAX")))]);
  (1164%N, SClass "NameConstraints" (univ "Sequence") [set "componentType" (nts [ont "permittedSubtrees" (implicit (new "GeneralSubtrees") (ctxC 0)); ont "excludedSubtrees" (implicit (new "GeneralSubtrees") (ctxC 1))])]);
  (1173%N, SClass "CertificateIssuer" (EName "GeneralNames") [SPass]);
  (1177%N, SClass "SubjectAltName" (EName "GeneralNames") [SPass]);
  (1181%N, SClass "IssuerAltName" (EName "GeneralNames") [SPass]);
  (1185%N, set "certificateExtensionsMap" (EDict []));
  (1188%N, SClass "Extension" (univ "Sequence") [set "componentType" (nts [nt "extnID" (call0 (univ "ObjectIdentifier")); dnt "critical" (call (univ "Boolean") [EStr "False"]); ECall (qual "namedtype" "NamedType") [EStr "extnValue"; call0 (univ "OctetString")] [("openType", call (qual "opentype" "OpenType") [EStr "extnID"; EName "certificateExtensionsMap"])]])]);
  (1197%N, SClass "Extensions" (univ "SequenceOf") [set "componentType" (new "Extension"); set "sizeSpec" (EBin OAdd (EAttr (univ "SequenceOf") "sizeSpec") (sizec (EInt 1) (EName "MAX")))]);
  (1202%N, SClass "SubjectPublicKeyInfo" (univ "Sequence") [set "componentType" (nts [nt "algorithm" (new "AlgorithmIdentifier"); nt "subjectPublicKey" (call0 (univ "BitString"))])]);
  (1209%N, SClass "UniqueIdentifier" (univ "BitString") [SPass]);
  (1213%N, SClass "Time" (univ "Choice") [set "componentType" (nts [nt "utcTime" (call0 (useful "UTCTime")); nt "generalTime" (call0 (useful "GeneralizedTime"))])]);
  (1220%N, SClass "Validity" (univ "Sequence") [set "componentType" (nts [nt "notBefore" (new "Time"); nt "notAfter" (new "Time")])]);
  (1227%N, SClass "Version" (univ "Integer") [set "namedValues" (nvs [nv "v1" 0; nv "v2" 1; nv "v3" 2])]);
  (1233%N, SClass "TBSCertificate" (univ "Sequence") [set "componentType" (nts [dnt "version" (explicit (call (EName "Version") [EStr "v1"]) (ctxS 0)); nt "serialNumber" (new "CertificateSerialNumber"); nt "signature" (new "AlgorithmIdentifier"); nt "issuer" (new "Name"); nt "validity" (new "Validity"); nt "subject" (new "Name"); nt "subjectPublicKeyInfo" (new "SubjectPublicKeyInfo"); ont "issuerUniqueID" (implicit (new "UniqueIdentifier") (ctxS 1)); ont "subjectUniqueID" (implicit (new "UniqueIdentifier") (ctxS 2)); ont "extensions" (explicit (new "Extensions") (ctxS 3))])]);
  (1252%N, SClass "Certificate" (univ "Sequence") [set "componentType" (nts [nt "tbsCertificate" (new "TBSCertificate"); nt "signatureAlgorithm" (new "AlgorithmIdentifier"); nt "signatureValue" (call0 (univ "BitString"))])]);
  (1261%N, SClass "RevokedCertificate" (univ "Sequence") [set "componentType" (nts [nt "userCertificate" (new "CertificateSerialNumber"); nt "revocationDate" (new "Time"); ont "crlEntryExtensions" (new "Extensions")])]);
  (1269%N, SClass "TBSCertList" (univ "Sequence") [set "componentType" (nts [ont "version" (new "Version"); nt "signature" (new "AlgorithmIdentifier"); nt "issuer" (new "Name"); nt "thisUpdate" (new "Time"); ont "nextUpdate" (new "Time"); ont "revokedCertificates" (ECall (univ "SequenceOf") [] [("componentType", new "RevokedCertificate")]); ont "crlExtensions" (explicit (new "Extensions") (ctxC 0))])]);
  (1282%N, SClass "CertificateList" (univ "Sequence") [set "componentType" (nts [nt "tbsCertList" (new "TBSCertList"); nt "signatureAlgorithm" (new "AlgorithmIdentifier"); nt "signature" (call0 (univ "BitString"))])]);
  (1291%N, set "_certificateAttributesMapUpdate" (EDict [(EName "id_at_name", new "X520name"); (EName "id_at_surname", new "X520name"); (EName "id_at_givenName", new "X520name"); (EName "id_at_initials", new "X520name"); (EName "id_at_generationQualifier", new "X520name"); (EName "id_at_commonName", new "X520CommonName"); (EName "id_at_localityName", new "X520LocalityName"); (EName "id_at_stateOrProvinceName", new "X520StateOrProvinceName"); (EName "id_at_organizationName", new "X520OrganizationName"); (EName "id_at_organizationalUnitName", new "X520OrganizationalUnitName"); (EName "id_at_title", new "X520Title"); (EName "id_at_dnQualifier", new "X520dnQualifier"); (EName "id_at_countryName", new "X520countryName"); (EName "emailAddress", new "Pkcs9email")]));
  (1308%N, SExpr (call (qual "certificateAttributesMap" "update") [EName "_certificateAttributesMapUpdate"]));
  (1313%N, set "_certificateExtensionsMapUpdate" (EDict [(EName "id_ce_authorityKeyIdentifier", new "AuthorityKeyIdentifier"); (EName "id_ce_subjectKeyIdentifier", new "SubjectKeyIdentifier"); (EName "id_ce_keyUsage", new "KeyUsage"); (EName "id_ce_privateKeyUsagePeriod", new "PrivateKeyUsagePeriod"); (EName "id_ce_certificatePolicies", new "CertificatePolicies"); (EName "id_ce_policyMappings", new "PolicyMappings"); (EName "id_ce_subjectAltName", new "SubjectAltName"); (EName "id_ce_issuerAltName", new "IssuerAltName"); (EName "id_ce_subjectDirectoryAttributes", new "SubjectDirectoryAttributes"); (EName "id_ce_basicConstraints", new "BasicConstraints"); (EName "id_ce_nameConstraints", new "NameConstraints"); (EName "id_ce_policyConstraints", new "PolicyConstraints"); (EName "id_ce_extKeyUsage", new "ExtKeyUsageSyntax"); (EName "id_ce_cRLDistributionPoints", new "CRLDistPointsSyntax"); (EName "id_pe_authorityInfoAccess", new "AuthorityInfoAccessSyntax"); (EName "id_ce_cRLNumber", call0 (univ "Integer")); (EName "id_ce_deltaCRLIndicator", new "BaseCRLNumber"); (EName "id_ce_issuingDistributionPoint", new "IssuingDistributionPoint"); (EName "id_ce_cRLReasons", new "CRLReason"); (EName "id_ce_holdInstructionCode", call0 (univ "ObjectIdentifier")); (EName "id_ce_invalidityDate", call0 (useful "GeneralizedTime")); (EName "id_ce_certificateIssuer", new "GeneralNames")]));
  (1338%N, SExpr (call (qual "certificateExtensionsMap" "update") [EName "_certificateExtensionsMapUpdate"]))
].
