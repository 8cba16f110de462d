(** pyasn1_modules/rfc5755.py, printed by tools/py2coq.py.  Every statement is
    preceded by its line number in that file. *)
From Verif Require Import Py.Syntax.
From Coq Require Import List String ZArith NArith.
Import ListNotations.
Open Scope string_scope.
Open Scope Z_scope.

Definition src : module := [
  (16%N, SFrom "pyasn1.type" [("char", "char")]);
  (17%N, SFrom "pyasn1.type" [("constraint", "constraint")]);
  (18%N, SFrom "pyasn1.type" [("namedtype", "namedtype")]);
  (19%N, SFrom "pyasn1.type" [("namedval", "namedval")]);
  (20%N, SFrom "pyasn1.type" [("opentype", "opentype")]);
  (21%N, SFrom "pyasn1.type" [("tag", "tag")]);
  (22%N, SFrom "pyasn1.type" [("univ", "univ")]);
  (23%N, SFrom "pyasn1.type" [("useful", "useful")]);
  (25%N, SFrom "pyasn1_modules" [("rfc5280", "rfc5280")]);
  (26%N, SFrom "pyasn1_modules" [("rfc5652", "rfc5652")]);
  (28%N, set "MAX" (call (EName "float") [EStr "inf"]));
  (32%N, set "securityCategoryMap" (EDict []));
  (37%N, set "ContentInfo" (qual "rfc5652" "ContentInfo"));
  (42%N, set "AlgorithmIdentifier" (qual "rfc5280" "AlgorithmIdentifier"));
  (44%N, set "Attribute" (qual "rfc5280" "Attribute"));
  (46%N, set "AuthorityInfoAccessSyntax" (qual "rfc5280" "AuthorityInfoAccessSyntax"));
  (48%N, set "AuthorityKeyIdentifier" (qual "rfc5280" "AuthorityKeyIdentifier"));
  (50%N, set "CertificateSerialNumber" (qual "rfc5280" "CertificateSerialNumber"));
  (52%N, set "CRLDistributionPoints" (qual "rfc5280" "CRLDistributionPoints"));
  (54%N, set "Extensions" (qual "rfc5280" "Extensions"));
  (56%N, set "Extension" (qual "rfc5280" "Extension"));
  (58%N, set "GeneralNames" (qual "rfc5280" "GeneralNames"));
  (60%N, set "GeneralName" (qual "rfc5280" "GeneralName"));
  (62%N, set "UniqueIdentifier" (qual "rfc5280" "UniqueIdentifier"));
  (67%N, set "id_pkix" (call (univ "ObjectIdentifier") [ETuple [EInt 1; EInt 3; EInt 6; EInt 1; EInt 5; EInt 5; EInt 7]]));
  (69%N, set "id_pe" (EBin OAdd (EName "id_pkix") (ETuple [EInt 1])));
  (71%N, set "id_kp" (EBin OAdd (EName "id_pkix") (ETuple [EInt 3])));
  (73%N, set "id_aca" (EBin OAdd (EName "id_pkix") (ETuple [EInt 10])));
  (75%N, set "id_ad" (EBin OAdd (EName "id_pkix") (ETuple [EInt 48])));
  (77%N, set "id_at" (call (univ "ObjectIdentifier") [ETuple [EInt 2; EInt 5; EInt 4]]));
  (79%N, set "id_ce" (call (univ "ObjectIdentifier") [ETuple [EInt 2; EInt 5; EInt 29]]));
  (84%N, SClass "AttCertVersion" (univ "Integer") [set "namedValues" (nvs [nv "v2" 1])]);
  (90%N, SClass "IssuerSerial" (univ "Sequence") [set "componentType" (nts [nt "issuer" (new "GeneralNames"); nt "serial" (new "CertificateSerialNumber"); ont "issuerUID" (new "UniqueIdentifier")])]);
  (98%N, SClass "ObjectDigestInfo" (univ "Sequence") [set "componentType" (nts [nt "digestedObjectType" (ECall (univ "Enumerated") [] [("namedValues", nvs [nv "publicKey" 0; nv "publicKeyCert" 1; nv "otherObjectTypes" 2])]); ont "otherObjectTypeID" (call0 (univ "ObjectIdentifier")); nt "digestAlgorithm" (new "AlgorithmIdentifier"); nt "objectDigest" (call0 (univ "BitString"))])]);
  (114%N, SClass "Holder" (univ "Sequence") [set "componentType" (nts [ont "baseCertificateID" (implicit (new "IssuerSerial") (ctxC 0)); ont "entityName" (implicit (new "GeneralNames") (ctxS 1)); ont "objectDigestInfo" (implicit (new "ObjectDigestInfo") (ctxC 2))])]);
  (128%N, SClass "V2Form" (univ "Sequence") [set "componentType" (nts [ont "issuerName" (new "GeneralNames"); ont "baseCertificateID" (implicit (new "IssuerSerial") (ctxC 0)); ont "objectDigestInfo" (implicit (new "ObjectDigestInfo") (ctxC 1))])]);
  (141%N, SClass "AttCertIssuer" (univ "Choice") [set "componentType" (nts [nt "v1Form" (new "GeneralNames"); nt "v2Form" (implicit (new "V2Form") (ctxC 0))])]);
  (149%N, SClass "AttCertValidityPeriod" (univ "Sequence") [set "componentType" (nts [nt "notBeforeTime" (call0 (useful "GeneralizedTime")); nt "notAfterTime" (call0 (useful "GeneralizedTime"))])]);
  (156%N, SClass "AttributeCertificateInfo" (univ "Sequence") [set "componentType" (nts [nt "version" (new "AttCertVersion"); nt "holder" (new "Holder"); nt "issuer" (new "AttCertIssuer"); nt "signature" (new "AlgorithmIdentifier"); nt "serialNumber" (new "CertificateSerialNumber"); nt "attrCertValidityPeriod" (new "AttCertValidityPeriod"); nt "attributes" (ECall (univ "SequenceOf") [] [("componentType", new "Attribute")]); ont "issuerUniqueID" (new "UniqueIdentifier"); ont "extensions" (new "Extensions")])]);
  (179%N, SClass "AttributeCertificate" (univ "Sequence") [set "componentType" (nts [nt "acinfo" (new "AttributeCertificateInfo"); nt "signatureAlgorithm" (new "AlgorithmIdentifier"); nt "signatureValue" (call0 (univ "BitString"))])]);
  (189%N, set "id_pe_ac_auditIdentity" (EBin OAdd (EName "id_pe") (ETuple [EInt 4])));
  (191%N, set "id_ce_noRevAvail" (EBin OAdd (EName "id_ce") (ETuple [EInt 56])));
  (193%N, set "id_ce_targetInformation" (EBin OAdd (EName "id_ce") (ETuple [EInt 55])));
  (196%N, SClass "TargetCert" (univ "Sequence") [set "componentType" (nts [nt "targetCertificate" (new "IssuerSerial"); ont "targetName" (new "GeneralName"); ont "certDigestInfo" (new "ObjectDigestInfo")])]);
  (204%N, SClass "Target" (univ "Choice") [set "componentType" (nts [nt "targetName" (implicit (new "GeneralName") (ctxS 0)); nt "targetGroup" (implicit (new "GeneralName") (ctxS 1)); nt "targetCert" (implicit (new "TargetCert") (ctxC 2))])]);
  (218%N, SClass "Targets" (univ "SequenceOf") [set "componentType" (new "Target")]);
  (222%N, set "id_pe_ac_proxying" (EBin OAdd (EName "id_pe") (ETuple [EInt 10])));
  (225%N, SClass "ProxyInfo" (univ "SequenceOf") [set "componentType" (new "Targets")]);
  (229%N, set "id_pe_aaControls" (EBin OAdd (EName "id_pe") (ETuple [EInt 6])));
  (232%N, SClass "AttrSpec" (univ "SequenceOf") [set "componentType" (call0 (univ "ObjectIdentifier"))]);
  (236%N, SClass "AAControls" (univ "Sequence") [set "componentType" (nts [ont "pathLenConstraint" (withspec (call0 (univ "Integer")) (rangec (EInt 0) (EName "MAX"))); ont "permittedAttrs" (implicit (new "AttrSpec") (ctxS 0)); ont "excludedAttrs" (implicit (new "AttrSpec") (ctxS 1)); dnt "permitUnSpecified" (withvalue (call0 (univ "Boolean")) (EInt 1))])]);
  (254%N, set "id_aca_authenticationInfo" (EBin OAdd (EName "id_aca") (ETuple [EInt 1])));
  (257%N, set "id_aca_accessIdentity" (EBin OAdd (EName "id_aca") (ETuple [EInt 2])));
  (260%N, SClass "SvceAuthInfo" (univ "Sequence") [set "componentType" (nts [nt "service" (new "GeneralName"); nt "ident" (new "GeneralName"); ont "authInfo" (call0 (univ "OctetString"))])]);
  (268%N, set "id_aca_chargingIdentity" (EBin OAdd (EName "id_aca") (ETuple [EInt 3])));
  (271%N, set "id_aca_group" (EBin OAdd (EName "id_aca") (ETuple [EInt 4])));
  (274%N, SClass "IetfAttrSyntax" (univ "Sequence") [set "componentType" (nts [ont "policyAuthority" (implicit (new "GeneralNames") (ctxS 0)); nt "values" (ECall (univ "SequenceOf") [] [("componentType", ECall (univ "Choice") [] [("componentType", nts [nt "octets" (call0 (univ "OctetString")); nt "oid" (call0 (univ "ObjectIdentifier")); nt "string" (call0 (chr "UTF8String"))])])])])]);
  (289%N, set "id_at_role" (EBin OAdd (EName "id_at") (ETuple [EInt 72])));
  (292%N, SClass "RoleSyntax" (univ "Sequence") [set "componentType" (nts [ont "roleAuthority" (implicit (new "GeneralNames") (ctxS 0)); nt "roleName" (implicit (new "GeneralName") (ctxS 1))])]);
  (303%N, SClass "ClassList" (univ "BitString") [set "namedValues" (nvs [nv "unmarked" 0; nv "unclassified" 1; nv "restricted" 2; nv "confidential" 3; nv "secret" 4; nv "topSecret" 5])]);
  (314%N, SClass "SecurityCategory" (univ "Sequence") [set "componentType" (nts [nt "type" (implicit (call0 (univ "ObjectIdentifier")) (ctxS 0)); ECall (qual "namedtype" "NamedType") [EStr "value"; implicit (call0 (univ "Any")) (ctxS 1)] [("openType", call (qual "opentype" "OpenType") [EStr "type"; EName "securityCategoryMap"])]])]);
  (326%N, set "id_at_clearance" (call (univ "ObjectIdentifier") [ETuple [EInt 2; EInt 5; EInt 4; EInt 55]]));
  (329%N, SClass "Clearance" (univ "Sequence") [set "componentType" (nts [nt "policyId" (call0 (univ "ObjectIdentifier")); dnt "classList" (withvalue (new "ClassList") (EStr "unclassified")); ont "securityCategories" (ECall (univ "SetOf") [] [("componentType", new "SecurityCategory")])])]);
  (340%N, set "id_at_clearance_rfc3281" (call (univ "ObjectIdentifier") [ETuple [EInt 2; EInt 5; EInt 1; EInt 5; EInt 55]]));
  (343%N, SClass "Clearance_rfc3281" (univ "Sequence") [set "componentType" (nts [nt "policyId" (implicit (call0 (univ "ObjectIdentifier")) (ctxS 0)); dnt "classList" (withvalue (implicit (new "ClassList") (ctxS 1)) (EStr "unclassified")); ont "securityCategories" (implicit (ECall (univ "SetOf") [] [("componentType", new "SecurityCategory")]) (ctxS 2))])]);
  (359%N, set "id_aca_encAttrs" (EBin OAdd (EName "id_aca") (ETuple [EInt 6])));
  (362%N, SClass "ACClearAttrs" (univ "Sequence") [set "componentType" (nts [nt "acIssuer" (new "GeneralName"); nt "acSerial" (call0 (univ "Integer")); nt "attrs" (ECall (univ "SequenceOf") [] [("componentType", new "Attribute")])])]);
  (373%N, set "_certificateExtensionsMapUpdate" (EDict [(EName "id_pe_ac_auditIdentity", call0 (univ "OctetString")); (EName "id_ce_noRevAvail", call0 (univ "Null")); (EName "id_ce_targetInformation", new "Targets"); (EName "id_pe_ac_proxying", new "ProxyInfo"); (EName "id_pe_aaControls", new "AAControls")]));
  (381%N, SExpr (call (EAttr (qual "rfc5280" "certificateExtensionsMap") "update") [EName "_certificateExtensionsMapUpdate"]));
  (387%N, set "_certificateAttributesMapUpdate" (EDict [(EName "id_aca_authenticationInfo", new "SvceAuthInfo"); (EName "id_aca_accessIdentity", new "SvceAuthInfo"); (EName "id_aca_chargingIdentity", new "IetfAttrSyntax"); (EName "id_aca_group", new "IetfAttrSyntax"); (EName "id_at_role", new "RoleSyntax"); (EName "id_at_clearance", new "Clearance"); (EName "id_at_clearance_rfc3281", new "Clearance_rfc3281"); (EName "id_aca_encAttrs", new "ContentInfo")]));
  (398%N, SExpr (call (EAttr (qual "rfc5280" "certificateAttributesMap") "update") [EName "_certificateAttributesMapUpdate"]))
].
