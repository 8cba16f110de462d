(** pyasn1_modules/rfc3281.py, printed by tools/py2coq.py.  Every statement is
    preceded by its line number in that file. *)
From Verif Require Import Py.Syntax.
From Coq Require Import List String ZArith NArith.
Import ListNotations.
Open Scope string_scope.
Open Scope Z_scope.

Definition src : module := [
  (14%N, SFrom "pyasn1.type" [("char", "char")]);
  (15%N, SFrom "pyasn1.type" [("constraint", "constraint")]);
  (16%N, SFrom "pyasn1.type" [("namedtype", "namedtype")]);
  (17%N, SFrom "pyasn1.type" [("namedval", "namedval")]);
  (18%N, SFrom "pyasn1.type" [("tag", "tag")]);
  (19%N, SFrom "pyasn1.type" [("univ", "univ")]);
  (20%N, SFrom "pyasn1.type" [("useful", "useful")]);
  (22%N, SFrom "pyasn1_modules" [("rfc3280", "rfc3280")]);
  (24%N, set "MAX" (call (EName "float") [EStr "inf"]));
  (27%N, SDef "_buildOid" [] (Some "components") [set "output" (EList []); SFor "x" (call (EName "tuple") [EName "components"]) [SIf (call (EName "isinstance") [EName "x"; univ "ObjectIdentifier"]) [SExpr (call (qual "output" "extend") [call (EName "list") [EName "x"]])] [SExpr (call (qual "output" "append") [call (EName "int") [EName "x"]])]]; SReturn (call (univ "ObjectIdentifier") [EName "output"])]);
  (38%N, SClass "ObjectDigestInfo" (univ "Sequence") [SPass]);
  (42%N, seta "ObjectDigestInfo" "componentType" (nts [nt "digestedObjectType" (ECall (univ "Enumerated") [] [("namedValues", nvs [nv "publicKey" 0; nv "publicKeyCert" 1; nv "otherObjectTypes" 2])]); ont "otherObjectTypeID" (call0 (univ "ObjectIdentifier")); nt "digestAlgorithm" (call0 (qual "rfc3280" "AlgorithmIdentifier")); nt "objectDigest" (call0 (univ "BitString"))]));
  (51%N, SClass "IssuerSerial" (univ "Sequence") [SPass]);
  (55%N, seta "IssuerSerial" "componentType" (nts [nt "issuer" (call0 (qual "rfc3280" "GeneralNames")); nt "serial" (call0 (qual "rfc3280" "CertificateSerialNumber")); ont "issuerUID" (call0 (qual "rfc3280" "UniqueIdentifier"))]));
  (62%N, SClass "TargetCert" (univ "Sequence") [SPass]);
  (66%N, seta "TargetCert" "componentType" (nts [nt "targetCertificate" (new "IssuerSerial"); ont "targetName" (call0 (qual "rfc3280" "GeneralName")); ont "certDigestInfo" (new "ObjectDigestInfo")]));
  (73%N, SClass "Target" (univ "Choice") [SPass]);
  (77%N, seta "Target" "componentType" (nts [nt "targetName" (implicit (call0 (qual "rfc3280" "GeneralName")) (ctxS 0)); nt "targetGroup" (implicit (call0 (qual "rfc3280" "GeneralName")) (ctxS 1)); nt "targetCert" (implicit (new "TargetCert") (ctxC 2))]));
  (87%N, SClass "Targets" (univ "SequenceOf") [SPass]);
  (91%N, seta "Targets" "componentType" (new "Target"));
  (94%N, SClass "ProxyInfo" (univ "SequenceOf") [SPass]);
  (98%N, seta "ProxyInfo" "componentType" (new "Targets"));
  (100%N, set "id_at_role" (call (EName "_buildOid") [qual "rfc3280" "id_at"; EInt 72]));
  (102%N, set "id_pe_aaControls" (call (EName "_buildOid") [qual "rfc3280" "id_pe"; EInt 6]));
  (104%N, set "id_ce_targetInformation" (call (EName "_buildOid") [qual "rfc3280" "id_ce"; EInt 55]));
  (106%N, set "id_pe_ac_auditIdentity" (call (EName "_buildOid") [qual "rfc3280" "id_pe"; EInt 4]));
  (109%N, SClass "ClassList" (univ "BitString") [SPass]);
  (113%N, seta "ClassList" "namedValues" (nvs [nv "unmarked" 0; nv "unclassified" 1; nv "restricted" 2; nv "confidential" 3; nv "secret" 4; nv "topSecret" 5]));
  (123%N, SClass "SecurityCategory" (univ "Sequence") [SPass]);
  (127%N, seta "SecurityCategory" "componentType" (nts [nt "type" (implicit (call0 (univ "ObjectIdentifier")) (ctxS 0)); nt "value" (implicit (call0 (univ "Any")) (ctxS 1))]));
  (134%N, SClass "Clearance" (univ "Sequence") [SPass]);
  (138%N, seta "Clearance" "componentType" (nts [nt "policyId" (implicit (call0 (univ "ObjectIdentifier")) (ctxS 0)); dnt "classList" (withvalue (implicit (new "ClassList") (ctxS 1)) (EStr "unclassified")); ont "securityCategories" (implicit (ECall (univ "SetOf") [] [("componentType", new "SecurityCategory")]) (ctxS 2))]));
  (150%N, SClass "AttCertVersion" (univ "Integer") [SPass]);
  (154%N, seta "AttCertVersion" "namedValues" (nvs [nv "v2" 1]));
  (158%N, set "id_aca" (call (EName "_buildOid") [qual "rfc3280" "id_pkix"; EInt 10]));
  (160%N, set "id_at_clearance" (call (EName "_buildOid") [EInt 2; EInt 5; EInt 1; EInt 5; EInt 55]));
  (163%N, SClass "AttrSpec" (univ "SequenceOf") [SPass]);
  (167%N, seta "AttrSpec" "componentType" (call0 (univ "ObjectIdentifier")));
  (170%N, SClass "AAControls" (univ "Sequence") [SPass]);
  (174%N, seta "AAControls" "componentType" (nts [ont "pathLenConstraint" (withspec (call0 (univ "Integer")) (rangec (EInt 0) (EName "MAX"))); ont "permittedAttrs" (implicit (new "AttrSpec") (ctxS 0)); ont "excludedAttrs" (implicit (new "AttrSpec") (ctxS 1)); dnt "permitUnSpecified" (withvalue (call0 (univ "Boolean")) (EInt 1))]));
  (185%N, SClass "AttCertValidityPeriod" (univ "Sequence") [SPass]);
  (189%N, seta "AttCertValidityPeriod" "componentType" (nts [nt "notBeforeTime" (call0 (useful "GeneralizedTime")); nt "notAfterTime" (call0 (useful "GeneralizedTime"))]));
  (195%N, set "id_aca_authenticationInfo" (call (EName "_buildOid") [EName "id_aca"; EInt 1]));
  (198%N, SClass "V2Form" (univ "Sequence") [SPass]);
  (202%N, seta "V2Form" "componentType" (nts [ont "issuerName" (call0 (qual "rfc3280" "GeneralNames")); ont "baseCertificateID" (implicit (new "IssuerSerial") (ctxC 0)); ont "objectDigestInfo" (implicit (new "ObjectDigestInfo") (ctxC 1))]));
  (211%N, SClass "AttCertIssuer" (univ "Choice") [SPass]);
  (215%N, seta "AttCertIssuer" "componentType" (nts [nt "v1Form" (call0 (qual "rfc3280" "GeneralNames")); nt "v2Form" (implicit (new "V2Form") (ctxC 0))]));
  (222%N, SClass "Holder" (univ "Sequence") [SPass]);
  (226%N, seta "Holder" "componentType" (nts [ont "baseCertificateID" (implicit (new "IssuerSerial") (ctxC 0)); ont "entityName" (implicit (call0 (qual "rfc3280" "GeneralNames")) (ctxS 1)); ont "objectDigestInfo" (implicit (new "ObjectDigestInfo") (ctxC 2))]));
  (236%N, SClass "AttributeCertificateInfo" (univ "Sequence") [SPass]);
  (240%N, seta "AttributeCertificateInfo" "componentType" (nts [nt "version" (new "AttCertVersion"); nt "holder" (new "Holder"); nt "issuer" (new "AttCertIssuer"); nt "signature" (call0 (qual "rfc3280" "AlgorithmIdentifier")); nt "serialNumber" (call0 (qual "rfc3280" "CertificateSerialNumber")); nt "attrCertValidityPeriod" (new "AttCertValidityPeriod"); nt "attributes" (ECall (univ "SequenceOf") [] [("componentType", call0 (qual "rfc3280" "Attribute"))]); ont "issuerUniqueID" (call0 (qual "rfc3280" "UniqueIdentifier")); ont "extensions" (call0 (qual "rfc3280" "Extensions"))]));
  (253%N, SClass "AttributeCertificate" (univ "Sequence") [SPass]);
  (257%N, seta "AttributeCertificate" "componentType" (nts [nt "acinfo" (new "AttributeCertificateInfo"); nt "signatureAlgorithm" (call0 (qual "rfc3280" "AlgorithmIdentifier")); nt "signatureValue" (call0 (univ "BitString"))]));
  (263%N, set "id_mod" (call (EName "_buildOid") [qual "rfc3280" "id_pkix"; EInt 0]));
  (265%N, set "id_mod_attribute_cert" (call (EName "_buildOid") [EName "id_mod"; EInt 12]));
  (267%N, set "id_aca_accessIdentity" (call (EName "_buildOid") [EName "id_aca"; EInt 2]));
  (270%N, SClass "RoleSyntax" (univ "Sequence") [SPass]);
  (274%N, seta "RoleSyntax" "componentType" (nts [ont "roleAuthority" (implicit (call0 (qual "rfc3280" "GeneralNames")) (ctxS 0)); nt "roleName" (implicit (call0 (qual "rfc3280" "GeneralName")) (ctxS 1))]));
  (281%N, set "id_aca_chargingIdentity" (call (EName "_buildOid") [EName "id_aca"; EInt 3]));
  (284%N, SClass "ACClearAttrs" (univ "Sequence") [SPass]);
  (288%N, seta "ACClearAttrs" "componentType" (nts [nt "acIssuer" (call0 (qual "rfc3280" "GeneralName")); nt "acSerial" (call0 (univ "Integer")); nt "attrs" (ECall (univ "SequenceOf") [] [("componentType", call0 (qual "rfc3280" "Attribute"))])]));
  (294%N, set "id_aca_group" (call (EName "_buildOid") [EName "id_aca"; EInt 4]));
  (296%N, set "id_pe_ac_proxying" (call (EName "_buildOid") [qual "rfc3280" "id_pe"; EInt 10]));
  (299%N, SClass "SvceAuthInfo" (univ "Sequence") [SPass]);
  (303%N, seta "SvceAuthInfo" "componentType" (nts [nt "service" (call0 (qual "rfc3280" "GeneralName")); nt "ident" (call0 (qual "rfc3280" "GeneralName")); ont "authInfo" (call0 (univ "OctetString"))]));
  (310%N, SClass "IetfAttrSyntax" (univ "Sequence") [SPass]);
  (314%N, seta "IetfAttrSyntax" "componentType" (nts [ont "policyAuthority" (implicit (call0 (qual "rfc3280" "GeneralNames")) (ctxS 0)); nt "values" (ECall (univ "SequenceOf") [] [("componentType", ECall (univ "Choice") [] [("componentType", nts [nt "octets" (call0 (univ "OctetString")); nt "oid" (call0 (univ "ObjectIdentifier")); nt "string" (call0 (chr "UTF8String"))])])])]));
  (331%N, set "id_aca_encAttrs" (call (EName "_buildOid") [EName "id_aca"; EInt 6]))
].
