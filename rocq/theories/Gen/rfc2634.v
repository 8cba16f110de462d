(** pyasn1_modules/rfc2634.py, printed by tools/py2coq.py.  Every statement is
    preceded by its line number in that file. *)
From Verif Require Import Py.Syntax.
From Coq Require Import List String ZArith NArith.
Import ListNotations.
Open Scope string_scope.
Open Scope Z_scope.

Definition src : module := [
  (16%N, SFrom "pyasn1.type" [("char", "char")]);
  (17%N, SFrom "pyasn1.type" [("constraint", "constraint")]);
  (18%N, SFrom "pyasn1.type" [("namedval", "namedval")]);
  (19%N, SFrom "pyasn1.type" [("namedtype", "namedtype")]);
  (20%N, SFrom "pyasn1.type" [("tag", "tag")]);
  (21%N, SFrom "pyasn1.type" [("univ", "univ")]);
  (22%N, SFrom "pyasn1.type" [("useful", "useful")]);
  (24%N, SFrom "pyasn1_modules" [("rfc5652", "rfc5652")]);
  (25%N, SFrom "pyasn1_modules" [("rfc5280", "rfc5280")]);
  (27%N, set "MAX" (call (EName "float") [EStr "inf"]));
  (29%N, set "ContentType" (qual "rfc5652" "ContentType"));
  (31%N, set "IssuerAndSerialNumber" (qual "rfc5652" "IssuerAndSerialNumber"));
  (33%N, set "SubjectKeyIdentifier" (qual "rfc5652" "SubjectKeyIdentifier"));
  (35%N, set "PolicyInformation" (qual "rfc5280" "PolicyInformation"));
  (37%N, set "GeneralNames" (qual "rfc5280" "GeneralNames"));
  (39%N, set "CertificateSerialNumber" (qual "rfc5280" "CertificateSerialNumber"));
  (45%N, set "id_aa_signingCertificate" (call (univ "ObjectIdentifier") [EStr "1.2.840.113549.1.9.16.2.12"]));
  (47%N, SClass "Hash" (univ "OctetString") [SPass]);
  (51%N, SClass "IssuerSerial" (univ "Sequence") [SPass]);
  (54%N, seta "IssuerSerial" "componentType" (nts [nt "issuer" (new "GeneralNames"); nt "serialNumber" (new "CertificateSerialNumber")]));
  (60%N, SClass "ESSCertID" (univ "Sequence") [SPass]);
  (63%N, seta "ESSCertID" "componentType" (nts [nt "certHash" (new "Hash"); ont "issuerSerial" (new "IssuerSerial")]));
  (69%N, SClass "SigningCertificate" (univ "Sequence") [SPass]);
  (72%N, seta "SigningCertificate" "componentType" (nts [nt "certs" (ECall (univ "SequenceOf") [] [("componentType", new "ESSCertID")]); ont "policies" (ECall (univ "SequenceOf") [] [("componentType", new "PolicyInformation")])]));
  (82%N, set "id_aa_mlExpandHistory" (call (univ "ObjectIdentifier") [EStr "1.2.840.113549.1.9.16.2.3"]));
  (84%N, set "ub_ml_expansion_history" (call (univ "Integer") [EInt 64]));
  (87%N, SClass "EntityIdentifier" (univ "Choice") [SPass]);
  (90%N, seta "EntityIdentifier" "componentType" (nts [nt "issuerAndSerialNumber" (new "IssuerAndSerialNumber"); nt "subjectKeyIdentifier" (new "SubjectKeyIdentifier")]));
  (96%N, SClass "MLReceiptPolicy" (univ "Choice") [SPass]);
  (99%N, seta "MLReceiptPolicy" "componentType" (nts [nt "none" (implicit (call0 (univ "Null")) (ctxS 0)); nt "insteadOf" (implicit (withsize (ECall (univ "SequenceOf") [] [("componentType", new "GeneralNames")]) (sizec (EInt 1) (EName "MAX"))) (ctxS 1)); nt "inAdditionTo" (implicit (withsize (ECall (univ "SequenceOf") [] [("componentType", new "GeneralNames")]) (sizec (EInt 1) (EName "MAX"))) (ctxS 2))]));
  (113%N, SClass "MLData" (univ "Sequence") [SPass]);
  (116%N, seta "MLData" "componentType" (nts [nt "mailListIdentifier" (new "EntityIdentifier"); nt "expansionTime" (call0 (useful "GeneralizedTime")); ont "mlReceiptPolicy" (new "MLReceiptPolicy")]));
  (122%N, SClass "MLExpansionHistory" (univ "SequenceOf") [SPass]);
  (125%N, seta "MLExpansionHistory" "componentType" (new "MLData"));
  (126%N, seta "MLExpansionHistory" "sizeSpec" (sizec (EInt 1) (EName "ub_ml_expansion_history")));
  (131%N, set "id_aa_securityLabel" (call (univ "ObjectIdentifier") [EStr "1.2.840.113549.1.9.16.2.2"]));
  (133%N, set "ub_privacy_mark_length" (call (univ "Integer") [EInt 128]));
  (135%N, set "ub_security_categories" (call (univ "Integer") [EInt 64]));
  (137%N, set "ub_integer_options" (call (univ "Integer") [EInt 256]));
  (140%N, SClass "ESSPrivacyMark" (univ "Choice") [SPass]);
  (143%N, seta "ESSPrivacyMark" "componentType" (nts [nt "pString" (withspec (call0 (chr "PrintableString")) (sizec (EInt 1) (EName "ub_privacy_mark_length"))); nt "utf8String" (withspec (call0 (chr "UTF8String")) (sizec (EInt 1) (EName "MAX")))]));
  (151%N, SClass "SecurityClassification" (univ "Integer") [SPass]);
  (154%N, seta "SecurityClassification" "subtypeSpec" (rangec (EInt 0) (EName "ub_integer_options")));
  (156%N, seta "SecurityClassification" "namedValues" (nvs [nv "unmarked" 0; nv "unclassified" 1; nv "restricted" 2; nv "confidential" 3; nv "secret" 4; nv "top-secret" 5]));
  (166%N, SClass "SecurityPolicyIdentifier" (univ "ObjectIdentifier") [SPass]);
  (170%N, SClass "SecurityCategory" (univ "Sequence") [SPass]);
  (173%N, seta "SecurityCategory" "componentType" (nts [nt "type" (implicit (call0 (univ "ObjectIdentifier")) (ctxS 0)); nt "value" (implicit (call0 (univ "Any")) (ctxS 1))]));
  (181%N, SClass "SecurityCategories" (univ "SetOf") [SPass]);
  (184%N, seta "SecurityCategories" "componentType" (new "SecurityCategory"));
  (185%N, seta "SecurityCategories" "sizeSpec" (sizec (EInt 1) (EName "ub_security_categories")));
  (188%N, SClass "ESSSecurityLabel" (univ "Set") [SPass]);
  (191%N, seta "ESSSecurityLabel" "componentType" (nts [nt "security-policy-identifier" (new "SecurityPolicyIdentifier"); ont "security-classification" (new "SecurityClassification"); ont "privacy-mark" (new "ESSPrivacyMark"); ont "security-categories" (new "SecurityCategories")]));
  (201%N, set "id_aa_equivalentLabels" (call (univ "ObjectIdentifier") [EStr "1.2.840.113549.1.9.16.2.9"]));
  (203%N, SClass "EquivalentLabels" (univ "SequenceOf") [SPass]);
  (206%N, seta "EquivalentLabels" "componentType" (new "ESSSecurityLabel"));
  (211%N, set "id_aa_contentIdentifier" (call (univ "ObjectIdentifier") [EStr "1.2.840.113549.1.9.16.2.7"]));
  (213%N, SClass "ContentIdentifier" (univ "OctetString") [SPass]);
  (219%N, set "id_aa_contentReference" (call (univ "ObjectIdentifier") [EStr "1.2.840.113549.1.9.16.2.10"]));
  (221%N, SClass "ContentReference" (univ "Sequence") [SPass]);
  (224%N, seta "ContentReference" "componentType" (nts [nt "contentType" (new "ContentType"); nt "signedContentIdentifier" (new "ContentIdentifier"); nt "originatorSignatureValue" (call0 (univ "OctetString"))]));
  (233%N, set "id_aa_msgSigDigest" (call (univ "ObjectIdentifier") [EStr "1.2.840.113549.1.9.16.2.5"]));
  (235%N, SClass "MsgSigDigest" (univ "OctetString") [SPass]);
  (241%N, set "id_aa_contentHint" (call (univ "ObjectIdentifier") [EStr "1.2.840.113549.1.9.16.2.4"]));
  (243%N, SClass "ContentHints" (univ "Sequence") [SPass]);
  (246%N, seta "ContentHints" "componentType" (nts [ont "contentDescription" (withspec (call0 (chr "UTF8String")) (sizec (EInt 1) (EName "MAX"))); nt "contentType" (new "ContentType")]));
  (254%N, SClass "AllOrFirstTier" (univ "Integer") [SPass]);
  (257%N, seta "AllOrFirstTier" "namedValues" (nvs [nv "allReceipts" 0; nv "firstTierRecipients" 1]));
  (263%N, SClass "ReceiptsFrom" (univ "Choice") [SPass]);
  (266%N, seta "ReceiptsFrom" "componentType" (nts [nt "allOrFirstTier" (implicit (new "AllOrFirstTier") (ctxS 0)); nt "receiptList" (implicit (ECall (univ "SequenceOf") [] [("componentType", new "GeneralNames")]) (ctxS 1))]));
  (275%N, set "id_aa_receiptRequest" (call (univ "ObjectIdentifier") [EStr "1.2.840.113549.1.9.16.2.1"]));
  (277%N, set "ub_receiptsTo" (call (univ "Integer") [EInt 16]));
  (279%N, SClass "ReceiptRequest" (univ "Sequence") [SPass]);
  (282%N, seta "ReceiptRequest" "componentType" (nts [nt "signedContentIdentifier" (new "ContentIdentifier"); nt "receiptsFrom" (new "ReceiptsFrom"); nt "receiptsTo" (withsize (ECall (univ "SequenceOf") [] [("componentType", new "GeneralNames")]) (sizec (EInt 1) (EName "ub_receiptsTo")))]));
  (290%N, SClass "ESSVersion" (univ "Integer") [SPass]);
  (293%N, seta "ESSVersion" "namedValues" (nvs [nv "v1" 1]));
  (298%N, set "id_ct_receipt" (call (univ "ObjectIdentifier") [EStr "1.2.840.113549.1.9.16.1.1"]));
  (300%N, SClass "Receipt" (univ "Sequence") [SPass]);
  (303%N, seta "Receipt" "componentType" (nts [nt "version" (new "ESSVersion"); nt "contentType" (new "ContentType"); nt "signedContentIdentifier" (new "ContentIdentifier"); nt "originatorSignatureValue" (call0 (univ "OctetString"))]));
  (314%N, set "_cmsAttributesMapUpdate" (EDict [(EName "id_aa_signingCertificate", new "SigningCertificate"); (EName "id_aa_mlExpandHistory", new "MLExpansionHistory"); (EName "id_aa_securityLabel", new "ESSSecurityLabel"); (EName "id_aa_equivalentLabels", new "EquivalentLabels"); (EName "id_aa_contentIdentifier", new "ContentIdentifier"); (EName "id_aa_contentReference", new "ContentReference"); (EName "id_aa_msgSigDigest", new "MsgSigDigest"); (EName "id_aa_contentHint", new "ContentHints"); (EName "id_aa_receiptRequest", new "ReceiptRequest")]));
  (326%N, SExpr (call (EAttr (qual "rfc5652" "cmsAttributesMap") "update") [EName "_cmsAttributesMapUpdate"]));
  (332%N, set "_cmsContentTypesMapUpdate" (EDict [(EName "id_ct_receipt", new "Receipt")]));
  (336%N, SExpr (call (EAttr (qual "rfc5652" "cmsContentTypesMap") "update") [EName "_cmsContentTypesMapUpdate"]))
].
