(** pyasn1_modules/rfc5035.py, printed by tools/py2coq.py.  Every statement is
    preceded by its line number in that file. *)
From Verif Require Import Py.Syntax.
From Coq Require Import List String ZArith NArith.
Import ListNotations.
Open Scope string_scope.
Open Scope Z_scope.

Definition src : module := [
  (16%N, SFrom "pyasn1.codec.der.encoder" [("encode", "der_encode")]);
  (18%N, SFrom "pyasn1.type" [("namedtype", "namedtype")]);
  (19%N, SFrom "pyasn1.type" [("univ", "univ")]);
  (21%N, SFrom "pyasn1_modules" [("rfc2634", "rfc2634")]);
  (22%N, SFrom "pyasn1_modules" [("rfc4055", "rfc4055")]);
  (23%N, SFrom "pyasn1_modules" [("rfc5652", "rfc5652")]);
  (24%N, SFrom "pyasn1_modules" [("rfc5280", "rfc5280")]);
  (26%N, set "ContentType" (qual "rfc5652" "ContentType"));
  (28%N, set "IssuerAndSerialNumber" (qual "rfc5652" "IssuerAndSerialNumber"));
  (30%N, set "SubjectKeyIdentifier" (qual "rfc5652" "SubjectKeyIdentifier"));
  (32%N, set "AlgorithmIdentifier" (qual "rfc5280" "AlgorithmIdentifier"));
  (34%N, set "PolicyInformation" (qual "rfc5280" "PolicyInformation"));
  (36%N, set "GeneralNames" (qual "rfc5280" "GeneralNames"));
  (38%N, set "CertificateSerialNumber" (qual "rfc5280" "CertificateSerialNumber"));
  (43%N, set "id_aa_signingCertificate" (qual "rfc2634" "id_aa_signingCertificate"));
  (45%N, set "id_aa_signingCertificateV2" (call (univ "ObjectIdentifier") [EStr "1.2.840.113549.1.9.16.2.47"]));
  (47%N, set "Hash" (qual "rfc2634" "Hash"));
  (49%N, set "IssuerSerial" (qual "rfc2634" "IssuerSerial"));
  (51%N, set "ESSCertID" (qual "rfc2634" "ESSCertID"));
  (53%N, set "SigningCertificate" (qual "rfc2634" "SigningCertificate"));
  (56%N, set "sha256AlgId" (new "AlgorithmIdentifier"));
  (57%N, SAssign [ESub (EName "sha256AlgId") (EStr "algorithm")] (qual "rfc4055" "id_sha256"));
  (59%N, SAssign [ESub (EName "sha256AlgId") (EStr "parameters")] (call (EName "der_encode") [call (univ "OctetString") [EStr ""]]));
  (62%N, SClass "ESSCertIDv2" (univ "Sequence") [SPass]);
  (65%N, seta "ESSCertIDv2" "componentType" (nts [dnt "hashAlgorithm" (EName "sha256AlgId"); nt "certHash" (new "Hash"); ont "issuerSerial" (new "IssuerSerial")]));
  (72%N, SClass "SigningCertificateV2" (univ "Sequence") [SPass]);
  (75%N, seta "SigningCertificateV2" "componentType" (nts [nt "certs" (ECall (univ "SequenceOf") [] [("componentType", new "ESSCertIDv2")]); ont "policies" (ECall (univ "SequenceOf") [] [("componentType", new "PolicyInformation")])]));
  (85%N, set "id_aa_mlExpandHistory" (qual "rfc2634" "id_aa_mlExpandHistory"));
  (87%N, set "ub_ml_expansion_history" (qual "rfc2634" "ub_ml_expansion_history"));
  (89%N, set "EntityIdentifier" (qual "rfc2634" "EntityIdentifier"));
  (91%N, set "MLReceiptPolicy" (qual "rfc2634" "MLReceiptPolicy"));
  (93%N, set "MLData" (qual "rfc2634" "MLData"));
  (95%N, set "MLExpansionHistory" (qual "rfc2634" "MLExpansionHistory"));
  (100%N, set "id_aa_securityLabel" (qual "rfc2634" "id_aa_securityLabel"));
  (102%N, set "ub_privacy_mark_length" (qual "rfc2634" "ub_privacy_mark_length"));
  (104%N, set "ub_security_categories" (qual "rfc2634" "ub_security_categories"));
  (106%N, set "ub_integer_options" (qual "rfc2634" "ub_integer_options"));
  (108%N, set "ESSPrivacyMark" (qual "rfc2634" "ESSPrivacyMark"));
  (110%N, set "SecurityClassification" (qual "rfc2634" "SecurityClassification"));
  (112%N, set "SecurityPolicyIdentifier" (qual "rfc2634" "SecurityPolicyIdentifier"));
  (114%N, set "SecurityCategory" (qual "rfc2634" "SecurityCategory"));
  (116%N, set "SecurityCategories" (qual "rfc2634" "SecurityCategories"));
  (118%N, set "ESSSecurityLabel" (qual "rfc2634" "ESSSecurityLabel"));
  (123%N, set "id_aa_equivalentLabels" (qual "rfc2634" "id_aa_equivalentLabels"));
  (125%N, set "EquivalentLabels" (qual "rfc2634" "EquivalentLabels"));
  (130%N, set "id_aa_contentIdentifier" (qual "rfc2634" "id_aa_contentIdentifier"));
  (132%N, set "ContentIdentifier" (qual "rfc2634" "ContentIdentifier"));
  (137%N, set "id_aa_contentReference" (qual "rfc2634" "id_aa_contentReference"));
  (139%N, set "ContentReference" (qual "rfc2634" "ContentReference"));
  (144%N, set "id_aa_msgSigDigest" (qual "rfc2634" "id_aa_msgSigDigest"));
  (146%N, set "MsgSigDigest" (qual "rfc2634" "MsgSigDigest"));
  (151%N, set "id_aa_contentHint" (qual "rfc2634" "id_aa_contentHint"));
  (153%N, set "ContentHints" (qual "rfc2634" "ContentHints"));
  (158%N, set "AllOrFirstTier" (qual "rfc2634" "AllOrFirstTier"));
  (160%N, set "ReceiptsFrom" (qual "rfc2634" "ReceiptsFrom"));
  (162%N, set "id_aa_receiptRequest" (qual "rfc2634" "id_aa_receiptRequest"));
  (164%N, set "ub_receiptsTo" (qual "rfc2634" "ub_receiptsTo"));
  (166%N, set "ReceiptRequest" (qual "rfc2634" "ReceiptRequest"));
  (171%N, set "ESSVersion" (qual "rfc2634" "ESSVersion"));
  (173%N, set "id_ct_receipt" (qual "rfc2634" "id_ct_receipt"));
  (175%N, set "Receipt" (qual "rfc2634" "Receipt"));
  (177%N, set "ub_receiptsTo" (qual "rfc2634" "ub_receiptsTo"));
  (179%N, set "ReceiptRequest" (qual "rfc2634" "ReceiptRequest"));
  (185%N, set "_cmsAttributesMapUpdate" (EDict [(EName "id_aa_signingCertificateV2", new "SigningCertificateV2")]));
  (189%N, SExpr (call (EAttr (qual "rfc5652" "cmsAttributesMap") "update") [EName "_cmsAttributesMapUpdate"]));
  (195%N, set "_cmsContentTypesMapUpdate" (EDict [(EName "id_ct_receipt", new "Receipt")]));
  (199%N, SExpr (call (EAttr (qual "rfc5652" "cmsContentTypesMap") "update") [EName "_cmsContentTypesMapUpdate"]))
].
