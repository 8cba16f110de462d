(** pyasn1_modules/rfc7906.py, printed by tools/py2coq.py.  Every statement is
    preceded by its line number in that file. *)
From Verif Require Import Py.Syntax.
From Coq Require Import List String ZArith NArith.
Import ListNotations.
Open Scope string_scope.
Open Scope Z_scope.

Definition src : module := [
  (16%N, SFrom "pyasn1.type" [("char", "char")]);
  (17%N, SFrom "pyasn1.type" [("constraint", "constraint")]);
  (18%N, SFrom "pyasn1.type" [("namedtype", "namedtype")]);
  (19%N, SFrom "pyasn1.type" [("namedval", "namedval")]);
  (20%N, SFrom "pyasn1.type" [("tag", "tag")]);
  (21%N, SFrom "pyasn1.type" [("univ", "univ")]);
  (23%N, SFrom "pyasn1_modules" [("rfc2634", "rfc2634")]);
  (24%N, SFrom "pyasn1_modules" [("rfc4108", "rfc4108")]);
  (25%N, SFrom "pyasn1_modules" [("rfc5280", "rfc5280")]);
  (26%N, SFrom "pyasn1_modules" [("rfc5652", "rfc5652")]);
  (27%N, SFrom "pyasn1_modules" [("rfc6010", "rfc6010")]);
  (28%N, SFrom "pyasn1_modules" [("rfc6019", "rfc6019")]);
  (29%N, SFrom "pyasn1_modules" [("rfc7191", "rfc7191")]);
  (31%N, set "MAX" (call (EName "float") [EStr "inf"]));
  (36%N, set "id_aa_contentHint" (qual "rfc2634" "id_aa_contentHint"));
  (38%N, set "ContentHints" (qual "rfc2634" "ContentHints"));
  (40%N, set "id_aa_securityLabel" (qual "rfc2634" "id_aa_securityLabel"));
  (42%N, set "SecurityPolicyIdentifier" (qual "rfc2634" "SecurityPolicyIdentifier"));
  (44%N, set "SecurityClassification" (qual "rfc2634" "SecurityClassification"));
  (46%N, set "ESSPrivacyMark" (qual "rfc2634" "ESSPrivacyMark"));
  (48%N, set "SecurityCategories" (qual "rfc2634" "SecurityCategories"));
  (50%N, set "ESSSecurityLabel" (qual "rfc2634" "ESSSecurityLabel"));
  (55%N, set "id_aa_communityIdentifiers" (qual "rfc4108" "id_aa_communityIdentifiers"));
  (57%N, set "CommunityIdentifier" (qual "rfc4108" "CommunityIdentifier"));
  (59%N, set "CommunityIdentifiers" (qual "rfc4108" "CommunityIdentifiers"));
  (64%N, set "AlgorithmIdentifier" (qual "rfc5280" "AlgorithmIdentifier"));
  (66%N, set "Name" (qual "rfc5280" "Name"));
  (68%N, set "Certificate" (qual "rfc5280" "Certificate"));
  (70%N, set "GeneralNames" (qual "rfc5280" "GeneralNames"));
  (72%N, set "GeneralName" (qual "rfc5280" "GeneralName"));
  (75%N, set "SubjectInfoAccessSyntax" (qual "rfc5280" "SubjectInfoAccessSyntax"));
  (77%N, set "id_pkix" (qual "rfc5280" "id_pkix"));
  (79%N, set "id_pe" (qual "rfc5280" "id_pe"));
  (81%N, set "id_pe_subjectInfoAccess" (qual "rfc5280" "id_pe_subjectInfoAccess"));
  (86%N, set "CMSContentConstraints" (qual "rfc6010" "CMSContentConstraints"));
  (91%N, set "BinaryTime" (qual "rfc6019" "BinaryTime"));
  (93%N, set "id_aa_binarySigningTime" (qual "rfc6019" "id_aa_binarySigningTime"));
  (95%N, set "BinarySigningTime" (qual "rfc6019" "BinarySigningTime"));
  (100%N, set "Attribute" (qual "rfc5652" "Attribute"));
  (102%N, set "CertificateSet" (qual "rfc5652" "CertificateSet"));
  (104%N, set "CertificateChoices" (qual "rfc5652" "CertificateChoices"));
  (106%N, set "id_contentType" (qual "rfc5652" "id_contentType"));
  (108%N, set "ContentType" (qual "rfc5652" "ContentType"));
  (110%N, set "id_messageDigest" (qual "rfc5652" "id_messageDigest"));
  (112%N, set "MessageDigest" (qual "rfc5652" "MessageDigest"));
  (117%N, set "SIREntityName" (qual "rfc7191" "SIREntityName"));
  (119%N, set "id_aa_KP_keyPkgIdAndReceiptReq" (qual "rfc7191" "id_aa_KP_keyPkgIdAndReceiptReq"));
  (121%N, set "KeyPkgIdentifierAndReceiptReq" (qual "rfc7191" "KeyPkgIdentifierAndReceiptReq"));
  (126%N, set "id_aa_KP_keyProvinceV2" (call (univ "ObjectIdentifier") [EStr "2.16.840.1.101.2.1.5.71"]));
  (129%N, SClass "KeyProvinceV2" (univ "ObjectIdentifier") [SPass]);
  (133%N, set "aa_keyProvince_v2" (new "Attribute"));
  (134%N, SAssign [ESub (EName "aa_keyProvince_v2") (EStr "attrType")] (EName "id_aa_KP_keyProvinceV2"));
  (135%N, SAssign [ESub (ESub (EName "aa_keyProvince_v2") (EStr "attrValues")) (EInt 0)] (new "KeyProvinceV2"));
  (140%N, set "id_aa_KP_manifest" (call (univ "ObjectIdentifier") [EStr "2.16.840.1.101.2.1.5.72"]));
  (143%N, SClass "ShortTitle" (chr "PrintableString") [SPass]);
  (147%N, SClass "Manifest" (univ "SequenceOf") [SPass]);
  (150%N, seta "Manifest" "componentType" (new "ShortTitle"));
  (151%N, seta "Manifest" "subtypeSpec" (sizec (EInt 1) (EName "MAX")));
  (154%N, set "aa_manifest" (new "Attribute"));
  (155%N, SAssign [ESub (EName "aa_manifest") (EStr "attrType")] (EName "id_aa_KP_manifest"));
  (156%N, SAssign [ESub (ESub (EName "aa_manifest") (EStr "attrValues")) (EInt 0)] (new "Manifest"));
  (161%N, set "id_kma_keyAlgorithm" (call (univ "ObjectIdentifier") [EStr "2.16.840.1.101.2.1.13.1"]));
  (164%N, SClass "KeyAlgorithm" (univ "Sequence") [SPass]);
  (167%N, seta "KeyAlgorithm" "componentType" (nts [nt "keyAlg" (call0 (univ "ObjectIdentifier")); ont "checkWordAlg" (implicit (call0 (univ "ObjectIdentifier")) (ctxS 1)); ont "crcAlg" (implicit (call0 (univ "ObjectIdentifier")) (ctxS 2))]));
  (176%N, set "aa_keyAlgorithm" (new "Attribute"));
  (177%N, SAssign [ESub (EName "aa_keyAlgorithm") (EStr "attrType")] (EName "id_kma_keyAlgorithm"));
  (178%N, SAssign [ESub (ESub (EName "aa_keyAlgorithm") (EStr "attrValues")) (EInt 0)] (new "KeyAlgorithm"));
  (183%N, set "id_at_userCertificate" (call (univ "ObjectIdentifier") [EStr "2.5.4.36"]));
  (186%N, set "aa_userCertificate" (new "Attribute"));
  (187%N, SAssign [ESub (EName "aa_userCertificate") (EStr "attrType")] (EName "id_at_userCertificate"));
  (188%N, SAssign [ESub (ESub (EName "aa_userCertificate") (EStr "attrValues")) (EInt 0)] (new "Certificate"));
  (193%N, set "id_kma_keyPkgReceiversV2" (call (univ "ObjectIdentifier") [EStr "2.16.840.1.101.2.1.13.16"]));
  (196%N, SClass "KeyPkgReceiver" (univ "Choice") [SPass]);
  (199%N, seta "KeyPkgReceiver" "componentType" (nts [nt "sirEntity" (implicit (new "SIREntityName") (ctxS 0)); nt "community" (implicit (new "CommunityIdentifier") (ctxS 1))]));
  (207%N, SClass "KeyPkgReceiversV2" (univ "SequenceOf") [SPass]);
  (210%N, seta "KeyPkgReceiversV2" "componentType" (new "KeyPkgReceiver"));
  (211%N, seta "KeyPkgReceiversV2" "subtypeSpec" (sizec (EInt 1) (EName "MAX")));
  (214%N, set "aa_keyPackageReceivers_v2" (new "Attribute"));
  (215%N, SAssign [ESub (EName "aa_keyPackageReceivers_v2") (EStr "attrType")] (EName "id_kma_keyPkgReceiversV2"));
  (216%N, SAssign [ESub (ESub (EName "aa_keyPackageReceivers_v2") (EStr "attrValues")) (EInt 0)] (new "KeyPkgReceiversV2"));
  (221%N, set "id_kma_TSECNomenclature" (call (univ "ObjectIdentifier") [EStr "2.16.840.1.101.2.1.13.3"]));
  (224%N, SClass "CharEdition" (chr "PrintableString") [SPass]);
  (228%N, SClass "CharEditionRange" (univ "Sequence") [SPass]);
  (231%N, seta "CharEditionRange" "componentType" (nts [nt "firstCharEdition" (new "CharEdition"); nt "lastCharEdition" (new "CharEdition")]));
  (237%N, SClass "NumEdition" (univ "Integer") [SPass]);
  (240%N, seta "NumEdition" "subtypeSpec" (rangec (EInt 0) (EInt 308915776)));
  (243%N, SClass "NumEditionRange" (univ "Sequence") [SPass]);
  (246%N, seta "NumEditionRange" "componentType" (nts [nt "firstNumEdition" (new "NumEdition"); nt "lastNumEdition" (new "NumEdition")]));
  (252%N, SClass "EditionID" (univ "Choice") [SPass]);
  (255%N, seta "EditionID" "componentType" (nts [nt "char" (ECall (univ "Choice") [] [("componentType", nts [nt "charEdition" (implicit (new "CharEdition") (ctxS 1)); nt "charEditionRange" (implicit (new "CharEditionRange") (ctxC 2))])]); nt "num" (ECall (univ "Choice") [] [("componentType", nts [nt "numEdition" (implicit (new "NumEdition") (ctxS 3)); nt "numEditionRange" (implicit (new "NumEditionRange") (ctxC 4))])])]));
  (273%N, SClass "Register" (univ "Integer") [SPass]);
  (276%N, seta "Register" "subtypeSpec" (rangec (EInt 0) (EInt 2147483647)));
  (279%N, SClass "RegisterRange" (univ "Sequence") [SPass]);
  (282%N, seta "RegisterRange" "componentType" (nts [nt "firstRegister" (new "Register"); nt "lastRegister" (new "Register")]));
  (288%N, SClass "RegisterID" (univ "Choice") [SPass]);
  (291%N, seta "RegisterID" "componentType" (nts [nt "register" (implicit (new "Register") (ctxS 5)); nt "registerRange" (implicit (new "RegisterRange") (ctxC 6))]));
  (299%N, SClass "SegmentNumber" (univ "Integer") [SPass]);
  (302%N, seta "SegmentNumber" "subtypeSpec" (rangec (EInt 1) (EInt 127)));
  (305%N, SClass "SegmentRange" (univ "Sequence") [SPass]);
  (308%N, seta "SegmentRange" "componentType" (nts [nt "firstSegment" (new "SegmentNumber"); nt "lastSegment" (new "SegmentNumber")]));
  (314%N, SClass "SegmentID" (univ "Choice") [SPass]);
  (317%N, seta "SegmentID" "componentType" (nts [nt "segmentNumber" (implicit (new "SegmentNumber") (ctxS 7)); nt "segmentRange" (implicit (new "SegmentRange") (ctxC 8))]));
  (325%N, SClass "TSECNomenclature" (univ "Sequence") [SPass]);
  (328%N, seta "TSECNomenclature" "componentType" (nts [nt "shortTitle" (new "ShortTitle"); ont "editionID" (new "EditionID"); ont "registerID" (new "RegisterID"); ont "segmentID" (new "SegmentID")]));
  (336%N, set "aa_tsecNomenclature" (new "Attribute"));
  (337%N, SAssign [ESub (EName "aa_tsecNomenclature") (EStr "attrType")] (EName "id_kma_TSECNomenclature"));
  (338%N, SAssign [ESub (ESub (EName "aa_tsecNomenclature") (EStr "attrValues")) (EInt 0)] (new "TSECNomenclature"));
  (343%N, set "id_kma_keyPurpose" (call (univ "ObjectIdentifier") [EStr "2.16.840.1.101.2.1.13.13"]));
  (346%N, SClass "KeyPurpose" (univ "Enumerated") [SPass]);
  (349%N, seta "KeyPurpose" "namedValues" (nvs [nv "n-a" 0; nv "a" 65; nv "b" 66; nv "l" 76; nv "m" 77; nv "r" 82; nv "s" 83; nv "t" 84; nv "v" 86; nv "x" 88; nv "z" 90]));
  (364%N, set "aa_keyPurpose" (new "Attribute"));
  (365%N, SAssign [ESub (EName "aa_keyPurpose") (EStr "attrType")] (EName "id_kma_keyPurpose"));
  (366%N, SAssign [ESub (ESub (EName "aa_keyPurpose") (EStr "attrValues")) (EInt 0)] (new "KeyPurpose"));
  (371%N, set "id_kma_keyUse" (call (univ "ObjectIdentifier") [EStr "2.16.840.1.101.2.1.13.14"]));
  (374%N, SClass "KeyUse" (univ "Enumerated") [SPass]);
  (377%N, seta "KeyUse" "namedValues" (nvs [nv "n-a" 0; nv "ffk" 1; nv "kek" 2; nv "kpk" 3; nv "msk" 4; nv "qkek" 5; nv "tek" 6; nv "tsk" 7; nv "trkek" 8; nv "nfk" 9; nv "effk" 10; nv "ebfk" 11; nv "aek" 12; nv "wod" 13; nv "kesk" 246; nv "eik" 247; nv "ask" 248; nv "kmk" 249; nv "rsk" 250; nv "csk" 251; nv "sak" 252; nv "rgk" 253; nv "cek" 254; nv "exk" 255]));
  (405%N, set "aa_keyUse" (new "Attribute"));
  (406%N, SAssign [ESub (EName "aa_keyPurpose") (EStr "attrType")] (EName "id_kma_keyUse"));
  (407%N, SAssign [ESub (ESub (EName "aa_keyPurpose") (EStr "attrValues")) (EInt 0)] (new "KeyUse"));
  (412%N, set "id_kma_transportKey" (call (univ "ObjectIdentifier") [EStr "2.16.840.1.101.2.1.13.15"]));
  (415%N, SClass "TransOp" (univ "Enumerated") [SPass]);
  (418%N, seta "TransOp" "namedValues" (nvs [nv "transport" 1; nv "operational" 2]));
  (424%N, set "aa_transportKey" (new "Attribute"));
  (425%N, SAssign [ESub (EName "aa_transportKey") (EStr "attrType")] (EName "id_kma_transportKey"));
  (426%N, SAssign [ESub (ESub (EName "aa_transportKey") (EStr "attrValues")) (EInt 0)] (new "TransOp"));
  (431%N, set "id_kma_keyDistPeriod" (call (univ "ObjectIdentifier") [EStr "2.16.840.1.101.2.1.13.5"]));
  (434%N, SClass "KeyDistPeriod" (univ "Sequence") [SPass]);
  (437%N, seta "KeyDistPeriod" "componentType" (nts [ont "doNotDistBefore" (implicit (new "BinaryTime") (ctxS 0)); nt "doNotDistAfter" (new "BinaryTime")]));
  (444%N, set "aa_keyDistributionPeriod" (new "Attribute"));
  (445%N, SAssign [ESub (EName "aa_keyDistributionPeriod") (EStr "attrType")] (EName "id_kma_keyDistPeriod"));
  (446%N, SAssign [ESub (ESub (EName "aa_keyDistributionPeriod") (EStr "attrValues")) (EInt 0)] (new "KeyDistPeriod"));
  (451%N, set "id_kma_keyValidityPeriod" (call (univ "ObjectIdentifier") [EStr "2.16.840.1.101.2.1.13.6"]));
  (454%N, SClass "KeyValidityPeriod" (univ "Sequence") [SPass]);
  (457%N, seta "KeyValidityPeriod" "componentType" (nts [nt "doNotUseBefore" (new "BinaryTime"); ont "doNotUseAfter" (new "BinaryTime")]));
  (463%N, set "aa_keyValidityPeriod" (new "Attribute"));
  (464%N, SAssign [ESub (EName "aa_keyValidityPeriod") (EStr "attrType")] (EName "id_kma_keyValidityPeriod"));
  (465%N, SAssign [ESub (ESub (EName "aa_keyValidityPeriod") (EStr "attrValues")) (EInt 0)] (new "KeyValidityPeriod"));
  (470%N, set "id_kma_keyDuration" (call (univ "ObjectIdentifier") [EStr "2.16.840.1.101.2.1.13.7"]));
  (473%N, set "ub_KeyDuration_months" (call (univ "Integer") [EInt 72]));
  (475%N, set "ub_KeyDuration_hours" (call (univ "Integer") [EInt 96]));
  (477%N, set "ub_KeyDuration_days" (call (univ "Integer") [EInt 732]));
  (479%N, set "ub_KeyDuration_weeks" (call (univ "Integer") [EInt 104]));
  (481%N, set "ub_KeyDuration_years" (call (univ "Integer") [EInt 100]));
  (484%N, SClass "KeyDuration" (univ "Choice") [SPass]);
  (487%N, seta "KeyDuration" "componentType" (nts [nt "hours" (implicit (withspec (call0 (univ "Integer")) (rangec (EInt 1) (EName "ub_KeyDuration_hours"))) (ctxS 0)); nt "days" (withspec (call0 (univ "Integer")) (rangec (EInt 1) (EName "ub_KeyDuration_days"))); nt "weeks" (implicit (withspec (call0 (univ "Integer")) (rangec (EInt 1) (EName "ub_KeyDuration_weeks"))) (ctxS 1)); nt "months" (implicit (withspec (call0 (univ "Integer")) (rangec (EInt 1) (EName "ub_KeyDuration_months"))) (ctxS 2)); nt "years" (implicit (withspec (call0 (univ "Integer")) (rangec (EInt 1) (EName "ub_KeyDuration_years"))) (ctxS 3))]));
  (505%N, set "aa_keyDurationPeriod" (new "Attribute"));
  (506%N, SAssign [ESub (EName "aa_keyDurationPeriod") (EStr "attrType")] (EName "id_kma_keyDuration"));
  (507%N, SAssign [ESub (ESub (EName "aa_keyDurationPeriod") (EStr "attrValues")) (EInt 0)] (new "KeyDuration"));
  (512%N, set "id_aa_KP_classification" (call (univ "ObjectIdentifier") [EName "id_aa_securityLabel"]));
  (515%N, set "id_enumeratedPermissiveAttributes" (call (univ "ObjectIdentifier") [EStr "2.16.840.1.101.2.1.8.3.1"]));
  (517%N, set "id_enumeratedRestrictiveAttributes" (call (univ "ObjectIdentifier") [EStr "2.16.840.1.101.2.1.8.3.4"]));
  (519%N, set "id_informativeAttributes" (call (univ "ObjectIdentifier") [EStr "2.16.840.1.101.2.1.8.3.3"]));
  (522%N, SClass "SecurityAttribute" (univ "Integer") [SPass]);
  (525%N, seta "SecurityAttribute" "subtypeSpec" (rangec (EInt 0) (EName "MAX")));
  (528%N, SClass "EnumeratedTag" (univ "Sequence") [SPass]);
  (531%N, seta "EnumeratedTag" "componentType" (nts [nt "tagName" (call0 (univ "ObjectIdentifier")); nt "attributeList" (ECall (univ "SetOf") [] [("componentType", new "SecurityAttribute")])]));
  (537%N, SClass "FreeFormField" (univ "Choice") [SPass]);
  (540%N, seta "FreeFormField" "componentType" (nts [nt "bitSetAttributes" (call0 (univ "BitString")); nt "securityAttributes" (ECall (univ "SetOf") [] [("componentType", new "SecurityAttribute")])]));
  (546%N, SClass "InformativeTag" (univ "Sequence") [SPass]);
  (549%N, seta "InformativeTag" "componentType" (nts [nt "tagName" (call0 (univ "ObjectIdentifier")); nt "attributes" (new "FreeFormField")]));
  (555%N, SClass "Classification" (EName "ESSSecurityLabel") [SPass]);
  (559%N, set "aa_classification" (new "Attribute"));
  (560%N, SAssign [ESub (EName "aa_classification") (EStr "attrType")] (EName "id_aa_KP_classification"));
  (561%N, SAssign [ESub (ESub (EName "aa_classification") (EStr "attrValues")) (EInt 0)] (new "Classification"));
  (566%N, set "id_kma_splitID" (call (univ "ObjectIdentifier") [EStr "2.16.840.1.101.2.1.13.11"]));
  (569%N, SClass "SplitID" (univ "Sequence") [SPass]);
  (572%N, seta "SplitID" "componentType" (nts [nt "half" (ECall (univ "Enumerated") [] [("namedValues", nvs [nv "a" 0; nv "b" 1])]); ont "combineAlg" (new "AlgorithmIdentifier")]));
  (579%N, set "aa_splitIdentifier" (new "Attribute"));
  (580%N, SAssign [ESub (EName "aa_splitIdentifier") (EStr "attrType")] (EName "id_kma_splitID"));
  (581%N, SAssign [ESub (ESub (EName "aa_splitIdentifier") (EStr "attrValues")) (EInt 0)] (new "SplitID"));
  (586%N, set "id_kma_keyPkgType" (call (univ "ObjectIdentifier") [EStr "2.16.840.1.101.2.1.13.12"]));
  (589%N, SClass "KeyPkgType" (univ "ObjectIdentifier") [SPass]);
  (593%N, set "aa_keyPackageType" (new "Attribute"));
  (594%N, SAssign [ESub (EName "aa_keyPackageType") (EStr "attrType")] (EName "id_kma_keyPkgType"));
  (595%N, SAssign [ESub (ESub (EName "aa_keyPackageType") (EStr "attrValues")) (EInt 0)] (new "KeyPkgType"));
  (600%N, set "id_kma_sigUsageV3" (call (univ "ObjectIdentifier") [EStr "2.16.840.1.101.2.1.13.22"]));
  (603%N, SClass "SignatureUsage" (EName "CMSContentConstraints") [SPass]);
  (607%N, set "aa_signatureUsage_v3" (new "Attribute"));
  (608%N, SAssign [ESub (EName "aa_signatureUsage_v3") (EStr "attrType")] (EName "id_kma_sigUsageV3"));
  (609%N, SAssign [ESub (ESub (EName "aa_signatureUsage_v3") (EStr "attrValues")) (EInt 0)] (new "SignatureUsage"));
  (614%N, set "id_kma_otherCertFormats" (call (univ "ObjectIdentifier") [EStr "2.16.840.1.101.2.1.13.19"]));
  (617%N, set "aa_otherCertificateFormats" (new "Attribute"));
  (618%N, SAssign [ESub (EName "aa_signatureUsage_v3") (EStr "attrType")] (EName "id_kma_otherCertFormats"));
  (619%N, SAssign [ESub (ESub (EName "aa_signatureUsage_v3") (EStr "attrValues")) (EInt 0)] (new "CertificateChoices"));
  (624%N, set "id_at_pkiPath" (call (univ "ObjectIdentifier") [EStr "2.5.4.70"]));
  (627%N, SClass "PkiPath" (univ "SequenceOf") [SPass]);
  (630%N, seta "PkiPath" "componentType" (new "Certificate"));
  (631%N, seta "PkiPath" "subtypeSpec" (sizec (EInt 1) (EName "MAX")));
  (634%N, set "aa_pkiPath" (new "Attribute"));
  (635%N, SAssign [ESub (EName "aa_pkiPath") (EStr "attrType")] (EName "id_at_pkiPath"));
  (636%N, SAssign [ESub (ESub (EName "aa_pkiPath") (EStr "attrValues")) (EInt 0)] (new "PkiPath"));
  (641%N, set "id_kma_usefulCerts" (call (univ "ObjectIdentifier") [EStr "2.16.840.1.101.2.1.13.20"]));
  (644%N, set "aa_usefulCertificates" (new "Attribute"));
  (645%N, SAssign [ESub (EName "aa_usefulCertificates") (EStr "attrType")] (EName "id_kma_usefulCerts"));
  (646%N, SAssign [ESub (ESub (EName "aa_usefulCertificates") (EStr "attrValues")) (EInt 0)] (new "CertificateSet"));
  (651%N, set "id_kma_keyWrapAlgorithm" (call (univ "ObjectIdentifier") [EStr "2.16.840.1.101.2.1.13.21"]));
  (654%N, set "aa_keyWrapAlgorithm" (new "Attribute"));
  (655%N, SAssign [ESub (EName "aa_keyWrapAlgorithm") (EStr "attrType")] (EName "id_kma_keyWrapAlgorithm"));
  (656%N, SAssign [ESub (ESub (EName "aa_keyWrapAlgorithm") (EStr "attrValues")) (EInt 0)] (new "AlgorithmIdentifier"));
  (661%N, set "id_aa_KP_contentDecryptKeyID" (call (univ "ObjectIdentifier") [EStr "2.16.840.1.101.2.1.5.66"]));
  (664%N, SClass "ContentDecryptKeyID" (univ "OctetString") [SPass]);
  (668%N, set "aa_contentDecryptKeyIdentifier" (new "Attribute"));
  (669%N, SAssign [ESub (EName "aa_contentDecryptKeyIdentifier") (EStr "attrType")] (EName "id_aa_KP_contentDecryptKeyID"));
  (670%N, SAssign [ESub (ESub (EName "aa_contentDecryptKeyIdentifier") (EStr "attrValues")) (EInt 0)] (new "ContentDecryptKeyID"));
  (675%N, set "aa_certificatePointers" (new "Attribute"));
  (676%N, SAssign [ESub (EName "aa_certificatePointers") (EStr "attrType")] (EName "id_pe_subjectInfoAccess"));
  (677%N, SAssign [ESub (ESub (EName "aa_certificatePointers") (EStr "attrValues")) (EInt 0)] (new "SubjectInfoAccessSyntax"));
  (682%N, set "id_aa_KP_crlPointers" (call (univ "ObjectIdentifier") [EStr "2.16.840.1.101.2.1.5.70"]));
  (685%N, set "aa_cRLDistributionPoints" (new "Attribute"));
  (686%N, SAssign [ESub (EName "aa_cRLDistributionPoints") (EStr "attrType")] (EName "id_aa_KP_crlPointers"));
  (687%N, SAssign [ESub (ESub (EName "aa_cRLDistributionPoints") (EStr "attrValues")) (EInt 0)] (new "GeneralNames"));
  (692%N, set "id_errorCodes" (call (univ "ObjectIdentifier") [EStr "2.16.840.1.101.2.1.22"]));
  (694%N, set "id_missingKeyType" (call (univ "ObjectIdentifier") [EStr "2.16.840.1.101.2.1.22.1"]));
  (696%N, set "id_privacyMarkTooLong" (call (univ "ObjectIdentifier") [EStr "2.16.840.1.101.2.1.22.2"]));
  (698%N, set "id_unrecognizedSecurityPolicy" (call (univ "ObjectIdentifier") [EStr "2.16.840.1.101.2.1.22.3"]));
  (704%N, set "_cmsAttributesMapUpdate" (EDict [(EName "id_aa_contentHint", new "ContentHints"); (EName "id_aa_communityIdentifiers", new "CommunityIdentifiers"); (EName "id_aa_binarySigningTime", new "BinarySigningTime"); (EName "id_contentType", new "ContentType"); (EName "id_messageDigest", new "MessageDigest"); (EName "id_aa_KP_keyPkgIdAndReceiptReq", new "KeyPkgIdentifierAndReceiptReq"); (EName "id_aa_KP_keyProvinceV2", new "KeyProvinceV2"); (EName "id_aa_KP_manifest", new "Manifest"); (EName "id_kma_keyAlgorithm", new "KeyAlgorithm"); (EName "id_at_userCertificate", new "Certificate"); (EName "id_kma_keyPkgReceiversV2", new "KeyPkgReceiversV2"); (EName "id_kma_TSECNomenclature", new "TSECNomenclature"); (EName "id_kma_keyPurpose", new "KeyPurpose"); (EName "id_kma_keyUse", new "KeyUse"); (EName "id_kma_transportKey", new "TransOp"); (EName "id_kma_keyDistPeriod", new "KeyDistPeriod"); (EName "id_kma_keyValidityPeriod", new "KeyValidityPeriod"); (EName "id_kma_keyDuration", new "KeyDuration"); (EName "id_aa_KP_classification", new "Classification"); (EName "id_kma_splitID", new "SplitID"); (EName "id_kma_keyPkgType", new "KeyPkgType"); (EName "id_kma_sigUsageV3", new "SignatureUsage"); (EName "id_kma_otherCertFormats", new "CertificateChoices"); (EName "id_at_pkiPath", new "PkiPath"); (EName "id_kma_usefulCerts", new "CertificateSet"); (EName "id_kma_keyWrapAlgorithm", new "AlgorithmIdentifier"); (EName "id_aa_KP_contentDecryptKeyID", new "ContentDecryptKeyID"); (EName "id_pe_subjectInfoAccess", new "SubjectInfoAccessSyntax"); (EName "id_aa_KP_crlPointers", new "GeneralNames")]));
  (736%N, SExpr (call (EAttr (qual "rfc5652" "cmsAttributesMap") "update") [EName "_cmsAttributesMapUpdate"]))
].
