(** pyasn1_modules/rfc5126.py, printed by tools/py2coq.py.  Every statement is
    preceded by its line number in that file. *)
From Verif Require Import Py.Syntax.
From Coq Require Import List String ZArith NArith.
Import ListNotations.
Open Scope string_scope.
Open Scope Z_scope.

Definition src : module := [
  (15%N, SFrom "pyasn1.type" [("char", "char")]);
  (16%N, SFrom "pyasn1.type" [("constraint", "constraint")]);
  (17%N, SFrom "pyasn1.type" [("namedtype", "namedtype")]);
  (18%N, SFrom "pyasn1.type" [("opentype", "opentype")]);
  (19%N, SFrom "pyasn1.type" [("tag", "tag")]);
  (20%N, SFrom "pyasn1.type" [("useful", "useful")]);
  (21%N, SFrom "pyasn1.type" [("univ", "univ")]);
  (23%N, SFrom "pyasn1_modules" [("rfc5280", "rfc5280")]);
  (24%N, SFrom "pyasn1_modules" [("rfc5652", "rfc5652")]);
  (25%N, SFrom "pyasn1_modules" [("rfc5035", "rfc5035")]);
  (26%N, SFrom "pyasn1_modules" [("rfc5755", "rfc5755")]);
  (27%N, SFrom "pyasn1_modules" [("rfc6960", "rfc6960")]);
  (28%N, SFrom "pyasn1_modules" [("rfc3161", "rfc3161")]);
  (30%N, set "MAX" (call (EName "float") [EStr "inf"]));
  (35%N, set "commitmentQualifierMap" (EDict []));
  (37%N, set "sigQualifiersMap" (EDict []));
  (39%N, set "otherRevRefMap" (EDict []));
  (41%N, set "otherRevValMap" (EDict []));
  (46%N, set "ContentInfo" (qual "rfc5652" "ContentInfo"));
  (48%N, set "ContentType" (qual "rfc5652" "ContentType"));
  (50%N, set "SignedData" (qual "rfc5652" "SignedData"));
  (52%N, set "EncapsulatedContentInfo" (qual "rfc5652" "EncapsulatedContentInfo"));
  (54%N, set "SignerInfo" (qual "rfc5652" "SignerInfo"));
  (56%N, set "MessageDigest" (qual "rfc5652" "MessageDigest"));
  (58%N, set "SigningTime" (qual "rfc5652" "SigningTime"));
  (60%N, set "Countersignature" (qual "rfc5652" "Countersignature"));
  (62%N, set "id_data" (qual "rfc5652" "id_data"));
  (64%N, set "id_signedData" (qual "rfc5652" "id_signedData"));
  (66%N, set "id_contentType" (qual "rfc5652" "id_contentType"));
  (68%N, set "id_messageDigest" (qual "rfc5652" "id_messageDigest"));
  (70%N, set "id_signingTime" (qual "rfc5652" "id_signingTime"));
  (72%N, set "id_countersignature" (qual "rfc5652" "id_countersignature"));
  (77%N, set "SigningCertificate" (qual "rfc5035" "SigningCertificate"));
  (79%N, set "IssuerSerial" (qual "rfc5035" "IssuerSerial"));
  (81%N, set "ContentReference" (qual "rfc5035" "ContentReference"));
  (83%N, set "ContentIdentifier" (qual "rfc5035" "ContentIdentifier"));
  (85%N, set "id_aa_contentReference" (qual "rfc5035" "id_aa_contentReference"));
  (87%N, set "id_aa_contentIdentifier" (qual "rfc5035" "id_aa_contentIdentifier"));
  (89%N, set "id_aa_signingCertificate" (qual "rfc5035" "id_aa_signingCertificate"));
  (91%N, set "id_aa_signingCertificateV2" (qual "rfc5035" "id_aa_signingCertificateV2"));
  (96%N, set "Certificate" (qual "rfc5280" "Certificate"));
  (98%N, set "AlgorithmIdentifier" (qual "rfc5280" "AlgorithmIdentifier"));
  (100%N, set "CertificateList" (qual "rfc5280" "CertificateList"));
  (102%N, set "Name" (qual "rfc5280" "Name"));
  (104%N, set "Attribute" (qual "rfc5280" "Attribute"));
  (106%N, set "GeneralNames" (qual "rfc5280" "GeneralNames"));
  (108%N, set "GeneralName" (qual "rfc5280" "GeneralName"));
  (110%N, set "PolicyInformation" (qual "rfc5280" "PolicyInformation"));
  (112%N, set "DirectoryString" (qual "rfc5280" "DirectoryString"));
  (117%N, set "AttributeCertificate" (qual "rfc5755" "AttributeCertificate"));
  (122%N, set "BasicOCSPResponse" (qual "rfc6960" "BasicOCSPResponse"));
  (124%N, set "ResponderID" (qual "rfc6960" "ResponderID"));
  (129%N, set "TimeStampToken" (qual "rfc3161" "TimeStampToken"));
  (134%N, set "id_etsi_es_IDUP_Mechanism_v1" (call (univ "ObjectIdentifier") [EStr "0.4.0.1733.1.4.1"]));
  (139%N, set "id_aa_ets_otherSigCert" (call (univ "ObjectIdentifier") [EStr "1.2.840.113549.1.9.16.2.19"]));
  (142%N, SClass "OtherHashValue" (univ "OctetString") [SPass]);
  (146%N, SClass "OtherHashAlgAndValue" (univ "Sequence") [set "componentType" (nts [nt "hashAlgorithm" (new "AlgorithmIdentifier"); nt "hashValue" (new "OtherHashValue")])]);
  (153%N, SClass "OtherHash" (univ "Choice") [set "componentType" (nts [nt "sha1Hash" (new "OtherHashValue"); nt "otherHash" (new "OtherHashAlgAndValue")])]);
  (160%N, SClass "OtherCertID" (univ "Sequence") [set "componentType" (nts [nt "otherCertHash" (new "OtherHash"); ont "issuerSerial" (new "IssuerSerial")])]);
  (167%N, SClass "OtherSigningCertificate" (univ "Sequence") [set "componentType" (nts [nt "certs" (ECall (univ "SequenceOf") [] [("componentType", new "OtherCertID")]); ont "policies" (ECall (univ "SequenceOf") [] [("componentType", new "PolicyInformation")])])]);
  (178%N, set "id_aa_ets_sigPolicyId" (call (univ "ObjectIdentifier") [EStr "1.2.840.113549.1.9.16.2.15"]));
  (181%N, SClass "SigPolicyId" (univ "ObjectIdentifier") [SPass]);
  (185%N, SClass "SigPolicyHash" (EName "OtherHashAlgAndValue") [SPass]);
  (189%N, SClass "SigPolicyQualifierId" (univ "ObjectIdentifier") [SPass]);
  (193%N, SClass "SigPolicyQualifierInfo" (univ "Sequence") [set "componentType" (nts [nt "sigPolicyQualifierId" (new "SigPolicyQualifierId"); ECall (qual "namedtype" "NamedType") [EStr "sigQualifier"; call0 (univ "Any")] [("openType", call (qual "opentype" "OpenType") [EStr "sigPolicyQualifierId"; EName "sigQualifiersMap"])]])]);
  (201%N, SClass "SignaturePolicyId" (univ "Sequence") [set "componentType" (nts [nt "sigPolicyId" (new "SigPolicyId"); nt "sigPolicyHash" (new "SigPolicyHash"); ont "sigPolicyQualifiers" (withspec (ECall (univ "SequenceOf") [] [("componentType", new "SigPolicyQualifierInfo")]) (sizec (EInt 1) (EName "MAX")))])]);
  (211%N, SClass "SignaturePolicyImplied" (univ "Null") [SPass]);
  (215%N, SClass "SignaturePolicy" (univ "Choice") [set "componentType" (nts [nt "signaturePolicyId" (new "SignaturePolicyId"); nt "signaturePolicyImplied" (new "SignaturePolicyImplied")])]);
  (222%N, set "id_spq_ets_unotice" (call (univ "ObjectIdentifier") [EStr "1.2.840.113549.1.9.16.5.2"]));
  (225%N, SClass "DisplayText" (univ "Choice") [set "componentType" (nts [nt "visibleString" (withspec (call0 (chr "VisibleString")) (sizec (EInt 1) (EInt 200))); nt "bmpString" (withspec (call0 (chr "BMPString")) (sizec (EInt 1) (EInt 200))); nt "utf8String" (withspec (call0 (chr "UTF8String")) (sizec (EInt 1) (EInt 200)))])]);
  (236%N, SClass "NoticeReference" (univ "Sequence") [set "componentType" (nts [nt "organization" (new "DisplayText"); nt "noticeNumbers" (ECall (univ "SequenceOf") [] [("componentType", call0 (univ "Integer"))])])]);
  (243%N, SClass "SPUserNotice" (univ "Sequence") [set "componentType" (nts [ont "noticeRef" (new "NoticeReference"); ont "explicitText" (new "DisplayText")])]);
  (250%N, set "noticeToUser" (new "SigPolicyQualifierInfo"));
  (251%N, SAssign [ESub (EName "noticeToUser") (EStr "sigPolicyQualifierId")] (EName "id_spq_ets_unotice"));
  (252%N, SAssign [ESub (EName "noticeToUser") (EStr "sigQualifier")] (new "SPUserNotice"));
  (255%N, set "id_spq_ets_uri" (call (univ "ObjectIdentifier") [EStr "1.2.840.113549.1.9.16.5.1"]));
  (258%N, SClass "SPuri" (chr "IA5String") [SPass]);
  (262%N, set "pointerToSigPolSpec" (new "SigPolicyQualifierInfo"));
  (263%N, SAssign [ESub (EName "pointerToSigPolSpec") (EStr "sigPolicyQualifierId")] (EName "id_spq_ets_uri"));
  (264%N, SAssign [ESub (EName "pointerToSigPolSpec") (EStr "sigQualifier")] (new "SPuri"));
  (269%N, set "id_aa_ets_commitmentType" (call (univ "ObjectIdentifier") [EStr "1.2.840.113549.1.9.16.2.16"]));
  (272%N, SClass "CommitmentTypeIdentifier" (univ "ObjectIdentifier") [SPass]);
  (276%N, SClass "CommitmentTypeQualifier" (univ "Sequence") [set "componentType" (nts [nt "commitmentTypeIdentifier" (new "CommitmentTypeIdentifier"); ECall (qual "namedtype" "NamedType") [EStr "qualifier"; call0 (univ "Any")] [("openType", call (qual "opentype" "OpenType") [EStr "commitmentTypeIdentifier"; EName "commitmentQualifierMap"])]])]);
  (286%N, SClass "CommitmentTypeIndication" (univ "Sequence") [set "componentType" (nts [nt "commitmentTypeId" (new "CommitmentTypeIdentifier"); ont "commitmentTypeQualifier" (withspec (ECall (univ "SequenceOf") [] [("componentType", new "CommitmentTypeQualifier")]) (sizec (EInt 1) (EName "MAX")))])]);
  (295%N, set "id_cti_ets_proofOfOrigin" (call (univ "ObjectIdentifier") [EStr "1.2.840.113549.1.9.16.6.1"]));
  (297%N, set "id_cti_ets_proofOfReceipt" (call (univ "ObjectIdentifier") [EStr "1.2.840.113549.1.9.16.6.2"]));
  (299%N, set "id_cti_ets_proofOfDelivery" (call (univ "ObjectIdentifier") [EStr "1.2.840.113549.1.9.16.6.3"]));
  (301%N, set "id_cti_ets_proofOfSender" (call (univ "ObjectIdentifier") [EStr "1.2.840.113549.1.9.16.6.4"]));
  (303%N, set "id_cti_ets_proofOfApproval" (call (univ "ObjectIdentifier") [EStr "1.2.840.113549.1.9.16.6.5"]));
  (305%N, set "id_cti_ets_proofOfCreation" (call (univ "ObjectIdentifier") [EStr "1.2.840.113549.1.9.16.6.6"]));
  (310%N, set "id_aa_ets_signerLocation" (call (univ "ObjectIdentifier") [EStr "1.2.840.113549.1.9.16.2.17"]));
  (313%N, SClass "PostalAddress" (univ "SequenceOf") [set "componentType" (new "DirectoryString"); set "subtypeSpec" (sizec (EInt 1) (EInt 6))]);
  (318%N, SClass "SignerLocation" (univ "Sequence") [set "componentType" (nts [ont "countryName" (explicit (new "DirectoryString") (ctxS 0)); ont "localityName" (explicit (new "DirectoryString") (ctxS 1)); ont "postalAdddress" (explicit (new "PostalAddress") (ctxS 2))])]);
  (334%N, set "id_aa_signatureTimeStampToken" (call (univ "ObjectIdentifier") [EStr "1.2.840.113549.1.9.16.2.14"]));
  (337%N, SClass "SignatureTimeStampToken" (EName "TimeStampToken") [SPass]);
  (343%N, set "id_aa_ets_contentTimestamp" (call (univ "ObjectIdentifier") [EStr "1.2.840.113549.1.9.16.2.20"]));
  (346%N, SClass "ContentTimestamp" (EName "TimeStampToken") [SPass]);
  (352%N, set "id_aa_ets_signerAttr" (call (univ "ObjectIdentifier") [EStr "1.2.840.113549.1.9.16.2.18"]));
  (355%N, SClass "ClaimedAttributes" (univ "SequenceOf") [set "componentType" (new "Attribute")]);
  (359%N, SClass "CertifiedAttributes" (EName "AttributeCertificate") [SPass]);
  (363%N, SClass "SignerAttribute" (univ "SequenceOf") [set "componentType" (ECall (univ "Choice") [] [("componentType", nts [nt "claimedAttributes" (explicit (new "ClaimedAttributes") (ctxS 0)); nt "certifiedAttributes" (explicit (new "CertifiedAttributes") (ctxS 1))])])]);
  (376%N, set "id_aa_ets_certificateRefs" (call (univ "ObjectIdentifier") [EStr "1.2.840.113549.1.9.16.2.21"]));
  (379%N, SClass "CompleteCertificateRefs" (univ "SequenceOf") [set "componentType" (new "OtherCertID")]);
  (385%N, set "id_aa_ets_revocationRefs" (call (univ "ObjectIdentifier") [EStr "1.2.840.113549.1.9.16.2.22"]));
  (388%N, SClass "CrlIdentifier" (univ "Sequence") [set "componentType" (nts [nt "crlissuer" (new "Name"); nt "crlIssuedTime" (call0 (useful "UTCTime")); ont "crlNumber" (call0 (univ "Integer"))])]);
  (396%N, SClass "CrlValidatedID" (univ "Sequence") [set "componentType" (nts [nt "crlHash" (new "OtherHash"); ont "crlIdentifier" (new "CrlIdentifier")])]);
  (403%N, SClass "CRLListID" (univ "Sequence") [set "componentType" (nts [nt "crls" (ECall (univ "SequenceOf") [] [("componentType", new "CrlValidatedID")])])]);
  (410%N, SClass "OcspIdentifier" (univ "Sequence") [set "componentType" (nts [nt "ocspResponderID" (new "ResponderID"); nt "producedAt" (call0 (useful "GeneralizedTime"))])]);
  (417%N, SClass "OcspResponsesID" (univ "Sequence") [set "componentType" (nts [nt "ocspIdentifier" (new "OcspIdentifier"); ont "ocspRepHash" (new "OtherHash")])]);
  (424%N, SClass "OcspListID" (univ "Sequence") [set "componentType" (nts [nt "ocspResponses" (ECall (univ "SequenceOf") [] [("componentType", new "OcspResponsesID")])])]);
  (431%N, SClass "OtherRevRefType" (univ "ObjectIdentifier") [SPass]);
  (435%N, SClass "OtherRevRefs" (univ "Sequence") [set "componentType" (nts [nt "otherRevRefType" (new "OtherRevRefType"); ECall (qual "namedtype" "NamedType") [EStr "otherRevRefs"; call0 (univ "Any")] [("openType", call (qual "opentype" "OpenType") [EStr "otherRevRefType"; EName "otherRevRefMap"])]])]);
  (443%N, SClass "CrlOcspRef" (univ "Sequence") [set "componentType" (nts [ont "crlids" (explicit (new "CRLListID") (ctxC 0)); ont "ocspids" (explicit (new "OcspListID") (ctxC 1)); ont "otherRev" (explicit (new "OtherRevRefs") (ctxC 2))])]);
  (457%N, SClass "CompleteRevocationRefs" (univ "SequenceOf") [set "componentType" (new "CrlOcspRef")]);
  (463%N, set "id_aa_ets_certValues" (call (univ "ObjectIdentifier") [EStr "1.2.840.113549.1.9.16.2.23"]));
  (466%N, SClass "CertificateValues" (univ "SequenceOf") [set "componentType" (new "Certificate")]);
  (472%N, set "id_aa_ets_revocationValues" (call (univ "ObjectIdentifier") [EStr "1.2.840.113549.1.9.16.2.24"]));
  (475%N, SClass "OtherRevValType" (univ "ObjectIdentifier") [SPass]);
  (479%N, SClass "OtherRevVals" (univ "Sequence") [set "componentType" (nts [nt "otherRevValType" (new "OtherRevValType"); ECall (qual "namedtype" "NamedType") [EStr "otherRevVals"; call0 (univ "Any")] [("openType", call (qual "opentype" "OpenType") [EStr "otherRevValType"; EName "otherRevValMap"])]])]);
  (487%N, SClass "RevocationValues" (univ "Sequence") [set "componentType" (nts [ont "crlVals" (explicit (ECall (univ "SequenceOf") [] [("componentType", new "CertificateList")]) (ctxS 0)); ont "ocspVals" (explicit (ECall (univ "SequenceOf") [] [("componentType", new "BasicOCSPResponse")]) (ctxS 1)); ont "otherRevVals" (explicit (new "OtherRevVals") (ctxC 2))])]);
  (503%N, set "id_aa_ets_escTimeStamp" (call (univ "ObjectIdentifier") [EStr "1.2.840.113549.1.9.16.2.25"]));
  (506%N, SClass "ESCTimeStampToken" (EName "TimeStampToken") [SPass]);
  (512%N, set "id_aa_ets_certCRLTimestamp" (call (univ "ObjectIdentifier") [EStr "1.2.840.113549.1.9.16.2.26"]));
  (515%N, SClass "TimestampedCertsCRLs" (EName "TimeStampToken") [SPass]);
  (521%N, set "id_aa_ets_archiveTimestampV2" (call (univ "ObjectIdentifier") [EStr "1.2.840.113549.1.9.16.2.48"]));
  (524%N, SClass "ArchiveTimeStampToken" (EName "TimeStampToken") [SPass]);
  (530%N, set "id_aa_ets_attrCertificateRefs" (call (univ "ObjectIdentifier") [EStr "1.2.840.113549.1.9.16.2.44"]));
  (533%N, SClass "AttributeCertificateRefs" (univ "SequenceOf") [set "componentType" (new "OtherCertID")]);
  (539%N, set "id_aa_ets_attrRevocationRefs" (call (univ "ObjectIdentifier") [EStr "1.2.840.113549.1.9.16.2.45"]));
  (542%N, SClass "AttributeRevocationRefs" (univ "SequenceOf") [set "componentType" (new "CrlOcspRef")]);
  (548%N, set "_sigQualifiersMapUpdate" (EDict [(EName "id_spq_ets_unotice", new "SPUserNotice"); (EName "id_spq_ets_uri", new "SPuri")]));
  (553%N, SExpr (call (qual "sigQualifiersMap" "update") [EName "_sigQualifiersMapUpdate"]));
  (558%N, set "_cmsAttributesMapUpdate" (EDict [(EName "id_aa_ets_otherSigCert", new "OtherSigningCertificate"); (EName "id_aa_ets_sigPolicyId", new "SignaturePolicy"); (EName "id_aa_ets_commitmentType", new "CommitmentTypeIndication"); (EName "id_aa_ets_signerLocation", new "SignerLocation"); (EName "id_aa_signatureTimeStampToken", new "SignatureTimeStampToken"); (EName "id_aa_ets_contentTimestamp", new "ContentTimestamp"); (EName "id_aa_ets_signerAttr", new "SignerAttribute"); (EName "id_aa_ets_certificateRefs", new "CompleteCertificateRefs"); (EName "id_aa_ets_revocationRefs", new "CompleteRevocationRefs"); (EName "id_aa_ets_certValues", new "CertificateValues"); (EName "id_aa_ets_revocationValues", new "RevocationValues"); (EName "id_aa_ets_escTimeStamp", new "ESCTimeStampToken"); (EName "id_aa_ets_certCRLTimestamp", new "TimestampedCertsCRLs"); (EName "id_aa_ets_archiveTimestampV2", new "ArchiveTimeStampToken"); (EName "id_aa_ets_attrCertificateRefs", new "AttributeCertificateRefs"); (EName "id_aa_ets_attrRevocationRefs", new "AttributeRevocationRefs")]));
  (577%N, SExpr (call (EAttr (qual "rfc5652" "cmsAttributesMap") "update") [EName "_cmsAttributesMapUpdate"]))
].
