(** pyasn1_modules/rfc6402.py, printed by tools/py2coq.py.  Every statement is
    preceded by its line number in that file. *)
From Verif Require Import Py.Syntax.
From Coq Require Import List String ZArith NArith.
Import ListNotations.
Open Scope string_scope.
Open Scope Z_scope.

Definition src : module := [
  (17%N, SFrom "pyasn1.type" [("char", "char")]);
  (18%N, SFrom "pyasn1.type" [("constraint", "constraint")]);
  (19%N, SFrom "pyasn1.type" [("namedtype", "namedtype")]);
  (20%N, SFrom "pyasn1.type" [("namedval", "namedval")]);
  (21%N, SFrom "pyasn1.type" [("opentype", "opentype")]);
  (22%N, SFrom "pyasn1.type" [("tag", "tag")]);
  (23%N, SFrom "pyasn1.type" [("univ", "univ")]);
  (24%N, SFrom "pyasn1.type" [("useful", "useful")]);
  (26%N, SFrom "pyasn1_modules" [("rfc4211", "rfc4211")]);
  (27%N, SFrom "pyasn1_modules" [("rfc5280", "rfc5280")]);
  (28%N, SFrom "pyasn1_modules" [("rfc5652", "rfc5652")]);
  (30%N, set "MAX" (call (EName "float") [EStr "inf"]));
  (33%N, SDef "_buildOid" [] (Some "components") [set "output" (EList []); SFor "x" (call (EName "tuple") [EName "components"]) [SIf (call (EName "isinstance") [EName "x"; univ "ObjectIdentifier"]) [SExpr (call (qual "output" "extend") [call (EName "list") [EName "x"]])] [SExpr (call (qual "output" "append") [call (EName "int") [EName "x"]])]]; SReturn (call (univ "ObjectIdentifier") [EName "output"])]);
  (45%N, set "cmcControlAttributesMap" (qual "rfc5652" "cmsAttributesMap"));
  (48%N, SClass "ChangeSubjectName" (univ "Sequence") [SPass]);
  (52%N, seta "ChangeSubjectName" "componentType" (nts [ont "subject" (call0 (qual "rfc5280" "Name")); ont "subjectAlt" (call0 (qual "rfc5280" "GeneralNames"))]));
  (58%N, SClass "AttributeValue" (univ "Any") [SPass]);
  (62%N, SClass "CMCStatus" (univ "Integer") [SPass]);
  (66%N, seta "CMCStatus" "namedValues" (nvs [nv "success" 0; nv "failed" 2; nv "pending" 3; nv "noSupport" 4; nv "confirmRequired" 5; nv "popRequired" 6; nv "partial" 7]));
  (77%N, SClass "PendInfo" (univ "Sequence") [SPass]);
  (81%N, seta "PendInfo" "componentType" (nts [nt "pendToken" (call0 (univ "OctetString")); nt "pendTime" (call0 (useful "GeneralizedTime"))]));
  (86%N, set "bodyIdMax" (call (univ "Integer") [EInt 4294967295]));
  (89%N, SClass "BodyPartID" (univ "Integer") [SPass]);
  (93%N, seta "BodyPartID" "subtypeSpec" (rangec (EInt 0) (EName "bodyIdMax")));
  (96%N, SClass "BodyPartPath" (univ "SequenceOf") [SPass]);
  (100%N, seta "BodyPartPath" "componentType" (new "BodyPartID"));
  (101%N, seta "BodyPartPath" "sizeSpec" (sizec (EInt 1) (EName "MAX")));
  (104%N, SClass "BodyPartReference" (univ "Choice") [SPass]);
  (108%N, seta "BodyPartReference" "componentType" (nts [nt "bodyPartID" (new "BodyPartID"); nt "bodyPartPath" (new "BodyPartPath")]));
  (114%N, SClass "CMCFailInfo" (univ "Integer") [SPass]);
  (118%N, seta "CMCFailInfo" "namedValues" (nvs [nv "badAlg" 0; nv "badMessageCheck" 1; nv "badRequest" 2; nv "badTime" 3; nv "badCertId" 4; nv "unsupportedExt" 5; nv "mustArchiveKeys" 6; nv "badIdentity" 7; nv "popRequired" 8; nv "popFailed" 9; nv "noKeyReuse" 10; nv "internalCAError" 11; nv "tryLater" 12; nv "authDataFail" 13]));
  (136%N, SClass "CMCStatusInfoV2" (univ "Sequence") [SPass]);
  (140%N, seta "CMCStatusInfoV2" "componentType" (nts [nt "cMCStatus" (new "CMCStatus"); nt "bodyList" (ECall (univ "SequenceOf") [] [("componentType", new "BodyPartReference")]); ont "statusString" (call0 (chr "UTF8String")); ont "otherInfo" (ECall (univ "Choice") [] [("componentType", nts [nt "failInfo" (new "CMCFailInfo"); nt "pendInfo" (new "PendInfo"); nt "extendedFailInfo" (ECall (univ "Sequence") [] [("componentType", nts [nt "failInfoOID" (call0 (univ "ObjectIdentifier")); nt "failInfoValue" (new "AttributeValue")])])])])]));
  (162%N, SClass "GetCRL" (univ "Sequence") [SPass]);
  (166%N, seta "GetCRL" "componentType" (nts [nt "issuerName" (call0 (qual "rfc5280" "Name")); ont "cRLName" (call0 (qual "rfc5280" "GeneralName")); ont "time" (call0 (useful "GeneralizedTime")); ont "reasons" (call0 (qual "rfc5280" "ReasonFlags"))]));
  (173%N, set "id_pkix" (call (EName "_buildOid") [EInt 1; EInt 3; EInt 6; EInt 1; EInt 5; EInt 5; EInt 7]));
  (175%N, set "id_cmc" (call (EName "_buildOid") [EName "id_pkix"; EInt 7]));
  (177%N, set "id_cmc_batchResponses" (call (EName "_buildOid") [EName "id_cmc"; EInt 29]));
  (179%N, set "id_cmc_popLinkWitness" (call (EName "_buildOid") [EName "id_cmc"; EInt 23]));
  (182%N, SClass "PopLinkWitnessV2" (univ "Sequence") [SPass]);
  (186%N, seta "PopLinkWitnessV2" "componentType" (nts [nt "keyGenAlgorithm" (call0 (qual "rfc5280" "AlgorithmIdentifier")); nt "macAlgorithm" (call0 (qual "rfc5280" "AlgorithmIdentifier")); nt "witness" (call0 (univ "OctetString"))]));
  (192%N, set "id_cmc_popLinkWitnessV2" (call (EName "_buildOid") [EName "id_cmc"; EInt 33]));
  (194%N, set "id_cmc_identityProofV2" (call (EName "_buildOid") [EName "id_cmc"; EInt 34]));
  (196%N, set "id_cmc_revokeRequest" (call (EName "_buildOid") [EName "id_cmc"; EInt 17]));
  (198%N, set "id_cmc_recipientNonce" (call (EName "_buildOid") [EName "id_cmc"; EInt 7]));
  (201%N, SClass "ControlsProcessed" (univ "Sequence") [SPass]);
  (205%N, seta "ControlsProcessed" "componentType" (nts [nt "bodyList" (ECall (univ "SequenceOf") [] [("componentType", new "BodyPartReference")])]));
  (210%N, SClass "CertificationRequest" (univ "Sequence") [SPass]);
  (214%N, seta "CertificationRequest" "componentType" (nts [nt "certificationRequestInfo" (ECall (univ "Sequence") [] [("componentType", nts [nt "version" (call0 (univ "Integer")); nt "subject" (call0 (qual "rfc5280" "Name")); nt "subjectPublicKeyInfo" (ECall (univ "Sequence") [] [("componentType", nts [nt "algorithm" (call0 (qual "rfc5280" "AlgorithmIdentifier")); nt "subjectPublicKey" (call0 (univ "BitString"))])]); nt "attributes" (implicit (ECall (univ "SetOf") [] [("componentType", call0 (qual "rfc5652" "Attribute"))]) (ctxS 0))])]); nt "signatureAlgorithm" (call0 (qual "rfc5280" "AlgorithmIdentifier")); nt "signature" (call0 (univ "BitString"))]));
  (241%N, SClass "TaggedCertificationRequest" (univ "Sequence") [SPass]);
  (245%N, seta "TaggedCertificationRequest" "componentType" (nts [nt "bodyPartID" (new "BodyPartID"); nt "certificationRequest" (new "CertificationRequest")]));
  (251%N, SClass "TaggedRequest" (univ "Choice") [SPass]);
  (255%N, seta "TaggedRequest" "componentType" (nts [nt "tcr" (implicit (new "TaggedCertificationRequest") (ctxC 0)); nt "crm" (implicit (call0 (qual "rfc4211" "CertReqMsg")) (ctxS 1)); nt "orm" (implicit (ECall (univ "Sequence") [] [("componentType", nts [nt "bodyPartID" (new "BodyPartID"); nt "requestMessageType" (call0 (univ "ObjectIdentifier")); nt "requestMessageValue" (call0 (univ "Any"))])]) (ctxC 2))]));
  (268%N, set "id_cmc_popLinkRandom" (call (EName "_buildOid") [EName "id_cmc"; EInt 22]));
  (270%N, set "id_cmc_statusInfo" (call (EName "_buildOid") [EName "id_cmc"; EInt 1]));
  (272%N, set "id_cmc_trustedAnchors" (call (EName "_buildOid") [EName "id_cmc"; EInt 26]));
  (274%N, set "id_cmc_transactionId" (call (EName "_buildOid") [EName "id_cmc"; EInt 5]));
  (276%N, set "id_cmc_encryptedPOP" (call (EName "_buildOid") [EName "id_cmc"; EInt 9]));
  (279%N, SClass "PublishTrustAnchors" (univ "Sequence") [SPass]);
  (283%N, seta "PublishTrustAnchors" "componentType" (nts [nt "seqNumber" (call0 (univ "Integer")); nt "hashAlgorithm" (call0 (qual "rfc5280" "AlgorithmIdentifier")); nt "anchorHashes" (ECall (univ "SequenceOf") [] [("componentType", call0 (univ "OctetString"))])]));
  (290%N, SClass "RevokeRequest" (univ "Sequence") [SPass]);
  (294%N, seta "RevokeRequest" "componentType" (nts [nt "issuerName" (call0 (qual "rfc5280" "Name")); nt "serialNumber" (call0 (univ "Integer")); nt "reason" (call0 (qual "rfc5280" "CRLReason")); ont "invalidityDate" (call0 (useful "GeneralizedTime")); ont "passphrase" (call0 (univ "OctetString")); ont "comment" (call0 (chr "UTF8String"))]));
  (303%N, set "id_cmc_senderNonce" (call (EName "_buildOid") [EName "id_cmc"; EInt 6]));
  (305%N, set "id_cmc_authData" (call (EName "_buildOid") [EName "id_cmc"; EInt 27]));
  (308%N, SClass "TaggedContentInfo" (univ "Sequence") [SPass]);
  (312%N, seta "TaggedContentInfo" "componentType" (nts [nt "bodyPartID" (new "BodyPartID"); nt "contentInfo" (call0 (qual "rfc5652" "ContentInfo"))]));
  (318%N, SClass "IdentifyProofV2" (univ "Sequence") [SPass]);
  (322%N, seta "IdentifyProofV2" "componentType" (nts [nt "proofAlgID" (call0 (qual "rfc5280" "AlgorithmIdentifier")); nt "macAlgId" (call0 (qual "rfc5280" "AlgorithmIdentifier")); nt "witness" (call0 (univ "OctetString"))]));
  (329%N, SClass "CMCPublicationInfo" (univ "Sequence") [SPass]);
  (333%N, seta "CMCPublicationInfo" "componentType" (nts [nt "hashAlg" (call0 (qual "rfc5280" "AlgorithmIdentifier")); nt "certHashes" (ECall (univ "SequenceOf") [] [("componentType", call0 (univ "OctetString"))]); nt "pubInfo" (call0 (qual "rfc4211" "PKIPublicationInfo"))]));
  (339%N, set "id_kp_cmcCA" (call (EName "_buildOid") [qual "rfc5280" "id_kp"; EInt 27]));
  (341%N, set "id_cmc_confirmCertAcceptance" (call (EName "_buildOid") [EName "id_cmc"; EInt 24]));
  (343%N, set "id_cmc_raIdentityWitness" (call (EName "_buildOid") [EName "id_cmc"; EInt 35]));
  (345%N, set "id_ExtensionReq" (call (EName "_buildOid") [EInt 1; EInt 2; EInt 840; EInt 113549; EInt 1; EInt 9; EInt 14]));
  (347%N, set "id_cct" (call (EName "_buildOid") [EName "id_pkix"; EInt 12]));
  (349%N, set "id_cct_PKIData" (call (EName "_buildOid") [EName "id_cct"; EInt 2]));
  (351%N, set "id_kp_cmcRA" (call (EName "_buildOid") [qual "rfc5280" "id_kp"; EInt 28]));
  (354%N, SClass "CMCStatusInfo" (univ "Sequence") [SPass]);
  (358%N, seta "CMCStatusInfo" "componentType" (nts [nt "cMCStatus" (new "CMCStatus"); nt "bodyList" (ECall (univ "SequenceOf") [] [("componentType", new "BodyPartID")]); ont "statusString" (call0 (chr "UTF8String")); ont "otherInfo" (ECall (univ "Choice") [] [("componentType", nts [nt "failInfo" (new "CMCFailInfo"); nt "pendInfo" (new "PendInfo")])])]));
  (373%N, SClass "DecryptedPOP" (univ "Sequence") [SPass]);
  (377%N, seta "DecryptedPOP" "componentType" (nts [nt "bodyPartID" (new "BodyPartID"); nt "thePOPAlgID" (call0 (qual "rfc5280" "AlgorithmIdentifier")); nt "thePOP" (call0 (univ "OctetString"))]));
  (383%N, set "id_cmc_addExtensions" (call (EName "_buildOid") [EName "id_cmc"; EInt 8]));
  (385%N, set "id_cmc_modCertTemplate" (call (EName "_buildOid") [EName "id_cmc"; EInt 31]));
  (388%N, SClass "TaggedAttribute" (univ "Sequence") [SPass]);
  (392%N, seta "TaggedAttribute" "componentType" (nts [nt "bodyPartID" (new "BodyPartID"); nt "attrType" (call0 (univ "ObjectIdentifier")); ECall (qual "namedtype" "NamedType") [EStr "attrValues"; ECall (univ "SetOf") [] [("componentType", new "AttributeValue")]] [("openType", call (qual "opentype" "OpenType") [EStr "attrType"; EName "cmcControlAttributesMap"])]]));
  (401%N, SClass "OtherMsg" (univ "Sequence") [SPass]);
  (405%N, seta "OtherMsg" "componentType" (nts [nt "bodyPartID" (new "BodyPartID"); nt "otherMsgType" (call0 (univ "ObjectIdentifier")); nt "otherMsgValue" (call0 (univ "Any"))]));
  (412%N, SClass "PKIData" (univ "Sequence") [SPass]);
  (416%N, seta "PKIData" "componentType" (nts [nt "controlSequence" (ECall (univ "SequenceOf") [] [("componentType", new "TaggedAttribute")]); nt "reqSequence" (ECall (univ "SequenceOf") [] [("componentType", new "TaggedRequest")]); nt "cmsSequence" (ECall (univ "SequenceOf") [] [("componentType", new "TaggedContentInfo")]); nt "otherMsgSequence" (ECall (univ "SequenceOf") [] [("componentType", new "OtherMsg")])]));
  (424%N, SClass "BodyPartList" (univ "SequenceOf") [SPass]);
  (428%N, seta "BodyPartList" "componentType" (new "BodyPartID"));
  (429%N, seta "BodyPartList" "sizeSpec" (sizec (EInt 1) (EName "MAX")));
  (431%N, set "id_cmc_responseBody" (call (EName "_buildOid") [EName "id_cmc"; EInt 37]));
  (434%N, SClass "AuthPublish" (EName "BodyPartID") [SPass]);
  (438%N, SClass "CMCUnsignedData" (univ "Sequence") [SPass]);
  (442%N, seta "CMCUnsignedData" "componentType" (nts [nt "bodyPartPath" (new "BodyPartPath"); nt "identifier" (call0 (univ "ObjectIdentifier")); nt "content" (call0 (univ "Any"))]));
  (449%N, SClass "CMCCertId" (qual "rfc5652" "IssuerAndSerialNumber") [SPass]);
  (453%N, SClass "PKIResponse" (univ "Sequence") [SPass]);
  (457%N, seta "PKIResponse" "componentType" (nts [nt "controlSequence" (ECall (univ "SequenceOf") [] [("componentType", new "TaggedAttribute")]); nt "cmsSequence" (ECall (univ "SequenceOf") [] [("componentType", new "TaggedContentInfo")]); nt "otherMsgSequence" (ECall (univ "SequenceOf") [] [("componentType", new "OtherMsg")])]));
  (464%N, SClass "ResponseBody" (EName "PKIResponse") [SPass]);
  (468%N, set "id_cmc_statusInfoV2" (call (EName "_buildOid") [EName "id_cmc"; EInt 25]));
  (470%N, set "id_cmc_lraPOPWitness" (call (EName "_buildOid") [EName "id_cmc"; EInt 11]));
  (473%N, SClass "ModCertTemplate" (univ "Sequence") [SPass]);
  (477%N, seta "ModCertTemplate" "componentType" (nts [nt "pkiDataReference" (new "BodyPartPath"); nt "certReferences" (new "BodyPartList"); dnt "replace" (withvalue (call0 (univ "Boolean")) (EInt 1)); nt "certTemplate" (call0 (qual "rfc4211" "CertTemplate"))]));
  (484%N, set "id_cmc_regInfo" (call (EName "_buildOid") [EName "id_cmc"; EInt 18]));
  (486%N, set "id_cmc_identityProof" (call (EName "_buildOid") [EName "id_cmc"; EInt 3]));
  (489%N, SClass "ExtensionReq" (univ "SequenceOf") [SPass]);
  (493%N, seta "ExtensionReq" "componentType" (call0 (qual "rfc5280" "Extension")));
  (494%N, seta "ExtensionReq" "sizeSpec" (sizec (EInt 1) (EName "MAX")));
  (496%N, set "id_kp_cmcArchive" (call (EName "_buildOid") [qual "rfc5280" "id_kp"; EInt 28]));
  (498%N, set "id_cmc_publishCert" (call (EName "_buildOid") [EName "id_cmc"; EInt 30]));
  (500%N, set "id_cmc_dataReturn" (call (EName "_buildOid") [EName "id_cmc"; EInt 4]));
  (503%N, SClass "LraPopWitness" (univ "Sequence") [SPass]);
  (507%N, seta "LraPopWitness" "componentType" (nts [nt "pkiDataBodyid" (new "BodyPartID"); nt "bodyIds" (ECall (univ "SequenceOf") [] [("componentType", new "BodyPartID")])]));
  (512%N, set "id_aa" (call (EName "_buildOid") [EInt 1; EInt 2; EInt 840; EInt 113549; EInt 1; EInt 9; EInt 16; EInt 2]));
  (514%N, set "id_aa_cmc_unsignedData" (call (EName "_buildOid") [EName "id_aa"; EInt 34]));
  (516%N, set "id_cmc_getCert" (call (EName "_buildOid") [EName "id_cmc"; EInt 15]));
  (518%N, set "id_cmc_batchRequests" (call (EName "_buildOid") [EName "id_cmc"; EInt 28]));
  (520%N, set "id_cmc_decryptedPOP" (call (EName "_buildOid") [EName "id_cmc"; EInt 10]));
  (522%N, set "id_cmc_responseInfo" (call (EName "_buildOid") [EName "id_cmc"; EInt 19]));
  (524%N, set "id_cmc_changeSubjectName" (call (EName "_buildOid") [EName "id_cmc"; EInt 36]));
  (527%N, SClass "GetCert" (univ "Sequence") [SPass]);
  (531%N, seta "GetCert" "componentType" (nts [nt "issuerName" (call0 (qual "rfc5280" "GeneralName")); nt "serialNumber" (call0 (univ "Integer"))]));
  (536%N, set "id_cmc_identification" (call (EName "_buildOid") [EName "id_cmc"; EInt 2]));
  (538%N, set "id_cmc_queryPending" (call (EName "_buildOid") [EName "id_cmc"; EInt 21]));
  (541%N, SClass "AddExtensions" (univ "Sequence") [SPass]);
  (545%N, seta "AddExtensions" "componentType" (nts [nt "pkiDataReference" (new "BodyPartID"); nt "certReferences" (ECall (univ "SequenceOf") [] [("componentType", new "BodyPartID")]); nt "extensions" (ECall (univ "SequenceOf") [] [("componentType", call0 (qual "rfc5280" "Extension"))])]));
  (552%N, SClass "EncryptedPOP" (univ "Sequence") [SPass]);
  (556%N, seta "EncryptedPOP" "componentType" (nts [nt "request" (new "TaggedRequest"); nt "cms" (call0 (qual "rfc5652" "ContentInfo")); nt "thePOPAlgID" (call0 (qual "rfc5280" "AlgorithmIdentifier")); nt "witnessAlgID" (call0 (qual "rfc5280" "AlgorithmIdentifier")); nt "witness" (call0 (univ "OctetString"))]));
  (564%N, set "id_cmc_getCRL" (call (EName "_buildOid") [EName "id_cmc"; EInt 16]));
  (566%N, set "id_cct_PKIResponse" (call (EName "_buildOid") [EName "id_cct"; EInt 3]));
  (568%N, set "id_cmc_controlProcessed" (call (EName "_buildOid") [EName "id_cmc"; EInt 32]));
  (571%N, SClass "NoSignatureValue" (univ "OctetString") [SPass]);
  (575%N, set "id_ad_cmc" (call (EName "_buildOid") [qual "rfc5280" "id_ad"; EInt 12]));
  (577%N, set "id_alg_noSignature" (call (EName "_buildOid") [EName "id_pkix"; EInt 6; EInt 2]));
  (582%N, set "_cmcControlAttributesMapUpdate" (EDict [(EName "id_cmc_statusInfo", new "CMCStatusInfo"); (EName "id_cmc_statusInfoV2", new "CMCStatusInfoV2"); (EName "id_cmc_identification", call0 (chr "UTF8String")); (EName "id_cmc_identityProof", call0 (univ "OctetString")); (EName "id_cmc_identityProofV2", new "IdentifyProofV2"); (EName "id_cmc_dataReturn", call0 (univ "OctetString")); (EName "id_cmc_transactionId", call0 (univ "Integer")); (EName "id_cmc_senderNonce", call0 (univ "OctetString")); (EName "id_cmc_recipientNonce", call0 (univ "OctetString")); (EName "id_cmc_addExtensions", new "AddExtensions"); (EName "id_cmc_encryptedPOP", new "EncryptedPOP"); (EName "id_cmc_decryptedPOP", new "DecryptedPOP"); (EName "id_cmc_lraPOPWitness", new "LraPopWitness"); (EName "id_cmc_getCert", new "GetCert"); (EName "id_cmc_getCRL", new "GetCRL"); (EName "id_cmc_revokeRequest", new "RevokeRequest"); (EName "id_cmc_regInfo", call0 (univ "OctetString")); (EName "id_cmc_responseInfo", call0 (univ "OctetString")); (EName "id_cmc_queryPending", call0 (univ "OctetString")); (EName "id_cmc_popLinkRandom", call0 (univ "OctetString")); (EName "id_cmc_popLinkWitness", call0 (univ "OctetString")); (EName "id_cmc_popLinkWitnessV2", new "PopLinkWitnessV2"); (EName "id_cmc_confirmCertAcceptance", new "CMCCertId"); (EName "id_cmc_trustedAnchors", new "PublishTrustAnchors"); (EName "id_cmc_authData", new "AuthPublish"); (EName "id_cmc_batchRequests", new "BodyPartList"); (EName "id_cmc_batchResponses", new "BodyPartList"); (EName "id_cmc_publishCert", new "CMCPublicationInfo"); (EName "id_cmc_modCertTemplate", new "ModCertTemplate"); (EName "id_cmc_controlProcessed", new "ControlsProcessed"); (EName "id_ExtensionReq", new "ExtensionReq")]));
  (616%N, SExpr (call (qual "cmcControlAttributesMap" "update") [EName "_cmcControlAttributesMapUpdate"]));
  (622%N, set "_cmsContentTypesMapUpdate" (EDict [(EName "id_cct_PKIData", new "PKIData"); (EName "id_cct_PKIResponse", new "PKIResponse")]));
  (627%N, SExpr (call (EAttr (qual "rfc5652" "cmsContentTypesMap") "update") [EName "_cmsContentTypesMapUpdate"]))
].
