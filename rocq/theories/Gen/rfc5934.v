(** pyasn1_modules/rfc5934.py, printed by tools/py2coq.py.  Every statement is
    preceded by its line number in that file. *)
From Verif Require Import Py.Syntax.
From Coq Require Import List String ZArith NArith.
Import ListNotations.
Open Scope string_scope.
Open Scope Z_scope.

Definition src : module := [
  (13%N, SFrom "pyasn1.type" [("univ", "univ"); ("char", "char"); ("namedtype", "namedtype"); ("namedval", "namedval"); ("tag", "tag"); ("constraint", "constraint"); ("useful", "useful")]);
  (15%N, SFrom "pyasn1_modules" [("rfc2985", "rfc2985")]);
  (16%N, SFrom "pyasn1_modules" [("rfc5280", "rfc5280")]);
  (17%N, SFrom "pyasn1_modules" [("rfc5652", "rfc5652")]);
  (18%N, SFrom "pyasn1_modules" [("rfc5914", "rfc5914")]);
  (20%N, set "MAX" (call (EName "float") [EStr "inf"]));
  (23%N, SDef "_OID" [] (Some "components") [set "output" (EList []); SFor "x" (call (EName "tuple") [EName "components"]) [SIf (call (EName "isinstance") [EName "x"; univ "ObjectIdentifier"]) [SExpr (call (qual "output" "extend") [call (EName "list") [EName "x"]])] [SExpr (call (qual "output" "append") [call (EName "int") [EName "x"]])]]; SReturn (call (univ "ObjectIdentifier") [EName "output"])]);
  (35%N, set "SingleAttribute" (qual "rfc2985" "SingleAttribute"));
  (40%N, set "CertPathControls" (qual "rfc5914" "CertPathControls"));
  (42%N, set "TrustAnchorChoice" (qual "rfc5914" "TrustAnchorChoice"));
  (44%N, set "TrustAnchorTitle" (qual "rfc5914" "TrustAnchorTitle"));
  (49%N, set "AlgorithmIdentifier" (qual "rfc5280" "AlgorithmIdentifier"));
  (51%N, set "AnotherName" (qual "rfc5280" "AnotherName"));
  (53%N, set "Attribute" (qual "rfc5280" "Attribute"));
  (55%N, set "Certificate" (qual "rfc5280" "Certificate"));
  (57%N, set "CertificateSerialNumber" (qual "rfc5280" "CertificateSerialNumber"));
  (59%N, set "Extension" (qual "rfc5280" "Extension"));
  (61%N, set "Extensions" (qual "rfc5280" "Extensions"));
  (63%N, set "KeyIdentifier" (qual "rfc5280" "KeyIdentifier"));
  (65%N, set "Name" (qual "rfc5280" "Name"));
  (67%N, set "SubjectPublicKeyInfo" (qual "rfc5280" "SubjectPublicKeyInfo"));
  (69%N, set "TBSCertificate" (qual "rfc5280" "TBSCertificate"));
  (71%N, set "Validity" (qual "rfc5280" "Validity"));
  (76%N, set "id_tamp" (call (univ "ObjectIdentifier") [EStr "2.16.840.1.101.2.1.2.77"]));
  (81%N, set "id_ct_TAMP_statusQuery" (call (EName "_OID") [EName "id_tamp"; EInt 1]));
  (84%N, SClass "TAMPVersion" (univ "Integer") [SPass]);
  (87%N, seta "TAMPVersion" "namedValues" (nvs [nv "v1" 1; nv "v2" 2]));
  (93%N, SClass "TerseOrVerbose" (univ "Enumerated") [SPass]);
  (96%N, seta "TerseOrVerbose" "namedValues" (nvs [nv "terse" 1; nv "verbose" 2]));
  (102%N, SClass "HardwareSerialEntry" (univ "Choice") [SPass]);
  (105%N, seta "HardwareSerialEntry" "componentType" (nts [nt "all" (call0 (univ "Null")); nt "single" (call0 (univ "OctetString")); nt "block" (ECall (univ "Sequence") [] [("componentType", nts [nt "low" (call0 (univ "OctetString")); nt "high" (call0 (univ "OctetString"))])])]));
  (116%N, SClass "HardwareModules" (univ "Sequence") [SPass]);
  (119%N, seta "HardwareModules" "componentType" (nts [nt "hwType" (call0 (univ "ObjectIdentifier")); nt "hwSerialEntries" (withspec (ECall (univ "SequenceOf") [] [("componentType", new "HardwareSerialEntry")]) (sizec (EInt 1) (EName "MAX")))]));
  (127%N, SClass "HardwareModuleIdentifierList" (univ "SequenceOf") [SPass]);
  (130%N, seta "HardwareModuleIdentifierList" "componentType" (new "HardwareModules"));
  (131%N, seta "HardwareModuleIdentifierList" "subtypeSpec" (sizec (EInt 1) (EName "MAX")));
  (134%N, SClass "Community" (univ "ObjectIdentifier") [SPass]);
  (138%N, SClass "CommunityIdentifierList" (univ "SequenceOf") [SPass]);
  (141%N, seta "CommunityIdentifierList" "componentType" (new "Community"));
  (142%N, seta "CommunityIdentifierList" "subtypeSpec" (sizec (EInt 0) (EName "MAX")));
  (145%N, SClass "TargetIdentifier" (univ "Choice") [SPass]);
  (148%N, seta "TargetIdentifier" "componentType" (nts [nt "hwModules" (implicit (new "HardwareModuleIdentifierList") (ctxS 1)); nt "communities" (implicit (new "CommunityIdentifierList") (ctxS 2)); nt "allModules" (implicit (call0 (univ "Null")) (ctxS 3)); nt "uri" (implicit (call0 (chr "IA5String")) (ctxS 4)); nt "otherName" (implicit (new "AnotherName") (ctxS 5))]));
  (162%N, SClass "SeqNumber" (univ "Integer") [SPass]);
  (165%N, seta "SeqNumber" "subtypeSpec" (rangec (EInt 0) (EInt 9223372036854775807)));
  (168%N, SClass "TAMPMsgRef" (univ "Sequence") [SPass]);
  (171%N, seta "TAMPMsgRef" "componentType" (nts [nt "target" (new "TargetIdentifier"); nt "seqNum" (new "SeqNumber")]));
  (177%N, SClass "TAMPStatusQuery" (univ "Sequence") [SPass]);
  (180%N, seta "TAMPStatusQuery" "componentType" (nts [dnt "version" (withvalue (implicit (new "TAMPVersion") (ctxS 0)) (EStr "v2")); dnt "terse" (withvalue (implicit (new "TerseOrVerbose") (ctxS 1)) (EStr "verbose")); nt "query" (new "TAMPMsgRef")]));
  (191%N, set "tamp_status_query" (call0 (qual "rfc5652" "ContentInfo")));
  (192%N, SAssign [ESub (EName "tamp_status_query") (EStr "contentType")] (EName "id_ct_TAMP_statusQuery"));
  (193%N, SAssign [ESub (EName "tamp_status_query") (EStr "content")] (new "TAMPStatusQuery"));
  (198%N, set "id_ct_TAMP_statusResponse" (call (EName "_OID") [EName "id_tamp"; EInt 2]));
  (201%N, SClass "KeyIdentifiers" (univ "SequenceOf") [SPass]);
  (204%N, seta "KeyIdentifiers" "componentType" (new "KeyIdentifier"));
  (205%N, seta "KeyIdentifiers" "subtypeSpec" (sizec (EInt 1) (EName "MAX")));
  (208%N, SClass "TrustAnchorChoiceList" (univ "SequenceOf") [SPass]);
  (211%N, seta "TrustAnchorChoiceList" "componentType" (new "TrustAnchorChoice"));
  (212%N, seta "TrustAnchorChoiceList" "subtypeSpec" (sizec (EInt 1) (EName "MAX")));
  (215%N, SClass "TAMPSequenceNumber" (univ "Sequence") [SPass]);
  (218%N, seta "TAMPSequenceNumber" "componentType" (nts [nt "keyId" (new "KeyIdentifier"); nt "seqNumber" (new "SeqNumber")]));
  (224%N, SClass "TAMPSequenceNumbers" (univ "SequenceOf") [SPass]);
  (227%N, seta "TAMPSequenceNumbers" "componentType" (new "TAMPSequenceNumber"));
  (228%N, seta "TAMPSequenceNumbers" "subtypeSpec" (sizec (EInt 1) (EName "MAX")));
  (231%N, SClass "TerseStatusResponse" (univ "Sequence") [SPass]);
  (234%N, seta "TerseStatusResponse" "componentType" (nts [nt "taKeyIds" (new "KeyIdentifiers"); ont "communities" (new "CommunityIdentifierList")]));
  (240%N, SClass "VerboseStatusResponse" (univ "Sequence") [SPass]);
  (243%N, seta "VerboseStatusResponse" "componentType" (nts [nt "taInfo" (new "TrustAnchorChoiceList"); ont "continPubKeyDecryptAlg" (implicit (new "AlgorithmIdentifier") (ctxS 0)); ont "communities" (implicit (new "CommunityIdentifierList") (ctxS 1)); ont "tampSeqNumbers" (implicit (new "TAMPSequenceNumbers") (ctxS 2))]));
  (257%N, SClass "StatusResponse" (univ "Choice") [SPass]);
  (260%N, seta "StatusResponse" "componentType" (nts [nt "terseResponse" (implicit (new "TerseStatusResponse") (ctxC 0)); nt "verboseResponse" (implicit (new "VerboseStatusResponse") (ctxC 1))]));
  (268%N, SClass "TAMPStatusResponse" (univ "Sequence") [SPass]);
  (271%N, seta "TAMPStatusResponse" "componentType" (nts [dnt "version" (withvalue (implicit (new "TAMPVersion") (ctxS 0)) (EStr "v2")); nt "query" (new "TAMPMsgRef"); nt "response" (new "StatusResponse"); dnt "usesApex" (withvalue (call0 (univ "Boolean")) (EInt 1))]));
  (281%N, set "tamp_status_response" (call0 (qual "rfc5652" "ContentInfo")));
  (282%N, SAssign [ESub (EName "tamp_status_response") (EStr "contentType")] (EName "id_ct_TAMP_statusResponse"));
  (283%N, SAssign [ESub (EName "tamp_status_response") (EStr "content")] (new "TAMPStatusResponse"));
  (288%N, set "id_ct_TAMP_update" (call (EName "_OID") [EName "id_tamp"; EInt 3]));
  (291%N, SClass "TBSCertificateChangeInfo" (univ "Sequence") [SPass]);
  (294%N, seta "TBSCertificateChangeInfo" "componentType" (nts [ont "serialNumber" (new "CertificateSerialNumber"); ont "signature" (implicit (new "AlgorithmIdentifier") (ctxS 0)); ont "issuer" (implicit (new "Name") (ctxS 1)); ont "validity" (implicit (new "Validity") (ctxS 2)); ont "subject" (implicit (new "Name") (ctxS 3)); nt "subjectPublicKeyInfo" (implicit (new "SubjectPublicKeyInfo") (ctxS 4)); ont "exts" (explicit (new "Extensions") (ctxS 5))]));
  (311%N, SClass "TrustAnchorChangeInfo" (univ "Sequence") [SPass]);
  (314%N, seta "TrustAnchorChangeInfo" "componentType" (nts [nt "pubKey" (new "SubjectPublicKeyInfo"); ont "keyId" (new "KeyIdentifier"); ont "taTitle" (new "TrustAnchorTitle"); ont "certPath" (new "CertPathControls"); ont "exts" (implicit (new "Extensions") (ctxS 1))]));
  (324%N, SClass "TrustAnchorChangeInfoChoice" (univ "Choice") [SPass]);
  (327%N, seta "TrustAnchorChangeInfoChoice" "componentType" (nts [nt "tbsCertChange" (implicit (new "TBSCertificateChangeInfo") (ctxC 0)); nt "taChange" (implicit (new "TrustAnchorChangeInfo") (ctxC 1))]));
  (335%N, SClass "TrustAnchorUpdate" (univ "Choice") [SPass]);
  (338%N, seta "TrustAnchorUpdate" "componentType" (nts [nt "add" (implicit (new "TrustAnchorChoice") (ctxS 1)); nt "remove" (implicit (new "SubjectPublicKeyInfo") (ctxS 2)); nt "change" (explicit (new "TrustAnchorChangeInfoChoice") (ctxC 3))]));
  (348%N, SClass "TAMPUpdate" (univ "Sequence") [SPass]);
  (351%N, seta "TAMPUpdate" "componentType" (nts [dnt "version" (withvalue (implicit (new "TAMPVersion") (ctxS 0)) (EStr "v2")); dnt "terse" (withvalue (implicit (new "TerseOrVerbose") (ctxS 1)) (EStr "verbose")); nt "msgRef" (new "TAMPMsgRef"); nt "updates" (withspec (ECall (univ "SequenceOf") [] [("componentType", new "TrustAnchorUpdate")]) (sizec (EInt 1) (EName "MAX"))); ont "tampSeqNumbers" (implicit (new "TAMPSequenceNumbers") (ctxS 2))]));
  (368%N, set "tamp_update" (call0 (qual "rfc5652" "ContentInfo")));
  (369%N, SAssign [ESub (EName "tamp_update") (EStr "contentType")] (EName "id_ct_TAMP_update"));
  (370%N, SAssign [ESub (EName "tamp_update") (EStr "content")] (new "TAMPUpdate"));
  (375%N, set "id_ct_TAMP_updateConfirm" (call (EName "_OID") [EName "id_tamp"; EInt 4]));
  (378%N, SClass "StatusCode" (univ "Enumerated") [SPass]);
  (381%N, seta "StatusCode" "namedValues" (nvs [nv "success" 0; nv "decodeFailure" 1; nv "badContentInfo" 2; nv "badSignedData" 3; nv "badEncapContent" 4; nv "badCertificate" 5; nv "badSignerInfo" 6; nv "badSignedAttrs" 7; nv "badUnsignedAttrs" 8; nv "missingContent" 9; nv "noTrustAnchor" 10; nv "notAuthorized" 11; nv "badDigestAlgorithm" 12; nv "badSignatureAlgorithm" 13; nv "unsupportedKeySize" 14; nv "unsupportedParameters" 15; nv "signatureFailure" 16; nv "insufficientMemory" 17; nv "unsupportedTAMPMsgType" 18; nv "apexTAMPAnchor" 19; nv "improperTAAddition" 20; nv "seqNumFailure" 21; nv "contingencyPublicKeyDecrypt" 22; nv "incorrectTarget" 23; nv "communityUpdateFailed" 24; nv "trustAnchorNotFound" 25; nv "unsupportedTAAlgorithm" 26; nv "unsupportedTAKeySize" 27; nv "unsupportedContinPubKeyDecryptAlg" 28; nv "missingSignature" 29; nv "resourcesBusy" 30; nv "versionNumberMismatch" 31; nv "missingPolicySet" 32; nv "revokedCertificate" 33; nv "unsupportedTrustAnchorFormat" 34; nv "improperTAChange" 35; nv "malformed" 36; nv "cmsError" 37; nv "unsupportedTargetIdentifier" 38; nv "other" 127]));
  (425%N, SClass "StatusCodeList" (univ "SequenceOf") [SPass]);
  (428%N, seta "StatusCodeList" "componentType" (new "StatusCode"));
  (429%N, seta "StatusCodeList" "subtypeSpec" (sizec (EInt 1) (EName "MAX")));
  (432%N, SClass "TerseUpdateConfirm" (EName "StatusCodeList") [SPass]);
  (436%N, SClass "VerboseUpdateConfirm" (univ "Sequence") [SPass]);
  (439%N, seta "VerboseUpdateConfirm" "componentType" (nts [nt "status" (new "StatusCodeList"); nt "taInfo" (new "TrustAnchorChoiceList"); ont "tampSeqNumbers" (new "TAMPSequenceNumbers"); dnt "usesApex" (withvalue (call0 (univ "Boolean")) (EInt 1))]));
  (447%N, SClass "UpdateConfirm" (univ "Choice") [SPass]);
  (450%N, seta "UpdateConfirm" "componentType" (nts [nt "terseConfirm" (implicit (new "TerseUpdateConfirm") (ctxS 0)); nt "verboseConfirm" (implicit (new "VerboseUpdateConfirm") (ctxC 1))]));
  (458%N, SClass "TAMPUpdateConfirm" (univ "Sequence") [SPass]);
  (461%N, seta "TAMPUpdateConfirm" "componentType" (nts [dnt "version" (withvalue (implicit (new "TAMPVersion") (ctxS 0)) (EStr "v2")); nt "update" (new "TAMPMsgRef"); nt "confirm" (new "UpdateConfirm")]));
  (470%N, set "tamp_update_confirm" (call0 (qual "rfc5652" "ContentInfo")));
  (471%N, SAssign [ESub (EName "tamp_update_confirm") (EStr "contentType")] (EName "id_ct_TAMP_updateConfirm"));
  (472%N, SAssign [ESub (EName "tamp_update_confirm") (EStr "content")] (new "TAMPUpdateConfirm"));
  (477%N, set "id_ct_TAMP_apexUpdate" (call (EName "_OID") [EName "id_tamp"; EInt 5]));
  (480%N, SClass "TAMPApexUpdate" (univ "Sequence") [SPass]);
  (483%N, seta "TAMPApexUpdate" "componentType" (nts [dnt "version" (withvalue (implicit (new "TAMPVersion") (ctxS 0)) (EStr "v2")); dnt "terse" (withvalue (implicit (new "TerseOrVerbose") (ctxS 1)) (EStr "verbose")); nt "msgRef" (new "TAMPMsgRef"); nt "clearTrustAnchors" (call0 (univ "Boolean")); nt "clearCommunities" (call0 (univ "Boolean")); ont "seqNumber" (new "SeqNumber"); nt "apexTA" (new "TrustAnchorChoice")]));
  (498%N, set "tamp_apex_update" (call0 (qual "rfc5652" "ContentInfo")));
  (499%N, SAssign [ESub (EName "tamp_apex_update") (EStr "contentType")] (EName "id_ct_TAMP_apexUpdate"));
  (500%N, SAssign [ESub (EName "tamp_apex_update") (EStr "content")] (new "TAMPApexUpdate"));
  (505%N, set "id_ct_TAMP_apexUpdateConfirm" (call (EName "_OID") [EName "id_tamp"; EInt 6]));
  (508%N, SClass "TerseApexUpdateConfirm" (EName "StatusCode") [SPass]);
  (512%N, SClass "VerboseApexUpdateConfirm" (univ "Sequence") [SPass]);
  (515%N, seta "VerboseApexUpdateConfirm" "componentType" (nts [nt "status" (new "StatusCode"); nt "taInfo" (new "TrustAnchorChoiceList"); ont "communities" (implicit (new "CommunityIdentifierList") (ctxS 0)); ont "tampSeqNumbers" (implicit (new "TAMPSequenceNumbers") (ctxS 1))]));
  (527%N, SClass "ApexUpdateConfirm" (univ "Choice") [SPass]);
  (530%N, seta "ApexUpdateConfirm" "componentType" (nts [nt "terseApexConfirm" (implicit (new "TerseApexUpdateConfirm") (ctxS 0)); nt "verboseApexConfirm" (implicit (new "VerboseApexUpdateConfirm") (ctxC 1))]));
  (540%N, SClass "TAMPApexUpdateConfirm" (univ "Sequence") [SPass]);
  (543%N, seta "TAMPApexUpdateConfirm" "componentType" (nts [dnt "version" (withvalue (implicit (new "TAMPVersion") (ctxS 0)) (EStr "v2")); nt "apexReplace" (new "TAMPMsgRef"); nt "apexConfirm" (new "ApexUpdateConfirm")]));
  (552%N, set "tamp_apex_update_confirm" (call0 (qual "rfc5652" "ContentInfo")));
  (553%N, SAssign [ESub (EName "tamp_apex_update_confirm") (EStr "contentType")] (EName "id_ct_TAMP_apexUpdateConfirm"));
  (554%N, SAssign [ESub (EName "tamp_apex_update_confirm") (EStr "content")] (new "TAMPApexUpdateConfirm"));
  (559%N, set "id_ct_TAMP_communityUpdate" (call (EName "_OID") [EName "id_tamp"; EInt 7]));
  (562%N, SClass "CommunityUpdates" (univ "Sequence") [SPass]);
  (565%N, seta "CommunityUpdates" "componentType" (nts [ont "remove" (implicit (new "CommunityIdentifierList") (ctxS 1)); ont "add" (implicit (new "CommunityIdentifierList") (ctxS 2))]));
  (575%N, SClass "TAMPCommunityUpdate" (univ "Sequence") [SPass]);
  (578%N, seta "TAMPCommunityUpdate" "componentType" (nts [dnt "version" (withvalue (implicit (new "TAMPVersion") (ctxS 0)) (EStr "v2")); dnt "terse" (withvalue (implicit (new "TerseOrVerbose") (ctxS 1)) (EStr "verbose")); nt "msgRef" (new "TAMPMsgRef"); nt "updates" (new "CommunityUpdates")]));
  (590%N, set "tamp_community_update" (call0 (qual "rfc5652" "ContentInfo")));
  (591%N, SAssign [ESub (EName "tamp_community_update") (EStr "contentType")] (EName "id_ct_TAMP_communityUpdate"));
  (592%N, SAssign [ESub (EName "tamp_community_update") (EStr "content")] (new "TAMPCommunityUpdate"));
  (597%N, set "id_ct_TAMP_communityUpdateConfirm" (call (EName "_OID") [EName "id_tamp"; EInt 8]));
  (600%N, SClass "TerseCommunityConfirm" (EName "StatusCode") [SPass]);
  (604%N, SClass "VerboseCommunityConfirm" (univ "Sequence") [SPass]);
  (607%N, seta "VerboseCommunityConfirm" "componentType" (nts [nt "status" (new "StatusCode"); ont "communities" (new "CommunityIdentifierList")]));
  (613%N, SClass "CommunityConfirm" (univ "Choice") [SPass]);
  (616%N, seta "CommunityConfirm" "componentType" (nts [nt "terseCommConfirm" (implicit (new "TerseCommunityConfirm") (ctxS 0)); nt "verboseCommConfirm" (implicit (new "VerboseCommunityConfirm") (ctxC 1))]));
  (626%N, SClass "TAMPCommunityUpdateConfirm" (univ "Sequence") [SPass]);
  (629%N, seta "TAMPCommunityUpdateConfirm" "componentType" (nts [dnt "version" (withvalue (implicit (new "TAMPVersion") (ctxS 0)) (EStr "v2")); nt "update" (new "TAMPMsgRef"); nt "commConfirm" (new "CommunityConfirm")]));
  (638%N, set "tamp_community_update_confirm" (call0 (qual "rfc5652" "ContentInfo")));
  (639%N, SAssign [ESub (EName "tamp_community_update_confirm") (EStr "contentType")] (EName "id_ct_TAMP_communityUpdateConfirm"));
  (640%N, SAssign [ESub (EName "tamp_community_update_confirm") (EStr "content")] (new "TAMPCommunityUpdateConfirm"));
  (645%N, set "id_ct_TAMP_seqNumAdjust" (call (EName "_OID") [EName "id_tamp"; EInt 10]));
  (649%N, SClass "SequenceNumberAdjust" (univ "Sequence") [SPass]);
  (652%N, seta "SequenceNumberAdjust" "componentType" (nts [dnt "version" (withvalue (implicit (new "TAMPVersion") (ctxS 0)) (EStr "v2")); nt "msgRef" (new "TAMPMsgRef")]));
  (660%N, set "tamp_sequence_number_adjust" (call0 (qual "rfc5652" "ContentInfo")));
  (661%N, SAssign [ESub (EName "tamp_sequence_number_adjust") (EStr "contentType")] (EName "id_ct_TAMP_seqNumAdjust"));
  (662%N, SAssign [ESub (EName "tamp_sequence_number_adjust") (EStr "content")] (new "SequenceNumberAdjust"));
  (667%N, set "id_ct_TAMP_seqNumAdjustConfirm" (call (EName "_OID") [EName "id_tamp"; EInt 11]));
  (670%N, SClass "SequenceNumberAdjustConfirm" (univ "Sequence") [SPass]);
  (673%N, seta "SequenceNumberAdjustConfirm" "componentType" (nts [dnt "version" (withvalue (implicit (new "TAMPVersion") (ctxS 0)) (EStr "v2")); nt "adjust" (new "TAMPMsgRef"); nt "status" (new "StatusCode")]));
  (682%N, set "tamp_sequence_number_adjust_confirm" (call0 (qual "rfc5652" "ContentInfo")));
  (683%N, SAssign [ESub (EName "tamp_sequence_number_adjust_confirm") (EStr "contentType")] (EName "id_ct_TAMP_seqNumAdjustConfirm"));
  (684%N, SAssign [ESub (EName "tamp_sequence_number_adjust_confirm") (EStr "content")] (new "SequenceNumberAdjustConfirm"));
  (689%N, set "id_ct_TAMP_error" (call (EName "_OID") [EName "id_tamp"; EInt 9]));
  (692%N, SClass "TAMPError" (univ "Sequence") [SPass]);
  (695%N, seta "TAMPError" "componentType" (nts [dnt "version" (withvalue (implicit (new "TAMPVersion") (ctxS 0)) (EStr "v2")); nt "msgType" (call0 (univ "ObjectIdentifier")); nt "status" (new "StatusCode"); ont "msgRef" (new "TAMPMsgRef")]));
  (705%N, set "tamp_error" (call0 (qual "rfc5652" "ContentInfo")));
  (706%N, SAssign [ESub (EName "tamp_error") (EStr "contentType")] (EName "id_ct_TAMP_error"));
  (707%N, SAssign [ESub (EName "tamp_error") (EStr "content")] (new "TAMPError"));
  (712%N, set "id_attributes" (call (univ "ObjectIdentifier") [EStr "2.16.840.1.101.2.1.5"]));
  (717%N, set "id_aa_TAMP_contingencyPublicKeyDecryptKey" (call (EName "_OID") [EName "id_attributes"; EInt 63]));
  (720%N, SClass "PlaintextSymmetricKey" (univ "OctetString") [SPass]);
  (724%N, set "contingency_public_key_decrypt_key" (new "Attribute"));
  (725%N, SAssign [ESub (EName "contingency_public_key_decrypt_key") (EStr "type")] (EName "id_aa_TAMP_contingencyPublicKeyDecryptKey"));
  (726%N, SAssign [ESub (ESub (EName "contingency_public_key_decrypt_key") (EStr "values")) (EInt 0)] (new "PlaintextSymmetricKey"));
  (731%N, set "id_pe_wrappedApexContinKey" (call (univ "ObjectIdentifier") [EStr "1.3.6.1.5.5.7.1.20"]));
  (734%N, SClass "ApexContingencyKey" (univ "Sequence") [SPass]);
  (737%N, seta "ApexContingencyKey" "componentType" (nts [nt "wrapAlgorithm" (new "AlgorithmIdentifier"); nt "wrappedContinPubKey" (call0 (univ "OctetString"))]));
  (743%N, set "wrappedApexContinKey" (new "Extension"));
  (744%N, SAssign [ESub (EName "wrappedApexContinKey") (EStr "extnID")] (EName "id_pe_wrappedApexContinKey"));
  (745%N, SAssign [ESub (EName "wrappedApexContinKey") (EStr "critical")] (EInt 0));
  (746%N, SAssign [ESub (EName "wrappedApexContinKey") (EStr "extnValue")] (call0 (univ "OctetString")));
  (752%N, set "_cmsContentTypesMapUpdate" (EDict [(EName "id_ct_TAMP_statusQuery", new "TAMPStatusQuery"); (EName "id_ct_TAMP_statusResponse", new "TAMPStatusResponse"); (EName "id_ct_TAMP_update", new "TAMPUpdate"); (EName "id_ct_TAMP_updateConfirm", new "TAMPUpdateConfirm"); (EName "id_ct_TAMP_apexUpdate", new "TAMPApexUpdate"); (EName "id_ct_TAMP_apexUpdateConfirm", new "TAMPApexUpdateConfirm"); (EName "id_ct_TAMP_communityUpdate", new "TAMPCommunityUpdate"); (EName "id_ct_TAMP_communityUpdateConfirm", new "TAMPCommunityUpdateConfirm"); (EName "id_ct_TAMP_seqNumAdjust", new "SequenceNumberAdjust"); (EName "id_ct_TAMP_seqNumAdjustConfirm", new "SequenceNumberAdjustConfirm"); (EName "id_ct_TAMP_error", new "TAMPError")]));
  (766%N, SExpr (call (EAttr (qual "rfc5652" "cmsContentTypesMap") "update") [EName "_cmsContentTypesMapUpdate"]));
  (772%N, set "_cmsAttributesMapUpdate" (EDict [(EName "id_aa_TAMP_contingencyPublicKeyDecryptKey", new "PlaintextSymmetricKey")]));
  (776%N, SExpr (call (EAttr (qual "rfc5652" "cmsAttributesMap") "update") [EName "_cmsAttributesMapUpdate"]));
  (782%N, set "_certificateExtensionsMap" (EDict [(EName "id_pe_wrappedApexContinKey", new "ApexContingencyKey")]));
  (786%N, SExpr (call (EAttr (qual "rfc5280" "certificateExtensionsMap") "update") [EName "_certificateExtensionsMap"]))
].
