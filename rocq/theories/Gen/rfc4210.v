(** pyasn1_modules/rfc4210.py, printed by tools/py2coq.py.  Every statement is
    preceded by its line number in that file. *)
From Verif Require Import Py.Syntax.
From Coq Require Import List String ZArith NArith.
Import ListNotations.
Open Scope string_scope.
Open Scope Z_scope.

Definition src : module := [
  (11%N, SFrom "pyasn1.type" [("char", "char")]);
  (12%N, SFrom "pyasn1.type" [("constraint", "constraint")]);
  (13%N, SFrom "pyasn1.type" [("namedtype", "namedtype")]);
  (14%N, SFrom "pyasn1.type" [("namedval", "namedval")]);
  (15%N, SFrom "pyasn1.type" [("tag", "tag")]);
  (16%N, SFrom "pyasn1.type" [("univ", "univ")]);
  (17%N, SFrom "pyasn1.type" [("useful", "useful")]);
  (19%N, SFrom "pyasn1_modules" [("rfc2314", "rfc2314")]);
  (20%N, SFrom "pyasn1_modules" [("rfc2459", "rfc2459")]);
  (21%N, SFrom "pyasn1_modules" [("rfc2511", "rfc2511")]);
  (23%N, set "MAX" (call (EName "float") [EStr "inf"]));
  (26%N, SClass "KeyIdentifier" (univ "OctetString") [SPass]);
  (30%N, SClass "CMPCertificate" (qual "rfc2459" "Certificate") [SPass]);
  (34%N, SClass "OOBCert" (EName "CMPCertificate") [SPass]);
  (38%N, SClass "CertAnnContent" (EName "CMPCertificate") [SPass]);
  (42%N, SClass "PKIFreeText" (univ "SequenceOf") [SPass; set "componentType" (call0 (chr "UTF8String")); set "sizeSpec" (EBin OAdd (EAttr (univ "SequenceOf") "sizeSpec") (sizec (EInt 1) (EName "MAX")))]);
  (50%N, SClass "PollRepContent" (univ "SequenceOf") [SPass; SClass "CertReq" (univ "Sequence") [set "componentType" (nts [nt "certReqId" (call0 (univ "Integer")); nt "checkAfter" (call0 (univ "Integer")); ont "reason" (new "PKIFreeText")])]; set "componentType" (new "CertReq")]);
  (69%N, SClass "PollReqContent" (univ "SequenceOf") [SPass; SClass "CertReq" (univ "Sequence") [set "componentType" (nts [nt "certReqId" (call0 (univ "Integer"))])]; set "componentType" (new "CertReq")]);
  (85%N, SClass "InfoTypeAndValue" (univ "Sequence") [SPass; set "componentType" (nts [nt "infoType" (call0 (univ "ObjectIdentifier")); ont "infoValue" (call0 (univ "Any"))])]);
  (97%N, SClass "GenRepContent" (univ "SequenceOf") [set "componentType" (new "InfoTypeAndValue")]);
  (101%N, SClass "GenMsgContent" (univ "SequenceOf") [set "componentType" (new "InfoTypeAndValue")]);
  (105%N, SClass "PKIConfirmContent" (univ "Null") [SPass]);
  (109%N, SClass "CRLAnnContent" (univ "SequenceOf") [set "componentType" (call0 (qual "rfc2459" "CertificateList"))]);
  (113%N, SClass "CAKeyUpdAnnContent" (univ "Sequence") [SPass; set "componentType" (nts [nt "oldWithNew" (new "CMPCertificate"); nt "newWithOld" (new "CMPCertificate"); nt "newWithNew" (new "CMPCertificate")])]);
  (128%N, SClass "RevDetails" (univ "Sequence") [SPass; set "componentType" (nts [nt "certDetails" (call0 (qual "rfc2511" "CertTemplate")); ont "crlEntryDetails" (call0 (qual "rfc2459" "Extensions"))])]);
  (141%N, SClass "RevReqContent" (univ "SequenceOf") [set "componentType" (new "RevDetails")]);
  (145%N, SClass "CertOrEncCert" (univ "Choice") [SPass; set "componentType" (nts [nt "certificate" (explicit (new "CMPCertificate") (ctxC 0)); nt "encryptedCert" (explicit (call0 (qual "rfc2511" "EncryptedValue")) (ctxC 1))])]);
  (158%N, SClass "CertifiedKeyPair" (univ "Sequence") [SPass; set "componentType" (nts [nt "certOrEncCert" (new "CertOrEncCert"); ont "privateKey" (explicit (call0 (qual "rfc2511" "EncryptedValue")) (ctxC 0)); ont "publicationInfo" (explicit (call0 (qual "rfc2511" "PKIPublicationInfo")) (ctxC 1))])]);
  (173%N, SClass "POPODecKeyRespContent" (univ "SequenceOf") [set "componentType" (call0 (univ "Integer"))]);
  (177%N, SClass "Challenge" (univ "Sequence") [SPass; set "componentType" (nts [ont "owf" (call0 (qual "rfc2459" "AlgorithmIdentifier")); nt "witness" (call0 (univ "OctetString")); nt "challenge" (call0 (univ "OctetString"))])]);
  (192%N, SClass "PKIStatus" (univ "Integer") [SPass; set "namedValues" (nvs [nv "accepted" 0; nv "grantedWithMods" 1; nv "rejection" 2; nv "waiting" 3; nv "revocationWarning" 4; nv "revocationNotification" 5; nv "keyUpdateWarning" 6])]);
  (215%N, SClass "PKIFailureInfo" (univ "BitString") [SPass; set "namedValues" (nvs [nv "badAlg" 0; nv "badMessageCheck" 1; nv "badRequest" 2; nv "badTime" 3; nv "badCertId" 4; nv "badDataFormat" 5; nv "wrongAuthority" 6; nv "incorrectData" 7; nv "missingTimeStamp" 8; nv "badPOP" 9; nv "certRevoked" 10; nv "certConfirmed" 11; nv "wrongIntegrity" 12; nv "badRecipientNonce" 13; nv "timeNotAvailable" 14; nv "unacceptedPolicy" 15; nv "unacceptedExtension" 16; nv "addInfoNotAvailable" 17; nv "badSenderNonce" 18; nv "badCertTemplate" 19; nv "signerNotTrusted" 20; nv "transactionIdInUse" 21; nv "unsupportedVersion" 22; nv "notAuthorized" 23; nv "systemUnavail" 24; nv "systemFailure" 25; nv "duplicateCertReq" 26])]);
  (277%N, SClass "PKIStatusInfo" (univ "Sequence") [SPass; set "componentType" (nts [nt "status" (new "PKIStatus"); ont "statusString" (new "PKIFreeText"); ont "failInfo" (new "PKIFailureInfo")])]);
  (292%N, SClass "ErrorMsgContent" (univ "Sequence") [SPass; set "componentType" (nts [nt "pKIStatusInfo" (new "PKIStatusInfo"); ont "errorCode" (call0 (univ "Integer")); ont "errorDetails" (new "PKIFreeText")])]);
  (309%N, SClass "CertStatus" (univ "Sequence") [SPass; set "componentType" (nts [nt "certHash" (call0 (univ "OctetString")); nt "certReqId" (call0 (univ "Integer")); ont "statusInfo" (new "PKIStatusInfo")])]);
  (324%N, SClass "CertConfirmContent" (univ "SequenceOf") [set "componentType" (new "CertStatus")]);
  (328%N, SClass "RevAnnContent" (univ "Sequence") [SPass; set "componentType" (nts [nt "status" (new "PKIStatus"); nt "certId" (call0 (qual "rfc2511" "CertId")); nt "willBeRevokedAt" (call0 (useful "GeneralizedTime")); nt "badSinceDate" (call0 (useful "GeneralizedTime")); ont "crlDetails" (call0 (qual "rfc2459" "Extensions"))])]);
  (347%N, SClass "RevRepContent" (univ "Sequence") [SPass; set "componentType" (nts [nt "status" (ECall (univ "SequenceOf") [] [("componentType", new "PKIStatusInfo"); ("sizeSpec", sizec (EInt 1) (EName "MAX"))]); ont "revCerts" (ECall (EAttr (ECall (univ "SequenceOf") [] [("componentType", call0 (qual "rfc2511" "CertId"))]) "subtype") [] [("sizeSpec", sizec (EInt 1) (EName "MAX")); ("explicitTag", ctxC 0)]); ont "crls" (ECall (EAttr (ECall (univ "SequenceOf") [] [("componentType", call0 (qual "rfc2459" "CertificateList"))]) "subtype") [] [("sizeSpec", sizec (EInt 1) (EName "MAX")); ("explicitTag", ctxC 1)])])]);
  (378%N, SClass "KeyRecRepContent" (univ "Sequence") [SPass; set "componentType" (nts [nt "status" (new "PKIStatusInfo"); ont "newSigCert" (explicit (new "CMPCertificate") (ctxC 0)); ont "caCerts" (ECall (EAttr (ECall (univ "SequenceOf") [] [("componentType", new "CMPCertificate")]) "subtype") [] [("explicitTag", ctxC 1); ("sizeSpec", sizec (EInt 1) (EName "MAX"))]); ont "keyPairHist" (ECall (EAttr (ECall (univ "SequenceOf") [] [("componentType", new "CertifiedKeyPair")]) "subtype") [] [("explicitTag", ctxC 2); ("sizeSpec", sizec (EInt 1) (EName "MAX"))])])]);
  (409%N, SClass "CertResponse" (univ "Sequence") [SPass; set "componentType" (nts [nt "certReqId" (call0 (univ "Integer")); nt "status" (new "PKIStatusInfo"); ont "certifiedKeyPair" (new "CertifiedKeyPair"); ont "rspInfo" (call0 (univ "OctetString"))])]);
  (426%N, SClass "CertRepMessage" (univ "Sequence") [SPass; set "componentType" (nts [ont "caPubs" (ECall (EAttr (ECall (univ "SequenceOf") [] [("componentType", new "CMPCertificate")]) "subtype") [] [("sizeSpec", sizec (EInt 1) (EName "MAX")); ("explicitTag", ctxC 1)]); nt "response" (ECall (univ "SequenceOf") [] [("componentType", new "CertResponse")])])]);
  (445%N, SClass "POPODecKeyChallContent" (univ "SequenceOf") [set "componentType" (new "Challenge")]);
  (449%N, SClass "OOBCertHash" (univ "Sequence") [SPass; set "componentType" (nts [ont "hashAlg" (explicit (call0 (qual "rfc2459" "AlgorithmIdentifier")) (ctxC 0)); ont "certId" (explicit (call0 (qual "rfc2511" "CertId")) (ctxC 1)); nt "hashVal" (call0 (univ "BitString"))])]);
  (470%N, SClass "NestedMessageContent" (univ "SequenceOf") [SPass; set "componentType" (call0 (univ "Any"))]);
  (477%N, SClass "DHBMParameter" (univ "Sequence") [SPass; set "componentType" (nts [nt "owf" (call0 (qual "rfc2459" "AlgorithmIdentifier")); nt "mac" (call0 (qual "rfc2459" "AlgorithmIdentifier"))])]);
  (492%N, set "id_DHBasedMac" (call (univ "ObjectIdentifier") [EStr "1.2.840.113533.7.66.30"]));
  (495%N, SClass "PBMParameter" (univ "Sequence") [SPass; set "componentType" (nts [nt "salt" (withspec (call0 (univ "OctetString")) (sizec (EInt 0) (EInt 128))); nt "owf" (call0 (qual "rfc2459" "AlgorithmIdentifier")); nt "iterationCount" (call0 (univ "Integer")); nt "mac" (call0 (qual "rfc2459" "AlgorithmIdentifier"))])]);
  (514%N, set "id_PasswordBasedMac" (call (univ "ObjectIdentifier") [EStr "1.2.840.113533.7.66.13"]));
  (517%N, SClass "PKIProtection" (univ "BitString") [SPass]);
  (523%N, set "nestedMessageContent" (explicit (new "NestedMessageContent") (ctxC 20)));
  (527%N, SClass "PKIBody" (univ "Choice") [SPass; set "componentType" (nts [nt "ir" (explicit (call0 (qual "rfc2511" "CertReqMessages")) (ctxC 0)); nt "ip" (explicit (new "CertRepMessage") (ctxC 1)); nt "cr" (explicit (call0 (qual "rfc2511" "CertReqMessages")) (ctxC 2)); nt "cp" (explicit (new "CertRepMessage") (ctxC 3)); nt "p10cr" (explicit (call0 (qual "rfc2314" "CertificationRequest")) (ctxC 4)); nt "popdecc" (explicit (new "POPODecKeyChallContent") (ctxC 5)); nt "popdecr" (explicit (new "POPODecKeyRespContent") (ctxC 6)); nt "kur" (explicit (call0 (qual "rfc2511" "CertReqMessages")) (ctxC 7)); nt "kup" (explicit (new "CertRepMessage") (ctxC 8)); nt "krr" (explicit (call0 (qual "rfc2511" "CertReqMessages")) (ctxC 9)); nt "krp" (explicit (new "KeyRecRepContent") (ctxC 10)); nt "rr" (explicit (new "RevReqContent") (ctxC 11)); nt "rp" (explicit (new "RevRepContent") (ctxC 12)); nt "ccr" (explicit (call0 (qual "rfc2511" "CertReqMessages")) (ctxC 13)); nt "ccp" (explicit (new "CertRepMessage") (ctxC 14)); nt "ckuann" (explicit (new "CAKeyUpdAnnContent") (ctxC 15)); nt "cann" (explicit (new "CertAnnContent") (ctxC 16)); nt "rann" (explicit (new "RevAnnContent") (ctxC 17)); nt "crlann" (explicit (new "CRLAnnContent") (ctxC 18)); nt "pkiconf" (explicit (new "PKIConfirmContent") (ctxC 19)); nt "nested" (EName "nestedMessageContent"); nt "genm" (explicit (new "GenMsgContent") (ctxC 21)); nt "gen" (explicit (new "GenRepContent") (ctxC 22)); nt "error" (explicit (new "ErrorMsgContent") (ctxC 23)); nt "certConf" (explicit (new "CertConfirmContent") (ctxC 24)); nt "pollReq" (explicit (new "PollReqContent") (ctxC 25)); nt "pollRep" (explicit (new "PollRepContent") (ctxC 26))])]);
  (700%N, SClass "PKIHeader" (univ "Sequence") [SPass; set "componentType" (nts [nt "pvno" (ECall (univ "Integer") [] [("namedValues", nvs [nv "cmp1999" 1; nv "cmp2000" 2])]); nt "sender" (call0 (qual "rfc2459" "GeneralName")); nt "recipient" (call0 (qual "rfc2459" "GeneralName")); ont "messageTime" (explicit (call0 (useful "GeneralizedTime")) (ctxS 0)); ont "protectionAlg" (explicit (call0 (qual "rfc2459" "AlgorithmIdentifier")) (ctxC 1)); ont "senderKID" (explicit (call0 (qual "rfc2459" "KeyIdentifier")) (ctxS 2)); ont "recipKID" (explicit (call0 (qual "rfc2459" "KeyIdentifier")) (ctxS 3)); ont "transactionID" (explicit (call0 (univ "OctetString")) (ctxS 4)); ont "senderNonce" (explicit (call0 (univ "OctetString")) (ctxS 5)); ont "recipNonce" (explicit (call0 (univ "OctetString")) (ctxS 6)); ont "freeText" (explicit (new "PKIFreeText") (ctxC 7)); ont "generalInfo" (explicit (ECall (univ "SequenceOf") [] [("componentType", withsize (new "InfoTypeAndValue") (sizec (EInt 1) (EName "MAX")))]) (ctxS 8))])]);
  (754%N, SClass "ProtectedPart" (univ "Sequence") [SPass; set "componentType" (nts [nt "header" (new "PKIHeader"); nt "infoValue" (new "PKIBody")])]);
  (767%N, SClass "PKIMessage" (univ "Sequence") [SPass; set "componentType" (nts [nt "header" (new "PKIHeader"); nt "body" (new "PKIBody"); ont "protection" (explicit (new "PKIProtection") (ctxS 0)); ont "extraCerts" (ECall (EAttr (ECall (univ "SequenceOf") [] [("componentType", new "CMPCertificate")]) "subtype") [] [("sizeSpec", sizec (EInt 1) (EName "MAX")); ("explicitTag", ctxC 1)])])]);
  (792%N, SClass "PKIMessages" (univ "SequenceOf") [SPass; set "componentType" (new "PKIMessage"); set "sizeSpec" (EBin OAdd (EAttr (univ "SequenceOf") "sizeSpec") (sizec (EInt 1) (EName "MAX")))]);
  (802%N, seta "NestedMessageContent" "_componentType" (new "PKIMessages"));
  (803%N, seta "nestedMessageContent" "_componentType" (new "PKIMessages"))
].
