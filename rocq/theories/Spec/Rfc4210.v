(** RFC 4210, appendix F: PKIXCMP (EXPLICIT TAGS). *)
From Coq Require Import List String ZArith NArith.
From Verif Require Import Asn1.Types Spec.X680.
From Verif Require Spec.Rfc2986.
From Verif Require Import Spec.Rfc5280 Spec.Rfc4211.
Import ListNotations.
Open Scope string_scope.
Open Scope list_scope.

(** CHOICE {x509v3PKCert Certificate}, which has the values and the encoding of its alternative *)
Definition CMPCertificate := Certificate.
Definition PKIFreeText := size_min 1 (SEQUENCE_OF UTF8String).
Definition KeyIdentifier := OCTET_STRING.
Definition InfoTypeAndValue := SEQUENCE [req "infoType" OBJECT_IDENTIFIER; opt "infoValue" ANY].
Definition PKIHeader := SEQUENCE [
  req "pvno" (INTEGER_OF [("cmp1999", 1); ("cmp2000", 2)]%Z);
  req "sender" GeneralName;
  req "recipient" GeneralName;
  opt "messageTime" (explicit 0 GeneralizedTime);
  opt "protectionAlg" (explicit 1 AlgorithmIdentifier);
  opt "senderKID" (explicit 2 KeyIdentifier);
  opt "recipKID" (explicit 3 KeyIdentifier);
  opt "transactionID" (explicit 4 OCTET_STRING);
  opt "senderNonce" (explicit 5 OCTET_STRING);
  opt "recipNonce" (explicit 6 OCTET_STRING);
  opt "freeText" (explicit 7 PKIFreeText);
  opt "generalInfo" (explicit 8 (size_min 1 (SEQUENCE_OF InfoTypeAndValue)))].
Definition PKIStatus := INTEGER_OF [
  ("accepted", 0); ("grantedWithMods", 1); ("rejection", 2); ("waiting", 3); ("revocationWarning", 4);
  ("revocationNotification", 5); ("keyUpdateWarning", 6)]%Z.
Definition PKIFailureInfo := BIT_STRING_OF [
  ("badAlg", 0); ("badMessageCheck", 1); ("badRequest", 2); ("badTime", 3); ("badCertId", 4); ("badDataFormat", 5);
  ("wrongAuthority", 6); ("incorrectData", 7); ("missingTimeStamp", 8); ("badPOP", 9); ("certRevoked", 10);
  ("certConfirmed", 11); ("wrongIntegrity", 12); ("badRecipientNonce", 13); ("timeNotAvailable", 14);
  ("unacceptedPolicy", 15); ("unacceptedExtension", 16); ("addInfoNotAvailable", 17); ("badSenderNonce", 18);
  ("badCertTemplate", 19); ("signerNotTrusted", 20); ("transactionIdInUse", 21); ("unsupportedVersion", 22);
  ("notAuthorized", 23); ("systemUnavail", 24); ("systemFailure", 25); ("duplicateCertReq", 26)]%Z.
Definition PKIStatusInfo := SEQUENCE [
  req "status" PKIStatus; opt "statusString" PKIFreeText; opt "failInfo" PKIFailureInfo].
Definition OOBCert := CMPCertificate.
Definition OOBCertHash := SEQUENCE [
  opt "hashAlg" (explicit 0 AlgorithmIdentifier); opt "certId" (explicit 1 CertId); req "hashVal" BIT_STRING].
Definition Challenge := SEQUENCE [opt "owf" AlgorithmIdentifier; req "witness" OCTET_STRING; req "challenge" OCTET_STRING].
Definition POPODecKeyChallContent := SEQUENCE_OF Challenge.
Definition POPODecKeyRespContent := SEQUENCE_OF INTEGER.
Definition CertOrEncCert := CHOICE [
  req "certificate" (explicit 0 CMPCertificate); req "encryptedCert" (explicit 1 EncryptedValue)].
Definition CertifiedKeyPair := SEQUENCE [
  req "certOrEncCert" CertOrEncCert; opt "privateKey" (explicit 0 EncryptedValue);
  opt "publicationInfo" (explicit 1 PKIPublicationInfo)].
Definition CertResponse := SEQUENCE [
  req "certReqId" INTEGER; req "status" PKIStatusInfo; opt "certifiedKeyPair" CertifiedKeyPair; opt "rspInfo" OCTET_STRING].
Definition CertRepMessage := SEQUENCE [
  opt "caPubs" (explicit 1 (size_min 1 (SEQUENCE_OF CMPCertificate))); req "response" (SEQUENCE_OF CertResponse)].
Definition KeyRecRepContent := SEQUENCE [
  req "status" PKIStatusInfo;
  opt "newSigCert" (explicit 0 CMPCertificate);
  opt "caCerts" (explicit 1 (size_min 1 (SEQUENCE_OF CMPCertificate)));
  opt "keyPairHist" (explicit 2 (size_min 1 (SEQUENCE_OF CertifiedKeyPair)))].
Definition RevDetails := SEQUENCE [req "certDetails" CertTemplate; opt "crlEntryDetails" Extensions].
Definition RevReqContent := SEQUENCE_OF RevDetails.
Definition RevRepContent := SEQUENCE [
  req "status" (size_min 1 (SEQUENCE_OF PKIStatusInfo));
  opt "revCerts" (explicit 0 (size_min 1 (SEQUENCE_OF CertId)));
  opt "crls" (explicit 1 (size_min 1 (SEQUENCE_OF CertificateList)))].
Definition CAKeyUpdAnnContent := SEQUENCE [
  req "oldWithNew" CMPCertificate; req "newWithOld" CMPCertificate; req "newWithNew" CMPCertificate].
Definition CertAnnContent := CMPCertificate.
Definition RevAnnContent := SEQUENCE [
  req "status" PKIStatus; req "certId" CertId; req "willBeRevokedAt" GeneralizedTime; req "badSinceDate" GeneralizedTime;
  opt "crlDetails" Extensions].
Definition CRLAnnContent := SEQUENCE_OF CertificateList.
Definition CertStatus := SEQUENCE [req "certHash" OCTET_STRING; req "certReqId" INTEGER; opt "statusInfo" PKIStatusInfo].
Definition CertConfirmContent := SEQUENCE_OF CertStatus.
Definition PKIConfirmContent := NULL.
Definition GenMsgContent := SEQUENCE_OF InfoTypeAndValue.
Definition GenRepContent := SEQUENCE_OF InfoTypeAndValue.
Definition ErrorMsgContent := SEQUENCE [
  req "pKIStatusInfo" PKIStatusInfo; opt "errorCode" INTEGER; opt "errorDetails" PKIFreeText].
Definition PollReqContent := SEQUENCE_OF (SEQUENCE [req "certReqId" INTEGER]).
Definition PollRepContent := SEQUENCE_OF (SEQUENCE [
  req "certReqId" INTEGER; req "checkAfter" INTEGER; opt "reason" PKIFreeText]).
Definition PBMParameter := SEQUENCE [
  req "salt" OCTET_STRING; req "owf" AlgorithmIdentifier; req "iterationCount" INTEGER; req "mac" AlgorithmIdentifier].
Definition DHBMParameter := SEQUENCE [req "owf" AlgorithmIdentifier; req "mac" AlgorithmIdentifier].
Definition PKIProtection := BIT_STRING.
(** NestedMessageContent is PKIMessages, which contains PKIBody; the messages are ANY here. *)
Definition NestedMessageContent := size_min 1 (SEQUENCE_OF ANY).
Definition PKIBody := CHOICE [
  req "ir" (explicit 0 CertReqMessages); req "ip" (explicit 1 CertRepMessage);
  req "cr" (explicit 2 CertReqMessages); req "cp" (explicit 3 CertRepMessage);
  req "p10cr" (explicit 4 Rfc2986.CertificationRequest);
  req "popdecc" (explicit 5 POPODecKeyChallContent); req "popdecr" (explicit 6 POPODecKeyRespContent);
  req "kur" (explicit 7 CertReqMessages); req "kup" (explicit 8 CertRepMessage);
  req "krr" (explicit 9 CertReqMessages); req "krp" (explicit 10 KeyRecRepContent);
  req "rr" (explicit 11 RevReqContent); req "rp" (explicit 12 RevRepContent);
  req "ccr" (explicit 13 CertReqMessages); req "ccp" (explicit 14 CertRepMessage);
  req "ckuann" (explicit 15 CAKeyUpdAnnContent); req "cann" (explicit 16 CertAnnContent);
  req "rann" (explicit 17 RevAnnContent); req "crlann" (explicit 18 CRLAnnContent);
  req "pkiconf" (explicit 19 PKIConfirmContent); req "nested" (explicit 20 NestedMessageContent);
  req "genm" (explicit 21 GenMsgContent); req "genp" (explicit 22 GenRepContent);
  req "error" (explicit 23 ErrorMsgContent); req "certConf" (explicit 24 CertConfirmContent);
  req "pollReq" (explicit 25 PollReqContent); req "pollRep" (explicit 26 PollRepContent)].
Definition ProtectedPart := SEQUENCE [req "header" PKIHeader; req "body" PKIBody].
Definition PKIMessage := SEQUENCE [
  req "header" PKIHeader; req "body" PKIBody; opt "protection" (explicit 0 PKIProtection);
  opt "extraCerts" (explicit 1 (size_min 1 (SEQUENCE_OF CMPCertificate)))].
Definition PKIMessages := size_min 1 (SEQUENCE_OF PKIMessage).

Definition rfc4210 : list (string * sty) := [
  ("CMPCertificate", CMPCertificate); ("PKIFreeText", PKIFreeText); ("KeyIdentifier", KeyIdentifier);
  ("InfoTypeAndValue", InfoTypeAndValue); ("PKIHeader", PKIHeader); ("PKIStatus", PKIStatus);
  ("PKIFailureInfo", PKIFailureInfo); ("PKIStatusInfo", PKIStatusInfo); ("OOBCert", OOBCert);
  ("OOBCertHash", OOBCertHash); ("Challenge", Challenge); ("POPODecKeyChallContent", POPODecKeyChallContent);
  ("POPODecKeyRespContent", POPODecKeyRespContent); ("CertOrEncCert", CertOrEncCert);
  ("CertifiedKeyPair", CertifiedKeyPair); ("CertResponse", CertResponse); ("CertRepMessage", CertRepMessage);
  ("KeyRecRepContent", KeyRecRepContent); ("RevDetails", RevDetails); ("RevReqContent", RevReqContent);
  ("RevRepContent", RevRepContent); ("CAKeyUpdAnnContent", CAKeyUpdAnnContent); ("CertAnnContent", CertAnnContent);
  ("RevAnnContent", RevAnnContent); ("CRLAnnContent", CRLAnnContent); ("CertStatus", CertStatus);
  ("CertConfirmContent", CertConfirmContent); ("PKIConfirmContent", PKIConfirmContent);
  ("GenMsgContent", GenMsgContent); ("GenRepContent", GenRepContent); ("ErrorMsgContent", ErrorMsgContent);
  ("PollReqContent", PollReqContent); ("PollRepContent", PollRepContent); ("PBMParameter", PBMParameter);
  ("DHBMParameter", DHBMParameter); ("PKIProtection", PKIProtection); ("NestedMessageContent", NestedMessageContent);
  ("PKIBody", PKIBody); ("ProtectedPart", ProtectedPart); ("PKIMessage", PKIMessage); ("PKIMessages", PKIMessages)].
