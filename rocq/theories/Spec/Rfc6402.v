(** RFC 6402, appendix A: EnrollmentMessageSyntax (IMPLICIT TAGS). *)
From Coq Require Import List String ZArith NArith.
From Verif Require Import Asn1.Types Spec.X680.
From Verif Require Import Spec.Rfc5280 Spec.Rfc5652 Spec.Rfc4211.
Import ListNotations.
Open Scope string_scope.
Open Scope list_scope.

Definition BodyPartID := range 0 4294967295 INTEGER.
Definition AttributeValue := ANY.
Definition TaggedAttribute := SEQUENCE [
  req "bodyPartID" BodyPartID; req "attrType" OBJECT_IDENTIFIER; req "attrValues" (SET_OF AttributeValue)].
Definition CertificationRequest := SEQUENCE [
  req "certificationRequestInfo" (SEQUENCE [
    req "version" INTEGER;
    req "subject" Name;
    req "subjectPublicKeyInfo" (SEQUENCE [req "algorithm" AlgorithmIdentifier; req "subjectPublicKey" BIT_STRING]);
    req "attributes" (implicit 0 (SET_OF Rfc5652.Attribute))]);
  req "signatureAlgorithm" AlgorithmIdentifier;
  req "signature" BIT_STRING].
Definition TaggedCertificationRequest := SEQUENCE [
  req "bodyPartID" BodyPartID; req "certificationRequest" CertificationRequest].
Definition TaggedRequest := CHOICE [
  req "tcr" (implicit 0 TaggedCertificationRequest);
  req "crm" (implicit 1 CertReqMsg);
  req "orm" (implicit 2 (SEQUENCE [
    req "bodyPartID" BodyPartID; req "requestMessageType" OBJECT_IDENTIFIER; req "requestMessageValue" ANY]))].
Definition TaggedContentInfo := SEQUENCE [req "bodyPartID" BodyPartID; req "contentInfo" ContentInfo].
Definition OtherMsg := SEQUENCE [
  req "bodyPartID" BodyPartID; req "otherMsgType" OBJECT_IDENTIFIER; req "otherMsgValue" ANY].
Definition PKIData := SEQUENCE [
  req "controlSequence" (SEQUENCE_OF TaggedAttribute);
  req "reqSequence" (SEQUENCE_OF TaggedRequest);
  req "cmsSequence" (SEQUENCE_OF TaggedContentInfo);
  req "otherMsgSequence" (SEQUENCE_OF OtherMsg)].
Definition ResponseBody := SEQUENCE [
  req "controlSequence" (SEQUENCE_OF TaggedAttribute);
  req "cmsSequence" (SEQUENCE_OF TaggedContentInfo);
  req "otherMsgSequence" (SEQUENCE_OF OtherMsg)].
Definition PKIResponse := ResponseBody.
Definition CMCStatus := INTEGER_OF [
  ("success", 0); ("failed", 2); ("pending", 3); ("noSupport", 4); ("confirmRequired", 5); ("popRequired", 6);
  ("partial", 7)]%Z.
Definition CMCFailInfo := INTEGER_OF [
  ("badAlg", 0); ("badMessageCheck", 1); ("badRequest", 2); ("badTime", 3); ("badCertId", 4); ("unsupportedExt", 5);
  ("mustArchiveKeys", 6); ("badIdentity", 7); ("popRequired", 8); ("popFailed", 9); ("noKeyReuse", 10);
  ("internalCAError", 11); ("tryLater", 12); ("authDataFail", 13)]%Z.
Definition PendInfo := SEQUENCE [req "pendToken" OCTET_STRING; req "pendTime" GeneralizedTime].
Definition CMCStatusInfo := SEQUENCE [
  req "cMCStatus" CMCStatus;
  req "bodyList" (size_min 1 (SEQUENCE_OF BodyPartID));
  opt "statusString" UTF8String;
  opt "otherInfo" (CHOICE [req "failInfo" CMCFailInfo; req "pendInfo" PendInfo])].
Definition BodyPartPath := size_min 1 (SEQUENCE_OF BodyPartID).
Definition BodyPartReference := CHOICE [req "bodyPartID" BodyPartID; req "bodyPartPath" BodyPartPath].
Definition CMCStatusInfoV2 := SEQUENCE [
  req "cMCStatus" CMCStatus;
  req "bodyList" (size_min 1 (SEQUENCE_OF BodyPartReference));
  opt "statusString" UTF8String;
  opt "otherInfo" (CHOICE [
    req "failInfo" CMCFailInfo;
    req "pendInfo" PendInfo;
    req "extendedFailInfo" (implicit 1 (SEQUENCE [req "failInfoOID" OBJECT_IDENTIFIER; req "failInfoValue" AttributeValue]))])].
Definition AddExtensions := SEQUENCE [
  req "pkiDataReference" BodyPartID;
  req "certReferences" (SEQUENCE_OF BodyPartID);
  req "extensions" (SEQUENCE_OF Extension)].
Definition EncryptedPOP := SEQUENCE [
  req "request" TaggedRequest;
  req "cms" ContentInfo;
  req "thePOPAlgID" AlgorithmIdentifier;
  req "witnessAlgID" AlgorithmIdentifier;
  req "witness" OCTET_STRING].
Definition DecryptedPOP := SEQUENCE [
  req "bodyPartID" BodyPartID; req "thePOPAlgID" AlgorithmIdentifier; req "thePOP" OCTET_STRING].
Definition LraPopWitness := SEQUENCE [req "pkiDataBodyid" BodyPartID; req "bodyIds" (SEQUENCE_OF BodyPartID)].
Definition GetCert := SEQUENCE [req "issuerName" GeneralName; req "serialNumber" INTEGER].
Definition GetCRL := SEQUENCE [
  req "issuerName" Name; opt "cRLName" GeneralName; opt "time" GeneralizedTime; opt "reasons" ReasonFlags].
Definition RevokeRequest := SEQUENCE [
  req "issuerName" Name;
  req "serialNumber" INTEGER;
  req "reason" CRLReason;
  opt "invalidityDate" GeneralizedTime;
  opt "passphrase" OCTET_STRING;
  opt "comment" UTF8String].
Definition CMCCertId := IssuerAndSerialNumber.
Definition ExtensionReq := size_min 1 (SEQUENCE_OF Extension).
Definition NoSignatureValue := OCTET_STRING.
Definition CMCUnsignedData := SEQUENCE [
  req "bodyPartPath" BodyPartPath; req "identifier" OBJECT_IDENTIFIER; req "content" ANY].
Definition PublishTrustAnchors := SEQUENCE [
  req "seqNumber" INTEGER; req "hashAlgorithm" AlgorithmIdentifier; req "anchorHashes" (SEQUENCE_OF OCTET_STRING)].
Definition AuthPublish := BodyPartID.
Definition BodyPartList := size_min 1 (SEQUENCE_OF BodyPartID).
Definition CMCPublicationInfo := SEQUENCE [
  req "hashAlg" AlgorithmIdentifier; req "certHashes" (SEQUENCE_OF OCTET_STRING); req "pubInfo" PKIPublicationInfo].
Definition ModCertTemplate := SEQUENCE [
  req "pkiDataReference" BodyPartPath;
  req "certReferences" BodyPartList;
  dft "replace" BOOLEAN (VBool true);
  req "certTemplate" CertTemplate].
Definition ControlsProcessed := SEQUENCE [req "bodyList" (size_min 1 (SEQUENCE_OF BodyPartReference))].
Definition IdentifyProofV2 := SEQUENCE [
  req "proofAlgID" AlgorithmIdentifier; req "macAlgId" AlgorithmIdentifier; req "witness" OCTET_STRING].
Definition PopLinkWitnessV2 := SEQUENCE [
  req "keyGenAlgorithm" AlgorithmIdentifier; req "macAlgorithm" AlgorithmIdentifier; req "witness" OCTET_STRING].
Definition ChangeSubjectName := SEQUENCE [opt "subject" Name; opt "subjectAlt" GeneralNames].

Definition rfc6402 : list (string * sty) := [
  ("BodyPartID", BodyPartID); ("AttributeValue", AttributeValue); ("TaggedAttribute", TaggedAttribute);
  ("CertificationRequest", CertificationRequest); ("TaggedCertificationRequest", TaggedCertificationRequest);
  ("TaggedRequest", TaggedRequest); ("TaggedContentInfo", TaggedContentInfo); ("OtherMsg", OtherMsg);
  ("PKIData", PKIData); ("ResponseBody", ResponseBody); ("PKIResponse", PKIResponse); ("CMCStatus", CMCStatus);
  ("CMCFailInfo", CMCFailInfo); ("PendInfo", PendInfo); ("CMCStatusInfo", CMCStatusInfo);
  ("BodyPartPath", BodyPartPath); ("BodyPartReference", BodyPartReference); ("CMCStatusInfoV2", CMCStatusInfoV2);
  ("AddExtensions", AddExtensions); ("EncryptedPOP", EncryptedPOP); ("DecryptedPOP", DecryptedPOP);
  ("LraPopWitness", LraPopWitness); ("GetCert", GetCert); ("GetCRL", GetCRL); ("RevokeRequest", RevokeRequest);
  ("CMCCertId", CMCCertId); ("ExtensionReq", ExtensionReq); ("NoSignatureValue", NoSignatureValue);
  ("CMCUnsignedData", CMCUnsignedData); ("PublishTrustAnchors", PublishTrustAnchors); ("AuthPublish", AuthPublish);
  ("BodyPartList", BodyPartList); ("CMCPublicationInfo", CMCPublicationInfo); ("ModCertTemplate", ModCertTemplate);
  ("ControlsProcessed", ControlsProcessed); ("IdentifyProofV2", IdentifyProofV2);
  ("PopLinkWitnessV2", PopLinkWitnessV2); ("ChangeSubjectName", ChangeSubjectName)].
