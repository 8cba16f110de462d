(** RFC 5934, appendix A: TAMP-Protocol-v2-88 (IMPLICIT TAGS). *)
From Coq Require Import List String ZArith NArith.
From Verif Require Import Asn1.Types Spec.X680.
From Verif Require Import Spec.Rfc5280 Spec.Rfc5914.
Import ListNotations.
Open Scope string_scope.
Open Scope list_scope.

Definition TAMPVersion := INTEGER_OF [("v1", 1); ("v2", 2)]%Z.
Definition TerseOrVerbose := ENUMERATED [("terse", 1); ("verbose", 2)]%Z.
Definition HardwareSerialEntry := CHOICE [
  req "all" NULL; req "single" OCTET_STRING; req "block" (SEQUENCE [req "low" OCTET_STRING; req "high" OCTET_STRING])].
Definition HardwareModules := SEQUENCE [
  req "hwType" OBJECT_IDENTIFIER; req "hwSerialEntries" (size_min 1 (SEQUENCE_OF HardwareSerialEntry))].
Definition HardwareModuleIdentifierList := size_min 1 (SEQUENCE_OF HardwareModules).
Definition Community := OBJECT_IDENTIFIER.
Definition CommunityIdentifierList := size_min 0 (SEQUENCE_OF Community).
Definition TargetIdentifier := CHOICE [
  req "hwModules" (implicit 1 HardwareModuleIdentifierList);
  req "communities" (implicit 2 CommunityIdentifierList);
  req "allModules" (implicit 3 NULL);
  req "uri" (implicit 4 IA5String);
  req "otherName" (implicit 5 AnotherName)].
Definition SeqNumber := range 0 9223372036854775807 INTEGER.
Definition TAMPMsgRef := SEQUENCE [req "target" TargetIdentifier; req "seqNum" SeqNumber].
Local Notation version := (dft "version" (implicit 0 TAMPVersion) (VInt 2)).
Local Notation terse := (dft "terse" (implicit 1 TerseOrVerbose) (VInt 2)).
Definition TAMPStatusQuery := SEQUENCE [version; terse; req "query" TAMPMsgRef].
Definition KeyIdentifiers := size_min 1 (SEQUENCE_OF KeyIdentifier).
Definition TrustAnchorChoiceList := size_min 1 (SEQUENCE_OF TrustAnchorChoice).
Definition TAMPSequenceNumber := SEQUENCE [req "keyId" KeyIdentifier; req "seqNumber" SeqNumber].
Definition TAMPSequenceNumbers := size_min 1 (SEQUENCE_OF TAMPSequenceNumber).
Definition TerseStatusResponse := SEQUENCE [
  req "taKeyIds" KeyIdentifiers; opt "communities" CommunityIdentifierList].
Definition VerboseStatusResponse := SEQUENCE [
  req "taInfo" TrustAnchorChoiceList;
  opt "continPubKeyDecryptAlg" (implicit 0 AlgorithmIdentifier);
  opt "communities" (implicit 1 CommunityIdentifierList);
  opt "tampSeqNumbers" (implicit 2 TAMPSequenceNumbers)].
Definition StatusResponse := CHOICE [
  req "terseResponse" (implicit 0 TerseStatusResponse); req "verboseResponse" (implicit 1 VerboseStatusResponse)].
Definition TAMPStatusResponse := SEQUENCE [
  version; req "query" TAMPMsgRef; req "response" StatusResponse; dft "usesApex" BOOLEAN (VBool true)].
Definition TBSCertificateChangeInfo := SEQUENCE [
  opt "serialNumber" CertificateSerialNumber;
  opt "signature" (implicit 0 AlgorithmIdentifier);
  opt "issuer" (implicit 1 Name);
  opt "validity" (implicit 2 Validity);
  opt "subject" (implicit 3 Name);
  req "subjectPublicKeyInfo" (implicit 4 SubjectPublicKeyInfo);
  opt "exts" (explicit 5 Extensions)].
Definition TrustAnchorChangeInfo := SEQUENCE [
  req "pubKey" SubjectPublicKeyInfo;
  opt "keyId" KeyIdentifier;
  opt "taTitle" TrustAnchorTitle;
  opt "certPath" CertPathControls;
  opt "exts" (implicit 1 Extensions)].
Definition TrustAnchorChangeInfoChoice := CHOICE [
  req "tbsCertChange" (implicit 0 TBSCertificateChangeInfo); req "taChange" (implicit 1 TrustAnchorChangeInfo)].
Definition TrustAnchorUpdate := CHOICE [
  req "add" (implicit 1 TrustAnchorChoice);
  req "remove" (implicit 2 SubjectPublicKeyInfo);
  req "change" (explicit 3 TrustAnchorChangeInfoChoice)].
Definition TAMPUpdate := SEQUENCE [
  version;
  terse;
  req "msgRef" TAMPMsgRef;
  req "updates" (size_min 1 (SEQUENCE_OF TrustAnchorUpdate));
  opt "tampSeqNumbers" (implicit 2 TAMPSequenceNumbers)].
Definition StatusCode := ENUMERATED [
  ("success", 0); ("decodeFailure", 1); ("badContentInfo", 2); ("badSignedData", 3); ("badEncapContent", 4);
  ("badCertificate", 5); ("badSignerInfo", 6); ("badSignedAttrs", 7); ("badUnsignedAttrs", 8); ("missingContent", 9);
  ("noTrustAnchor", 10); ("notAuthorized", 11); ("badDigestAlgorithm", 12); ("badSignatureAlgorithm", 13);
  ("unsupportedKeySize", 14); ("unsupportedParameters", 15); ("signatureFailure", 16); ("insufficientMemory", 17);
  ("unsupportedTAMPMsgType", 18); ("apexTAMPAnchor", 19); ("improperTAAddition", 20); ("seqNumFailure", 21);
  ("contingencyPublicKeyDecrypt", 22); ("incorrectTarget", 23); ("communityUpdateFailed", 24);
  ("trustAnchorNotFound", 25); ("unsupportedTAAlgorithm", 26); ("unsupportedTAKeySize", 27);
  ("unsupportedContinPubKeyDecryptAlg", 28); ("missingSignature", 29); ("resourcesBusy", 30);
  ("versionNumberMismatch", 31); ("missingPolicySet", 32); ("revokedCertificate", 33);
  ("unsupportedTrustAnchorFormat", 34); ("improperTAChange", 35); ("malformed", 36); ("cmsError", 37);
  ("unsupportedTargetIdentifier", 38); ("other", 127)]%Z.
Definition StatusCodeList := size_min 1 (SEQUENCE_OF StatusCode).
Definition TerseUpdateConfirm := StatusCodeList.
Definition VerboseUpdateConfirm := SEQUENCE [
  req "status" StatusCodeList;
  req "taInfo" TrustAnchorChoiceList;
  opt "tampSeqNumbers" TAMPSequenceNumbers;
  dft "usesApex" BOOLEAN (VBool true)].
Definition UpdateConfirm := CHOICE [
  req "terseConfirm" (implicit 0 TerseUpdateConfirm); req "verboseConfirm" (implicit 1 VerboseUpdateConfirm)].
Definition TAMPUpdateConfirm := SEQUENCE [version; req "update" TAMPMsgRef; req "confirm" UpdateConfirm].
Definition TAMPApexUpdate := SEQUENCE [
  version;
  terse;
  req "msgRef" TAMPMsgRef;
  req "clearTrustAnchors" BOOLEAN;
  req "clearCommunities" BOOLEAN;
  opt "seqNumber" SeqNumber;
  req "apexTA" TrustAnchorChoice].
Definition TerseApexUpdateConfirm := StatusCode.
Definition VerboseApexUpdateConfirm := SEQUENCE [
  req "status" StatusCode;
  req "taInfo" TrustAnchorChoiceList;
  opt "communities" (implicit 0 CommunityIdentifierList);
  opt "tampSeqNumbers" (implicit 1 TAMPSequenceNumbers)].
Definition ApexUpdateConfirm := CHOICE [
  req "terseApexConfirm" (implicit 0 TerseApexUpdateConfirm);
  req "verboseApexConfirm" (implicit 1 VerboseApexUpdateConfirm)].
Definition TAMPApexUpdateConfirm := SEQUENCE [
  version; req "apexReplace" TAMPMsgRef; req "apexConfirm" ApexUpdateConfirm].
Definition CommunityUpdates := SEQUENCE [
  opt "remove" (implicit 1 CommunityIdentifierList); opt "add" (implicit 2 CommunityIdentifierList)].
Definition TAMPCommunityUpdate := SEQUENCE [version; terse; req "msgRef" TAMPMsgRef; req "updates" CommunityUpdates].
Definition TerseCommunityConfirm := StatusCode.
Definition VerboseCommunityConfirm := SEQUENCE [req "status" StatusCode; opt "communities" CommunityIdentifierList].
Definition CommunityConfirm := CHOICE [
  req "terseCommConfirm" (implicit 0 TerseCommunityConfirm);
  req "verboseCommConfirm" (implicit 1 VerboseCommunityConfirm)].
Definition TAMPCommunityUpdateConfirm := SEQUENCE [
  version; req "update" TAMPMsgRef; req "commConfirm" CommunityConfirm].
Definition SequenceNumberAdjust := SEQUENCE [version; req "msgRef" TAMPMsgRef].
Definition SequenceNumberAdjustConfirm := SEQUENCE [version; req "adjust" TAMPMsgRef; req "status" StatusCode].
Definition TAMPError := SEQUENCE [
  version; req "msgType" OBJECT_IDENTIFIER; req "status" StatusCode; opt "msgRef" TAMPMsgRef].
Definition PlaintextSymmetricKey := OCTET_STRING.
Definition ApexContingencyKey := SEQUENCE [
  req "wrapAlgorithm" AlgorithmIdentifier; req "wrappedContinPubKey" OCTET_STRING].

Definition rfc5934 : list (string * sty) := [
  ("TAMPVersion", TAMPVersion); ("TerseOrVerbose", TerseOrVerbose); ("HardwareSerialEntry", HardwareSerialEntry);
  ("HardwareModules", HardwareModules); ("HardwareModuleIdentifierList", HardwareModuleIdentifierList);
  ("Community", Community); ("CommunityIdentifierList", CommunityIdentifierList);
  ("TargetIdentifier", TargetIdentifier); ("SeqNumber", SeqNumber); ("TAMPMsgRef", TAMPMsgRef);
  ("TAMPStatusQuery", TAMPStatusQuery); ("KeyIdentifiers", KeyIdentifiers);
  ("TrustAnchorChoiceList", TrustAnchorChoiceList); ("TAMPSequenceNumber", TAMPSequenceNumber);
  ("TAMPSequenceNumbers", TAMPSequenceNumbers); ("TerseStatusResponse", TerseStatusResponse);
  ("VerboseStatusResponse", VerboseStatusResponse); ("StatusResponse", StatusResponse);
  ("TAMPStatusResponse", TAMPStatusResponse); ("TBSCertificateChangeInfo", TBSCertificateChangeInfo);
  ("TrustAnchorChangeInfo", TrustAnchorChangeInfo); ("TrustAnchorChangeInfoChoice", TrustAnchorChangeInfoChoice);
  ("TrustAnchorUpdate", TrustAnchorUpdate); ("TAMPUpdate", TAMPUpdate); ("StatusCode", StatusCode);
  ("StatusCodeList", StatusCodeList); ("TerseUpdateConfirm", TerseUpdateConfirm);
  ("VerboseUpdateConfirm", VerboseUpdateConfirm); ("UpdateConfirm", UpdateConfirm);
  ("TAMPUpdateConfirm", TAMPUpdateConfirm); ("TAMPApexUpdate", TAMPApexUpdate);
  ("TerseApexUpdateConfirm", TerseApexUpdateConfirm); ("VerboseApexUpdateConfirm", VerboseApexUpdateConfirm);
  ("ApexUpdateConfirm", ApexUpdateConfirm); ("TAMPApexUpdateConfirm", TAMPApexUpdateConfirm);
  ("CommunityUpdates", CommunityUpdates); ("TAMPCommunityUpdate", TAMPCommunityUpdate);
  ("TerseCommunityConfirm", TerseCommunityConfirm); ("VerboseCommunityConfirm", VerboseCommunityConfirm);
  ("CommunityConfirm", CommunityConfirm); ("TAMPCommunityUpdateConfirm", TAMPCommunityUpdateConfirm);
  ("SequenceNumberAdjust", SequenceNumberAdjust); ("SequenceNumberAdjustConfirm", SequenceNumberAdjustConfirm);
  ("TAMPError", TAMPError); ("PlaintextSymmetricKey", PlaintextSymmetricKey);
  ("ApexContingencyKey", ApexContingencyKey); ("CertPathControls", Rfc5914.CertPathControls);
  ("TrustAnchorChoice", Rfc5914.TrustAnchorChoice); ("TrustAnchorTitle", Rfc5914.TrustAnchorTitle);
  ("AlgorithmIdentifier", Rfc5280.AlgorithmIdentifier); ("AnotherName", Rfc5280.AnotherName);
  ("Attribute", Rfc5280.Attribute); ("Certificate", Rfc5280.Certificate);
  ("CertificateSerialNumber", Rfc5280.CertificateSerialNumber); ("Extension", Rfc5280.Extension);
  ("Extensions", Rfc5280.Extensions); ("KeyIdentifier", Rfc5280.KeyIdentifier); ("Name", Rfc5280.Name);
  ("SubjectPublicKeyInfo", Rfc5280.SubjectPublicKeyInfo); ("TBSCertificate", Rfc5280.TBSCertificate);
  ("Validity", Rfc5280.Validity)].
