(** RFC 6960, appendix B.1: OCSP-2013-88 (EXPLICIT TAGS).  RFC 2560 has the types it names alike. *)
From Coq Require Import List String ZArith NArith.
From Verif Require Import Asn1.Types Spec.X680.
From Verif Require Import Spec.Rfc5280.
Import ListNotations.
Open Scope string_scope.
Open Scope list_scope.

Definition Version := INTEGER_OF [("v1", 0)]%Z.
Definition CertID := SEQUENCE [
  req "hashAlgorithm" AlgorithmIdentifier; req "issuerNameHash" OCTET_STRING; req "issuerKeyHash" OCTET_STRING;
  req "serialNumber" CertificateSerialNumber].
Definition Request := SEQUENCE [req "reqCert" CertID; opt "singleRequestExtensions" (explicit 0 Extensions)].
Definition Signature := SEQUENCE [
  req "signatureAlgorithm" AlgorithmIdentifier; req "signature" BIT_STRING;
  opt "certs" (explicit 0 (SEQUENCE_OF Certificate))].
Definition TBSRequest := SEQUENCE [
  dft "version" (explicit 0 Version) (VInt 0);
  opt "requestorName" (explicit 1 GeneralName);
  req "requestList" (SEQUENCE_OF Request);
  opt "requestExtensions" (explicit 2 Extensions)].
Definition OCSPRequest := SEQUENCE [req "tbsRequest" TBSRequest; opt "optionalSignature" (explicit 0 Signature)].
Definition OCSPResponseStatus := ENUMERATED [
  ("successful", 0); ("malformedRequest", 1); ("internalError", 2); ("tryLater", 3); ("sigRequired", 5); ("unauthorized", 6)]%Z.
Definition ResponseBytes := SEQUENCE [req "responseType" OBJECT_IDENTIFIER; req "response" OCTET_STRING].
Definition OCSPResponse := SEQUENCE [
  req "responseStatus" OCSPResponseStatus; opt "responseBytes" (explicit 0 ResponseBytes)].
Definition KeyHash := OCTET_STRING.
Definition ResponderID := CHOICE [req "byName" (explicit 1 Name); req "byKey" (explicit 2 KeyHash)].
Definition RevokedInfo := SEQUENCE [
  req "revocationTime" GeneralizedTime; opt "revocationReason" (explicit 0 CRLReason)].
Definition UnknownInfo := NULL.
Definition CertStatus := CHOICE [
  req "good" (implicit 0 NULL); req "revoked" (implicit 1 RevokedInfo); req "unknown" (implicit 2 UnknownInfo)].
Definition SingleResponse := SEQUENCE [
  req "certID" CertID; req "certStatus" CertStatus; req "thisUpdate" GeneralizedTime;
  opt "nextUpdate" (explicit 0 GeneralizedTime); opt "singleExtensions" (explicit 1 Extensions)].
Definition ResponseData := SEQUENCE [
  dft "version" (explicit 0 Version) (VInt 0);
  req "responderID" ResponderID;
  req "producedAt" GeneralizedTime;
  req "responses" (SEQUENCE_OF SingleResponse);
  opt "responseExtensions" (explicit 1 Extensions)].
Definition BasicOCSPResponse := SEQUENCE [
  req "tbsResponseData" ResponseData; req "signatureAlgorithm" AlgorithmIdentifier; req "signature" BIT_STRING;
  opt "certs" (explicit 0 (SEQUENCE_OF Certificate))].
Definition ArchiveCutoff := GeneralizedTime.
Definition AcceptableResponses := SEQUENCE_OF OBJECT_IDENTIFIER.
Definition ServiceLocator := SEQUENCE [req "issuer" Name; req "locator" AuthorityInfoAccessSyntax].
Definition CrlID := SEQUENCE [
  opt "crlUrl" (explicit 0 IA5String); opt "crlNum" (explicit 1 INTEGER); opt "crlTime" (explicit 2 GeneralizedTime)].
Definition PreferredSignatureAlgorithm := SEQUENCE [
  req "sigIdentifier" AlgorithmIdentifier; opt "certIdentifier" AlgorithmIdentifier].
Definition PreferredSignatureAlgorithms := SEQUENCE_OF PreferredSignatureAlgorithm.

Definition rfc6960 : list (string * sty) := [
  ("Version", Version); ("CertID", CertID); ("Request", Request); ("Signature", Signature);
  ("TBSRequest", TBSRequest); ("OCSPRequest", OCSPRequest); ("OCSPResponseStatus", OCSPResponseStatus);
  ("ResponseBytes", ResponseBytes); ("OCSPResponse", OCSPResponse); ("KeyHash", KeyHash);
  ("ResponderID", ResponderID); ("RevokedInfo", RevokedInfo); ("UnknownInfo", UnknownInfo);
  ("CertStatus", CertStatus); ("SingleResponse", SingleResponse); ("ResponseData", ResponseData);
  ("BasicOCSPResponse", BasicOCSPResponse); ("ArchiveCutoff", ArchiveCutoff);
  ("AcceptableResponses", AcceptableResponses); ("ServiceLocator", ServiceLocator); ("CrlID", CrlID);
  ("PreferredSignatureAlgorithm", PreferredSignatureAlgorithm);
  ("PreferredSignatureAlgorithms", PreferredSignatureAlgorithms);
  ("AlgorithmIdentifier", Rfc5280.AlgorithmIdentifier);
  ("AuthorityInfoAccessSyntax", Rfc5280.AuthorityInfoAccessSyntax); ("CRLReason", Rfc5280.CRLReason);
  ("Certificate", Rfc5280.Certificate); ("CertificateSerialNumber", Rfc5280.CertificateSerialNumber);
  ("Extensions", Rfc5280.Extensions); ("GeneralName", Rfc5280.GeneralName); ("Name", Rfc5280.Name)].

Definition rfc2560 : list (string * sty) := [
  ("Version", Version); ("CertID", CertID); ("Request", Request); ("Signature", Signature); ("TBSRequest", TBSRequest);
  ("OCSPRequest", OCSPRequest); ("OCSPResponseStatus", OCSPResponseStatus); ("ResponseBytes", ResponseBytes);
  ("OCSPResponse", OCSPResponse); ("KeyHash", KeyHash); ("ResponderID", ResponderID); ("RevokedInfo", RevokedInfo);
  ("UnknownInfo", UnknownInfo); ("CertStatus", CertStatus); ("SingleResponse", SingleResponse); ("ResponseData", ResponseData);
  ("BasicOCSPResponse", BasicOCSPResponse); ("ArchiveCutoff", ArchiveCutoff); ("AcceptableResponses", AcceptableResponses);
  ("CRLReason", CRLReason); ("GeneralName", GeneralName)].
