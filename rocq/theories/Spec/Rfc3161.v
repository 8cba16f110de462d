(** RFC 3161, appendix C: PKIXTSP (IMPLICIT TAGS). *)
From Coq Require Import List String ZArith NArith.
From Verif Require Import Asn1.Types Spec.X680.
From Verif Require Spec.Rfc5652.
From Verif Require Import Spec.Rfc5280.
Import ListNotations.
Open Scope string_scope.
Open Scope list_scope.

Definition TSAPolicyId := OBJECT_IDENTIFIER.
Definition MessageImprint := SEQUENCE [req "hashAlgorithm" AlgorithmIdentifier; req "hashedMessage" OCTET_STRING].
Definition TimeStampReq := SEQUENCE [
  req "version" (INTEGER_OF [("v1", 1)]%Z);
  req "messageImprint" MessageImprint;
  opt "reqPolicy" TSAPolicyId;
  opt "nonce" INTEGER;
  dft "certReq" BOOLEAN (VBool false);
  opt "extensions" (implicit 0 Extensions)].
Definition PKIStatus := INTEGER_OF [
  ("granted", 0); ("grantedWithMods", 1); ("rejection", 2); ("waiting", 3); ("revocationWarning", 4);
  ("revocationNotification", 5)]%Z.
Definition PKIFreeText := size_min 1 (SEQUENCE_OF UTF8String).
Definition PKIFailureInfo := BIT_STRING_OF [
  ("badAlg", 0); ("badRequest", 2); ("badDataFormat", 5); ("timeNotAvailable", 14); ("unacceptedPolicy", 15);
  ("unacceptedExtension", 16); ("addInfoNotAvailable", 17); ("systemFailure", 25)]%Z.
Definition PKIStatusInfo := SEQUENCE [
  req "status" PKIStatus; opt "statusString" PKIFreeText; opt "failInfo" PKIFailureInfo].
Definition TimeStampToken := Rfc5652.ContentInfo.
Definition TimeStampResp := SEQUENCE [req "status" PKIStatusInfo; opt "timeStampToken" TimeStampToken].
Definition Accuracy := SEQUENCE [
  opt "seconds" INTEGER; opt "millis" (implicit 0 (range 1 999 INTEGER)); opt "micros" (implicit 1 (range 1 999 INTEGER))].
Definition TSTInfo := SEQUENCE [
  req "version" (INTEGER_OF [("v1", 1)]%Z);
  req "policy" TSAPolicyId;
  req "messageImprint" MessageImprint;
  req "serialNumber" INTEGER;
  req "genTime" GeneralizedTime;
  opt "accuracy" Accuracy;
  dft "ordering" BOOLEAN (VBool false);
  opt "nonce" INTEGER;
  opt "tsa" (explicit 0 GeneralName);
  opt "extensions" (implicit 1 Extensions)].

Definition rfc3161 : list (string * sty) := [
  ("TSAPolicyId", TSAPolicyId); ("MessageImprint", MessageImprint); ("TimeStampReq", TimeStampReq);
  ("PKIStatus", PKIStatus); ("PKIFreeText", PKIFreeText); ("PKIFailureInfo", PKIFailureInfo);
  ("PKIStatusInfo", PKIStatusInfo); ("TimeStampToken", TimeStampToken); ("TimeStampResp", TimeStampResp);
  ("Accuracy", Accuracy); ("TSTInfo", TSTInfo); ("AlgorithmIdentifier", Rfc5280.AlgorithmIdentifier);
  ("Extensions", Rfc5280.Extensions); ("GeneralName", Rfc5280.GeneralName); ("ContentInfo", Rfc5652.ContentInfo)].
