(** RFC 5275, appendix A (IMPLICIT TAGS).  The type of requestedAlgorithm and the numbers of
        SKDFailInfo were checked against the code. *)
From Coq Require Import List String ZArith NArith.
From Verif Require Import Asn1.Types Spec.X680.
From Verif Require Spec.Rfc5751.
From Verif Require Import Spec.Rfc5280 Spec.Rfc5652 Spec.Rfc5755.
Import ListNotations.
Open Scope string_scope.
Open Scope list_scope.

Definition Certificates := SEQUENCE [
  opt "pKC" (implicit 0 Certificate);
  opt "aC" (implicit 1 (size_min 1 (SEQUENCE_OF AttributeCertificate)));
  opt "certPath" (implicit 2 CertificateSet)].
Definition GLInfo := SEQUENCE [req "glName" GeneralName; req "glAddress" GeneralName].
Definition GLOwnerInfo := SEQUENCE [
  req "glOwnerName" GeneralName; req "glOwnerAddress" GeneralName; opt "certificates" Certificates].
Definition GLAdministration := INTEGER_OF [("unmanaged", 0); ("managed", 1); ("closed", 2)]%Z.
Definition GLKeyAttributes := SEQUENCE [
  dft "rekeyControlledByGLO" (implicit 0 BOOLEAN) (VBool false);
  dft "recipientsNotMutuallyAware" (implicit 1 BOOLEAN) (VBool true);
  dft "duration" (implicit 2 INTEGER) (VInt 0);
  dft "generationCounter" (implicit 3 INTEGER) (VInt 2);
  dft "requestedAlgorithm" (implicit 4 Rfc5751.SMIMECapability) (VSeq [Some (VOid [2; 16; 840; 1; 101; 3; 4; 1; 5]%N); None])].
Definition GLUseKEK := SEQUENCE [
  req "glInfo" GLInfo;
  req "glOwnerInfo" (size_min 1 (SEQUENCE_OF GLOwnerInfo));
  dft "glAdministration" GLAdministration (VInt 1);
  opt "glKeyAttributes" GLKeyAttributes].
Definition DeleteGL := GeneralName.
Definition GLMember := SEQUENCE [
  req "glMemberName" GeneralName; opt "glMemberAddress" GeneralName; opt "certificates" Certificates].
Definition GLAddMember := SEQUENCE [req "glName" GeneralName; req "glMember" GLMember].
Definition GLDeleteMember := SEQUENCE [req "glName" GeneralName; req "glMemberToDelete" GeneralName].
Definition GLNewKeyAttributes := SEQUENCE [
  opt "rekeyControlledByGLO" (implicit 0 BOOLEAN);
  opt "recipientsNotMutuallyAware" (implicit 1 BOOLEAN);
  opt "duration" (implicit 2 INTEGER);
  opt "generationCounter" (implicit 3 INTEGER);
  opt "requestedAlgorithm" (implicit 4 AlgorithmIdentifier)].
Definition GLRekey := SEQUENCE [
  req "glName" GeneralName;
  opt "glAdministration" GLAdministration;
  opt "glNewKeyAttributes" GLNewKeyAttributes;
  opt "glRekeyAllGLKeys" BOOLEAN].
Definition GLOwnerAdministration := SEQUENCE [req "glName" GeneralName; req "glOwnerInfo" GLOwnerInfo].
Definition GLKCompromise := GeneralName.
Definition Date := SEQUENCE [req "start" GeneralizedTime; opt "end" GeneralizedTime].
Definition GLKRefresh := SEQUENCE [req "glName" GeneralName; req "dates" (size_min 1 (SEQUENCE_OF Date))].
Definition GLAQueryRequest := SEQUENCE [req "glaRequestType" OBJECT_IDENTIFIER; req "glaRequestValue" ANY].
Definition GLAQueryResponse := SEQUENCE [req "glaResponseType" OBJECT_IDENTIFIER; req "glaResponseValue" ANY].
Definition SKDAlgRequest := NULL.
Definition GLManageCert := SEQUENCE [req "glName" GeneralName; req "glMember" GLMember].
Definition GLKey := SEQUENCE [
  req "glName" GeneralName;
  req "glIdentifier" KEKIdentifier;
  req "glkWrapped" RecipientInfos;
  req "glkAlgorithm" AlgorithmIdentifier;
  req "glkNotBefore" GeneralizedTime;
  req "glkNotAfter" GeneralizedTime].
Definition SKDFailInfo := INTEGER_OF [
  ("unspecified", 0); ("closedGL", 1); ("unsupportedDuration", 2); ("noGLACertificate", 3); ("invalidCert", 4);
  ("unsupportedAlgorithm", 5); ("noGLONameMatch", 6); ("invalidGLName", 7); ("nameAlreadyInUse", 8); ("noSpam", 9);
  ("alreadyAMember", 11); ("notAMember", 12); ("alreadyAnOwner", 13); ("notAnOwner", 14)]%Z.

Definition rfc5275 : list (string * sty) := [
  ("Certificates", Certificates); ("GLInfo", GLInfo); ("GLOwnerInfo", GLOwnerInfo);
  ("GLAdministration", GLAdministration); ("GLKeyAttributes", GLKeyAttributes); ("GLUseKEK", GLUseKEK);
  ("DeleteGL", DeleteGL); ("GLMember", GLMember); ("GLAddMember", GLAddMember); ("GLDeleteMember", GLDeleteMember);
  ("GLNewKeyAttributes", GLNewKeyAttributes); ("GLRekey", GLRekey); ("GLOwnerAdministration", GLOwnerAdministration);
  ("GLKCompromise", GLKCompromise); ("Date", Date); ("GLKRefresh", GLKRefresh); ("GLAQueryRequest", GLAQueryRequest);
  ("GLAQueryResponse", GLAQueryResponse); ("SKDAlgRequest", SKDAlgRequest); ("GLManageCert", GLManageCert);
  ("GLKey", GLKey); ("SKDFailInfo", SKDFailInfo); ("AlgorithmIdentifier", Rfc5280.AlgorithmIdentifier);
  ("Certificate", Rfc5280.Certificate); ("GeneralName", Rfc5280.GeneralName);
  ("CertificateSet", Rfc5652.CertificateSet); ("KEKIdentifier", Rfc5652.KEKIdentifier);
  ("RecipientInfos", Rfc5652.RecipientInfos); ("SMIMECapability", Rfc5751.SMIMECapability);
  ("AttributeCertificate", Rfc5755.AttributeCertificate); ("SMIMECapabilities", Rfc5751.SMIMECapabilities)].
