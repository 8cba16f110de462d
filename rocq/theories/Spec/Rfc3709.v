(** RFC 3709, appendix A.1: LogotypeCertExtn (IMPLICIT TAGS). *)
From Coq Require Import List String ZArith NArith.
From Verif Require Import Asn1.Types Spec.X680.
From Verif Require Import Spec.Rfc5280.
Import ListNotations.
Open Scope string_scope.
Open Scope list_scope.

Definition HashAlgAndValue := SEQUENCE [req "hashAlg" AlgorithmIdentifier; req "hashValue" OCTET_STRING].
Definition LogotypeDetails := SEQUENCE [
  req "mediaType" IA5String;
  req "logotypeHash" (size_min 1 (SEQUENCE_OF HashAlgAndValue));
  req "logotypeURI" (size_min 1 (SEQUENCE_OF IA5String))].
Definition LogotypeAudioInfo := SEQUENCE [
  req "fileSize" INTEGER;
  req "playTime" INTEGER;
  req "channels" INTEGER;
  opt "sampleRate" (implicit 3 INTEGER);
  opt "language" (implicit 4 IA5String)].
Definition LogotypeAudio := SEQUENCE [req "audioDetails" LogotypeDetails; opt "audioInfo" LogotypeAudioInfo].
Definition LogotypeImageType := INTEGER_OF [("grayScale", 0); ("color", 1)]%Z.
Definition LogotypeImageResolution := CHOICE [req "numBits" (implicit 1 INTEGER); req "tableSize" (implicit 2 INTEGER)].
Definition LogotypeImageInfo := SEQUENCE [
  dft "type" (implicit 0 LogotypeImageType) (VInt 1);
  req "fileSize" INTEGER;
  req "xSize" INTEGER;
  req "ySize" INTEGER;
  opt "resolution" LogotypeImageResolution;
  opt "language" (implicit 4 IA5String)].
Definition LogotypeImage := SEQUENCE [req "imageDetails" LogotypeDetails; opt "imageInfo" LogotypeImageInfo].
Definition LogotypeData := SEQUENCE [
  opt "image" (SEQUENCE_OF LogotypeImage); opt "audio" (implicit 1 (SEQUENCE_OF LogotypeAudio))].
Definition LogotypeReference := SEQUENCE [
  req "refStructHash" (size_min 1 (SEQUENCE_OF HashAlgAndValue));
  req "refStructURI" (size_min 1 (SEQUENCE_OF IA5String))].
Definition LogotypeInfo := CHOICE [req "direct" (implicit 0 LogotypeData); req "indirect" (implicit 1 LogotypeReference)].
Definition OtherLogotypeInfo := SEQUENCE [req "logotypeType" OBJECT_IDENTIFIER; req "info" LogotypeInfo].
Definition LogotypeExtn := SEQUENCE [
  opt "communityLogos" (explicit 0 (SEQUENCE_OF LogotypeInfo));
  opt "issuerLogo" (explicit 1 LogotypeInfo);
  opt "subjectLogo" (explicit 2 LogotypeInfo);
  opt "otherLogos" (explicit 3 (SEQUENCE_OF OtherLogotypeInfo))].

Definition rfc3709 : list (string * sty) := [
  ("HashAlgAndValue", HashAlgAndValue); ("LogotypeDetails", LogotypeDetails);
  ("LogotypeAudioInfo", LogotypeAudioInfo); ("LogotypeAudio", LogotypeAudio);
  ("LogotypeImageType", LogotypeImageType); ("LogotypeImageResolution", LogotypeImageResolution);
  ("LogotypeImageInfo", LogotypeImageInfo); ("LogotypeImage", LogotypeImage); ("LogotypeData", LogotypeData);
  ("LogotypeReference", LogotypeReference); ("LogotypeInfo", LogotypeInfo); ("OtherLogotypeInfo", OtherLogotypeInfo);
  ("LogotypeExtn", LogotypeExtn)].
