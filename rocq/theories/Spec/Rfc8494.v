(** RFC 8494, section 4.3: compressed data.  The definitions are in no module: X.680 then tags explicitly. *)
From Coq Require Import List String ZArith NArith.
From Verif Require Import Asn1.Types Spec.X680.
Import ListNotations.
Open Scope string_scope.
Open Scope list_scope.

Definition AlgorithmID_ShortForm := INTEGER_OF [("zlibCompress", 0)]%Z.
Definition ContentType_ShortForm := INTEGER_OF [
  ("unidentified", 0); ("external", 1); ("p1", 2); ("p3", 3); ("p7", 4); ("mule", 25)]%Z.
Definition CompressionAlgorithmIdentifier := CHOICE [
  req "algorithmID-ShortForm" (explicit 0 AlgorithmID_ShortForm); req "algorithmID-OID" (explicit 1 OBJECT_IDENTIFIER)].
(* the first component has no name in the RFC *)
Definition CompressedContentInfo := SEQUENCE [
  req "unnamed" (CHOICE [
    req "contentType-ShortForm" (explicit 0 ContentType_ShortForm); req "contentType-OID" (explicit 1 OBJECT_IDENTIFIER)]);
  req "compressedContent" (explicit 0 OCTET_STRING)].
Definition CompressedData := SEQUENCE [
  req "compressionAlgorithm" CompressionAlgorithmIdentifier; req "compressedContentInfo" CompressedContentInfo].

Definition rfc8494 : list (string * sty) := [
  ("AlgorithmID_ShortForm", AlgorithmID_ShortForm); ("ContentType_ShortForm", ContentType_ShortForm);
  ("CompressionAlgorithmIdentifier", CompressionAlgorithmIdentifier);
  ("CompressedContentInfo", CompressedContentInfo); ("CompressedData", CompressedData)].
