(** RFC 7906, appendix A: KMKeyAttributes-2012 (IMPLICIT TAGS). *)
From Coq Require Import List String ZArith NArith.
From Verif Require Import Asn1.Types Spec.X680.
From Verif Require Spec.Rfc5652.
From Verif Require Import Spec.Rfc5280 Spec.Rfc2634 Spec.Rfc4108 Spec.Rfc6010 Spec.Rfc6019 Spec.Rfc7191.
Import ListNotations.
Open Scope string_scope.
Open Scope list_scope.

Definition KeyProvinceV2 := OBJECT_IDENTIFIER.
Definition ShortTitle := PrintableString.
Definition Manifest := size_min 1 (SEQUENCE_OF ShortTitle).
Definition KeyAlgorithm := SEQUENCE [
  req "keyAlg" OBJECT_IDENTIFIER; opt "checkWordAlg" (implicit 1 OBJECT_IDENTIFIER); opt "crcAlg" (implicit 2 OBJECT_IDENTIFIER)].
Definition KeyPkgReceiver := CHOICE [
  req "sirEntity" (implicit 0 SIREntityName); req "community" (implicit 1 CommunityIdentifier)].
Definition KeyPkgReceiversV2 := size_min 1 (SEQUENCE_OF KeyPkgReceiver).
Definition CharEdition := PrintableString.
Definition CharEditionRange := SEQUENCE [req "firstCharEdition" CharEdition; req "lastCharEdition" CharEdition].
Definition NumEdition := range 0 308915776 INTEGER.
Definition NumEditionRange := SEQUENCE [req "firstNumEdition" NumEdition; req "lastNumEdition" NumEdition].
Definition EditionID := CHOICE [
  req "char" (CHOICE [
    req "charEdition" (implicit 1 CharEdition); req "charEditionRange" (implicit 2 CharEditionRange)]);
  req "num" (CHOICE [
    req "numEdition" (implicit 3 NumEdition); req "numEditionRange" (implicit 4 NumEditionRange)])].
Definition Register := range 0 2147483647 INTEGER.
Definition RegisterRange := SEQUENCE [req "firstRegister" Register; req "lastRegister" Register].
Definition RegisterID := CHOICE [req "register" (implicit 5 Register); req "registerRange" (implicit 6 RegisterRange)].
Definition SegmentNumber := range 1 127 INTEGER.
Definition SegmentRange := SEQUENCE [req "firstSegment" SegmentNumber; req "lastSegment" SegmentNumber].
Definition SegmentID := CHOICE [
  req "segmentNumber" (implicit 7 SegmentNumber); req "segmentRange" (implicit 8 SegmentRange)].
Definition TSECNomenclature := SEQUENCE [
  req "shortTitle" ShortTitle; opt "editionID" EditionID; opt "registerID" RegisterID; opt "segmentID" SegmentID].
Definition KeyPurpose := ENUMERATED [
  ("n-a", 0); ("a", 65); ("b", 66); ("l", 76); ("m", 77); ("r", 82); ("s", 83); ("t", 84); ("v", 86); ("x", 88); ("z", 90)]%Z.
Definition KeyUse := ENUMERATED [
  ("n-a", 0); ("ffk", 1); ("kek", 2); ("kpk", 3); ("msk", 4); ("qkek", 5); ("tek", 6); ("tsk", 7); ("trkek", 8); ("nfk", 9);
  ("effk", 10); ("ebfk", 11); ("aek", 12); ("wod", 13); ("kesk", 246); ("eik", 247); ("ask", 248); ("kmk", 249);
  ("rsk", 250); ("csk", 251); ("sak", 252); ("rgk", 253); ("cek", 254); ("exk", 255)]%Z.
Definition TransOp := ENUMERATED [("transport", 1); ("operational", 2)]%Z.
Definition KeyDistPeriod := SEQUENCE [
  opt "doNotDistBefore" (implicit 0 BinaryTime); req "doNotDistAfter" BinaryTime].
Definition KeyValidityPeriod := SEQUENCE [req "doNotUseBefore" BinaryTime; opt "doNotUseAfter" BinaryTime].
Definition KeyDuration := CHOICE [
  req "hours" (implicit 0 (range 1 96 INTEGER));
  req "days" (range 1 732 INTEGER);
  req "weeks" (implicit 1 (range 1 104 INTEGER));
  req "months" (implicit 2 (range 1 72 INTEGER));
  req "years" (implicit 3 (range 1 100 INTEGER))].
Definition Classification := ESSSecurityLabel.
Definition SecurityAttribute := range_min 0 INTEGER.
Definition EnumeratedTag := SEQUENCE [req "tagName" OBJECT_IDENTIFIER; req "attributeList" (SET_OF SecurityAttribute)].
Definition FreeFormField := CHOICE [
  req "bitSetAttributes" BIT_STRING; req "securityAttributes" (SET_OF SecurityAttribute)].
Definition InformativeTag := SEQUENCE [req "tagName" OBJECT_IDENTIFIER; req "attributes" FreeFormField].
Definition SplitID := SEQUENCE [
  req "half" (ENUMERATED [("a", 0); ("b", 1)]%Z); opt "combineAlg" AlgorithmIdentifier].
Definition KeyPkgType := OBJECT_IDENTIFIER.
Definition SignatureUsage := CMSContentConstraints.
Definition PkiPath := size_min 1 (SEQUENCE_OF Certificate).
Definition ContentDecryptKeyID := OCTET_STRING.

Definition rfc7906 : list (string * sty) := [
  ("KeyProvinceV2", KeyProvinceV2); ("ShortTitle", ShortTitle); ("Manifest", Manifest);
  ("KeyAlgorithm", KeyAlgorithm); ("KeyPkgReceiver", KeyPkgReceiver); ("KeyPkgReceiversV2", KeyPkgReceiversV2);
  ("CharEdition", CharEdition); ("CharEditionRange", CharEditionRange); ("NumEdition", NumEdition);
  ("NumEditionRange", NumEditionRange); ("EditionID", EditionID); ("Register", Register);
  ("RegisterRange", RegisterRange); ("RegisterID", RegisterID); ("SegmentNumber", SegmentNumber);
  ("SegmentRange", SegmentRange); ("SegmentID", SegmentID); ("TSECNomenclature", TSECNomenclature);
  ("KeyPurpose", KeyPurpose); ("KeyUse", KeyUse); ("TransOp", TransOp); ("KeyDistPeriod", KeyDistPeriod);
  ("KeyValidityPeriod", KeyValidityPeriod); ("KeyDuration", KeyDuration); ("Classification", Classification);
  ("SecurityAttribute", SecurityAttribute); ("EnumeratedTag", EnumeratedTag); ("FreeFormField", FreeFormField);
  ("InformativeTag", InformativeTag); ("SplitID", SplitID); ("KeyPkgType", KeyPkgType);
  ("SignatureUsage", SignatureUsage); ("PkiPath", PkiPath); ("ContentDecryptKeyID", ContentDecryptKeyID);
  ("ContentHints", Rfc2634.ContentHints); ("SecurityPolicyIdentifier", Rfc2634.SecurityPolicyIdentifier);
  ("SecurityClassification", Rfc2634.SecurityClassification); ("ESSPrivacyMark", Rfc2634.ESSPrivacyMark);
  ("SecurityCategories", Rfc2634.SecurityCategories); ("ESSSecurityLabel", Rfc2634.ESSSecurityLabel);
  ("CommunityIdentifier", Rfc4108.CommunityIdentifier); ("CommunityIdentifiers", Rfc4108.CommunityIdentifiers);
  ("AlgorithmIdentifier", Rfc5280.AlgorithmIdentifier); ("Name", Rfc5280.Name); ("Certificate", Rfc5280.Certificate);
  ("GeneralNames", Rfc5280.GeneralNames); ("GeneralName", Rfc5280.GeneralName);
  ("SubjectInfoAccessSyntax", Rfc5280.SubjectInfoAccessSyntax);
  ("CMSContentConstraints", Rfc6010.CMSContentConstraints); ("BinaryTime", Rfc6019.BinaryTime);
  ("BinarySigningTime", Rfc6019.BinarySigningTime); ("Attribute", Rfc5652.Attribute);
  ("CertificateSet", Rfc5652.CertificateSet); ("CertificateChoices", Rfc5652.CertificateChoices);
  ("ContentType", Rfc5652.ContentType); ("MessageDigest", Rfc5652.MessageDigest);
  ("SIREntityName", Rfc7191.SIREntityName); ("KeyPkgIdentifierAndReceiptReq", Rfc7191.KeyPkgIdentifierAndReceiptReq)].
