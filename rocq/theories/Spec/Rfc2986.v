(** RFC 2986, appendix A: PKCS-10 (IMPLICIT TAGS). *)
From Coq Require Import List String ZArith NArith.
From Verif Require Import Asn1.Types Spec.X680.
From Verif Require Import Spec.Rfc5280.
Import ListNotations.
Open Scope string_scope.
Open Scope list_scope.

Definition Attributes := SET_OF Attribute.
Definition CertificationRequestInfo := SEQUENCE [
  req "version" (INTEGER_OF [("v1", 0)]%Z);
  req "subject" Name;
  req "subjectPKInfo" SubjectPublicKeyInfo;
  req "attributes" (implicit 0 Attributes)].
Definition CertificationRequest := SEQUENCE [
  req "certificationRequestInfo" CertificationRequestInfo;
  req "signatureAlgorithm" AlgorithmIdentifier;
  req "signature" BIT_STRING].

Definition rfc2986 : list (string * sty) := [
  ("Attributes", Attributes); ("CertificationRequestInfo", CertificationRequestInfo);
  ("CertificationRequest", CertificationRequest); ("AlgorithmIdentifier", Rfc5280.AlgorithmIdentifier);
  ("AttributeType", Rfc5280.AttributeType); ("AttributeTypeAndValue", Rfc5280.AttributeTypeAndValue);
  ("AttributeValue", Rfc5280.AttributeValue); ("Name", Rfc5280.Name); ("RDNSequence", Rfc5280.RDNSequence);
  ("RelativeDistinguishedName", Rfc5280.RelativeDistinguishedName);
  ("SubjectPublicKeyInfo", Rfc5280.SubjectPublicKeyInfo); ("Attribute", Rfc5280.Attribute)].
