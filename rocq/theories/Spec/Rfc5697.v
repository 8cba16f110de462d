(** RFC 5697, section 2. *)
From Coq Require Import List String ZArith NArith.
From Verif Require Import Asn1.Types Spec.X680.
From Verif Require Import Spec.Rfc5280.
Import ListNotations.
Open Scope string_scope.
Open Scope list_scope.

Definition SCVPIssuerSerial := SEQUENCE [req "issuer" GeneralNames; req "serialNumber" CertificateSerialNumber].
Definition SCVPCertID := SEQUENCE [
  req "certHash" OCTET_STRING;
  req "issuerSerial" SCVPIssuerSerial;
  dft "hashAlgorithm" AlgorithmIdentifier (VSeq [Some (VOid [1; 3; 14; 3; 2; 26]%N); None])].
Definition OtherCertificates := SEQUENCE_OF SCVPCertID.

Definition rfc5697 : list (string * sty) := [
  ("SCVPIssuerSerial", SCVPIssuerSerial); ("SCVPCertID", SCVPCertID); ("OtherCertificates", OtherCertificates);
  ("AlgorithmIdentifier", Rfc5280.AlgorithmIdentifier); ("CertificateSerialNumber", Rfc5280.CertificateSerialNumber);
  ("GeneralNames", Rfc5280.GeneralNames)].
