(** RFC 3370, appendix: CryptographicMessageSyntaxAlgorithms (IMPLICIT TAGS). *)
From Coq Require Import List String ZArith NArith.
From Verif Require Import Asn1.Types Spec.X680.
From Verif Require Spec.Rfc3279 Spec.Rfc8018 Spec.Rfc5753.
From Verif Require Import Spec.Rfc5280.
Import ListNotations.
Open Scope string_scope.
Open Scope list_scope.

Definition Dss_Pub_Key := INTEGER.
Definition RC2ParameterVersion := INTEGER.
Definition RC2wrapParameter := RC2ParameterVersion.
Definition RC2CBCParameter := SEQUENCE [req "rc2ParameterVersion" INTEGER; req "iv" OCTET_STRING].
Definition DHDomainParameters := SEQUENCE [
  req "p" INTEGER; req "g" INTEGER; req "q" INTEGER; opt "j" INTEGER; opt "validationParms" Rfc3279.ValidationParms].

Definition rfc3370 : list (string * sty) := [
  ("Dss_Pub_Key", Dss_Pub_Key); ("RC2ParameterVersion", RC2ParameterVersion); ("RC2wrapParameter", RC2wrapParameter);
  ("RC2CBCParameter", RC2CBCParameter); ("DHDomainParameters", DHDomainParameters);
  ("AlgorithmIdentifier", Rfc5280.AlgorithmIdentifier); ("DHPublicKey", Rfc3279.DHPublicKey);
  ("DomainParameters", Rfc3279.DomainParameters); ("Dss_Parms", Rfc3279.Dss_Parms);
  ("Dss_Sig_Value", Rfc3279.Dss_Sig_Value); ("RSAPublicKey", Rfc3279.RSAPublicKey);
  ("ValidationParms", Rfc3279.ValidationParms); ("CBCParameter", Rfc5753.CBCParameter);
  ("KeyWrapAlgorithm", Rfc5753.KeyWrapAlgorithm); ("RC2_CBC_Parameter", Rfc8018.RC2_CBC_Parameter);
  ("PBKDF2_params", Rfc8018.PBKDF2_params)].
