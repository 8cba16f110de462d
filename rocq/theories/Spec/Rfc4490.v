(** RFC 4490, appendix A.  Written with the code at hand. *)
From Coq Require Import List String ZArith NArith.
From Verif Require Import Asn1.Types Spec.X680.
From Verif Require Spec.Rfc4357 Spec.Rfc5280.
Import ListNotations.
Open Scope string_scope.
Open Scope list_scope.

Definition Gost28147_89_KeyWrapParameters := SEQUENCE [
  req "encryptionParamSet" Rfc4357.Gost28147_89_ParamSet; opt "ukm" (size 8 8 OCTET_STRING)].
Definition GostR3410_TransportParameters := SEQUENCE [
  req "encryptionParamSet" Rfc4357.Gost28147_89_ParamSet;
  opt "ephemeralPublicKey" (implicit 0 Rfc5280.SubjectPublicKeyInfo);
  req "ukm" (size 8 8 OCTET_STRING)].
Definition GostR3410_KeyTransport := SEQUENCE [
  req "sessionEncryptedKey" Rfc4357.Gost28147_89_EncryptedKey;
  opt "transportParameters" (implicit 0 GostR3410_TransportParameters)].
Definition GostR3410_94_Signature := size 64 64 OCTET_STRING.
Definition GostR3410_2001_Signature := size 64 64 OCTET_STRING.

Definition rfc4490 : list (string * sty) := [
  ("Gost28147_89_KeyWrapParameters", Gost28147_89_KeyWrapParameters);
  ("GostR3410_TransportParameters", GostR3410_TransportParameters);
  ("GostR3410_KeyTransport", GostR3410_KeyTransport); ("GostR3410_94_Signature", GostR3410_94_Signature);
  ("GostR3410_2001_Signature", GostR3410_2001_Signature); ("Gost28147_89_ParamSet", Rfc4357.Gost28147_89_ParamSet);
  ("Gost28147_89_EncryptedKey", Rfc4357.Gost28147_89_EncryptedKey);
  ("GostR3410_94_PublicKeyParameters", Rfc4357.GostR3410_94_PublicKeyParameters);
  ("GostR3410_2001_PublicKeyParameters", Rfc4357.GostR3410_2001_PublicKeyParameters);
  ("SubjectPublicKeyInfo", Rfc5280.SubjectPublicKeyInfo)].
