(** RFC 3279, section 3: PKIX1Algorithms88 (EXPLICIT TAGS). *)
From Coq Require Import List String ZArith NArith.
From Verif Require Import Asn1.Types Spec.X680.
Import ListNotations.
Open Scope string_scope.
Open Scope list_scope.

Definition DSAPublicKey := INTEGER.
Definition Dss_Parms := SEQUENCE [req "p" INTEGER; req "q" INTEGER; req "g" INTEGER].
Definition Dss_Sig_Value := SEQUENCE [req "r" INTEGER; req "s" INTEGER].
Definition RSAPublicKey := SEQUENCE [req "modulus" INTEGER; req "publicExponent" INTEGER].
Definition DHPublicKey := INTEGER.
Definition ValidationParms := SEQUENCE [req "seed" BIT_STRING; req "pgenCounter" INTEGER].
Definition DomainParameters := SEQUENCE [
  req "p" INTEGER; req "g" INTEGER; req "q" INTEGER; opt "j" INTEGER; opt "validationParms" ValidationParms].
Definition KEA_Parms_Id := OCTET_STRING.
Definition FieldID := SEQUENCE [req "fieldType" OBJECT_IDENTIFIER; req "parameters" ANY].
Definition ECDSA_Sig_Value := SEQUENCE [req "r" INTEGER; req "s" INTEGER].
Definition Prime_p := INTEGER.
Definition Characteristic_two := SEQUENCE [req "m" INTEGER; req "basis" OBJECT_IDENTIFIER; req "parameters" ANY].
Definition Trinomial := INTEGER.
Definition Pentanomial := SEQUENCE [req "k1" INTEGER; req "k2" INTEGER; req "k3" INTEGER].
Definition FieldElement := OCTET_STRING.
Definition ECPoint := OCTET_STRING.
Definition Curve := SEQUENCE [req "a" FieldElement; req "b" FieldElement; opt "seed" BIT_STRING].
Definition ECPVer := INTEGER_OF [("ecpVer1", 1)]%Z.
Definition ECParameters := SEQUENCE [
  req "version" ECPVer;
  req "fieldID" FieldID;
  req "curve" Curve;
  req "base" ECPoint;
  req "order" INTEGER;
  opt "cofactor" INTEGER].
Definition EcpkParameters := CHOICE [
  req "ecParameters" ECParameters; req "namedCurve" OBJECT_IDENTIFIER; req "implicitlyCA" NULL].

Definition rfc3279 : list (string * sty) := [
  ("DSAPublicKey", DSAPublicKey); ("Dss_Parms", Dss_Parms); ("Dss_Sig_Value", Dss_Sig_Value);
  ("RSAPublicKey", RSAPublicKey); ("DHPublicKey", DHPublicKey); ("ValidationParms", ValidationParms);
  ("DomainParameters", DomainParameters); ("KEA_Parms_Id", KEA_Parms_Id); ("FieldID", FieldID);
  ("ECDSA_Sig_Value", ECDSA_Sig_Value); ("Prime_p", Prime_p); ("Characteristic_two", Characteristic_two);
  ("Trinomial", Trinomial); ("Pentanomial", Pentanomial); ("FieldElement", FieldElement); ("ECPoint", ECPoint);
  ("Curve", Curve); ("ECPVer", ECPVer); ("ECParameters", ECParameters); ("EcpkParameters", EcpkParameters)].
