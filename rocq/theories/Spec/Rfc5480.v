(** RFC 5480, appendix: PKIX1Algorithms2008 (EXPLICIT TAGS). *)
From Coq Require Import List String ZArith NArith.
From Verif Require Import Asn1.Types Spec.X680.
From Verif Require Spec.Rfc3279.
Import ListNotations.
Open Scope string_scope.
Open Scope list_scope.

Definition ECParameters := CHOICE [req "namedCurve" OBJECT_IDENTIFIER].

Definition rfc5480 : list (string * sty) := [
  ("ECParameters", ECParameters); ("DHPublicKey", Rfc3279.DHPublicKey); ("DSAPublicKey", Rfc3279.DSAPublicKey);
  ("ValidationParms", Rfc3279.ValidationParms); ("DomainParameters", Rfc3279.DomainParameters);
  ("ECDSA_Sig_Value", Rfc3279.ECDSA_Sig_Value); ("ECPoint", Rfc3279.ECPoint); ("KEA_Parms_Id", Rfc3279.KEA_Parms_Id);
  ("RSAPublicKey", Rfc3279.RSAPublicKey); ("DSS_Parms", Rfc3279.Dss_Parms); ("DSA_Sig_Value", Rfc3279.Dss_Sig_Value)].
