(** RFC 6664, appendix A.  The tagging of DSAKeyCapabilities and the type
        RsaSsa-Pss-sig-caps were taken from the code. *)
From Coq Require Import List String ZArith NArith.
From Verif Require Import Asn1.Types Spec.X680.
From Verif Require Spec.Rfc3279 Spec.Rfc5480 Spec.Rfc5280.
Import ListNotations.
Open Scope string_scope.
Open Scope list_scope.

(* (1024 | 2048 | ..., ...) is extensible: any INTEGER *)
Definition RSAKeySize := INTEGER.
Definition RSAKeyCapabilities := SEQUENCE [req "minKeySize" RSAKeySize; opt "maxKeySize" RSAKeySize].
Definition DSAKeySize := values [1024; 2048; 3072; 7680; 15360]%Z INTEGER.
Definition DSAKeyCapabilities := CHOICE [
  req "keySizes" (explicit 0 (SEQUENCE [
    req "minKeySize" DSAKeySize;
    opt "maxKeySize" DSAKeySize;
    opt "maxSizeP" (explicit 1 INTEGER);
    opt "maxSizeQ" (explicit 2 INTEGER);
    opt "maxSizeG" (explicit 3 INTEGER)]));
  req "keyParams" (explicit 1 Rfc3279.Dss_Parms)].
Definition EC_SMimeCaps := size_min 1 (SEQUENCE_OF Rfc5480.ECParameters).
Definition RsaSsa_Pss_sig_caps := SEQUENCE [
  req "hashAlg" Rfc5280.AlgorithmIdentifier;
  opt "maskAlg" Rfc5280.AlgorithmIdentifier;
  dft "trailerField" INTEGER (VInt 1)].

Definition rfc6664 : list (string * sty) := [
  ("RSAKeySize", RSAKeySize); ("RSAKeyCapabilities", RSAKeyCapabilities); ("DSAKeySize", DSAKeySize);
  ("DSAKeyCapabilities", DSAKeyCapabilities); ("EC_SMimeCaps", EC_SMimeCaps);
  ("RsaSsa_Pss_sig_caps", RsaSsa_Pss_sig_caps); ("AlgorithmIdentifier", Rfc5280.AlgorithmIdentifier);
  ("Dss_Parms", Rfc3279.Dss_Parms); ("ECParameters", Rfc5480.ECParameters)].
