(** RFC 4357, section 10.  Written with the code at hand. *)
From Coq Require Import List String ZArith NArith.
From Verif Require Import Asn1.Types Spec.X680.
From Verif Require Import Spec.Rfc5280.
Import ListNotations.
Open Scope string_scope.
Open Scope list_scope.

Local Notation crypto l := ([1; 2; 643; 2; 2] ++ l)%N (only parsing).
Definition Gost28147_89_ParamSet := oids (map (fun n => crypto [31; n]) [0; 1; 2; 3; 4; 5; 6; 7]%N) OBJECT_IDENTIFIER.
Definition Gost28147_89_BlobParameters := SEQUENCE [req "encryptionParamSet" Gost28147_89_ParamSet].
Definition Gost28147_89_MAC := size 1 4 OCTET_STRING.
Definition Gost28147_89_Key := size 32 32 OCTET_STRING.
Definition Gost28147_89_EncryptedKey := SEQUENCE [
  req "encryptedKey" Gost28147_89_Key; opt "maskKey" (implicit 0 Gost28147_89_Key); req "macKey" Gost28147_89_MAC].
Definition Gost28147_89_IV := size 8 8 OCTET_STRING.
Definition Gost28147_89_UZ := size 64 64 OCTET_STRING.
Definition Gost28147_89_ParamSetParameters := SEQUENCE [
  req "eUZ" Gost28147_89_UZ;
  req "mode" (INTEGER_OF [("gost28147-89-CNT", 0); ("gost28147-89-CFB", 1); ("cryptoPro-CBC", 2)]%Z);
  req "shiftBits" (INTEGER_OF [("gost28147-89-block", 64)]%Z);
  req "keyMeshing" AlgorithmIdentifier].
Definition Gost28147_89_Parameters := SEQUENCE [
  req "iv" Gost28147_89_IV; req "encryptionParamSet" Gost28147_89_ParamSet].
Definition GostR3410_2001_CertificateSignature := size 256 512 BIT_STRING.
Definition GostR3410_2001_ParamSetParameters := SEQUENCE [
  req "a" INTEGER; req "b" INTEGER; req "p" INTEGER; req "q" INTEGER; req "x" INTEGER; req "y" INTEGER].
Definition GostR3410_2001_PublicKey := size 64 64 OCTET_STRING.
Definition GostR3411_94_DigestParameters := oids [crypto [30; 0]; crypto [30; 1]] OBJECT_IDENTIFIER.
Definition GostR3410_2001_PublicKeyParameters := SEQUENCE [
  req "publicKeyParamSet" (oids [
    crypto [35; 0]; crypto [35; 1]; crypto [35; 2]; crypto [35; 3]; crypto [36; 0]; crypto [36; 1]] OBJECT_IDENTIFIER);
  req "digestParamSet" GostR3411_94_DigestParameters;
  dft "encryptionParamSet" Gost28147_89_ParamSet (VOid (crypto [31; 1]))].
Definition GostR3410_94_CertificateSignature := size 256 512 BIT_STRING.
Definition GostR3410_94_ParamSetParameters_t := values [512; 1024]%Z INTEGER.
Definition GostR3410_94_ParamSetParameters := SEQUENCE [
  req "t" GostR3410_94_ParamSetParameters_t;
  req "p" INTEGER;
  req "q" INTEGER;
  req "a" INTEGER;
  opt "validationAlgorithm" AlgorithmIdentifier].
Definition GostR3410_94_PublicKey := sizes [64; 128]%N OCTET_STRING.
Definition GostR3410_94_PublicKeyParameters := SEQUENCE [
  req "publicKeyParamSet" (oids [
    crypto [32; 0]; crypto [32; 2]; crypto [32; 3]; crypto [32; 4]; crypto [32; 5];
    crypto [33; 1]; crypto [33; 2]; crypto [33; 3]] OBJECT_IDENTIFIER);
  req "digestParamSet" GostR3411_94_DigestParameters;
  dft "encryptionParamSet" Gost28147_89_ParamSet (VOid (crypto [31; 1]))].
Definition GostR3410_94_ValidationBisParameters_c := range 0 4294967295 INTEGER.
Definition GostR3410_94_ValidationBisParameters := SEQUENCE [
  req "x0" GostR3410_94_ValidationBisParameters_c;
  req "c" GostR3410_94_ValidationBisParameters_c;
  opt "d" INTEGER].
Definition GostR3410_94_ValidationParameters_c := range 0 65535 INTEGER.
Definition GostR3410_94_ValidationParameters := SEQUENCE [
  req "x0" GostR3410_94_ValidationParameters_c; req "c" GostR3410_94_ValidationParameters_c; opt "d" INTEGER].
Definition GostR3411_94_Digest := size 32 32 OCTET_STRING.
Definition GostR3411_94_ParamSetParameters := SEQUENCE [req "hUZ" Gost28147_89_UZ; req "h0" GostR3411_94_Digest].

Definition rfc4357 : list (string * sty) := [
  ("Gost28147_89_ParamSet", Gost28147_89_ParamSet); ("Gost28147_89_BlobParameters", Gost28147_89_BlobParameters);
  ("Gost28147_89_MAC", Gost28147_89_MAC); ("Gost28147_89_Key", Gost28147_89_Key);
  ("Gost28147_89_EncryptedKey", Gost28147_89_EncryptedKey); ("Gost28147_89_IV", Gost28147_89_IV);
  ("Gost28147_89_UZ", Gost28147_89_UZ); ("Gost28147_89_ParamSetParameters", Gost28147_89_ParamSetParameters);
  ("Gost28147_89_Parameters", Gost28147_89_Parameters);
  ("GostR3410_2001_CertificateSignature", GostR3410_2001_CertificateSignature);
  ("GostR3410_2001_ParamSetParameters", GostR3410_2001_ParamSetParameters);
  ("GostR3410_2001_PublicKey", GostR3410_2001_PublicKey);
  ("GostR3411_94_DigestParameters", GostR3411_94_DigestParameters);
  ("GostR3410_2001_PublicKeyParameters", GostR3410_2001_PublicKeyParameters);
  ("GostR3410_94_CertificateSignature", GostR3410_94_CertificateSignature);
  ("GostR3410_94_ParamSetParameters_t", GostR3410_94_ParamSetParameters_t);
  ("GostR3410_94_ParamSetParameters", GostR3410_94_ParamSetParameters);
  ("GostR3410_94_PublicKey", GostR3410_94_PublicKey);
  ("GostR3410_94_PublicKeyParameters", GostR3410_94_PublicKeyParameters);
  ("GostR3410_94_ValidationBisParameters_c", GostR3410_94_ValidationBisParameters_c);
  ("GostR3410_94_ValidationBisParameters", GostR3410_94_ValidationBisParameters);
  ("GostR3410_94_ValidationParameters_c", GostR3410_94_ValidationParameters_c);
  ("GostR3410_94_ValidationParameters", GostR3410_94_ValidationParameters);
  ("GostR3411_94_Digest", GostR3411_94_Digest); ("GostR3411_94_ParamSetParameters", GostR3411_94_ParamSetParameters);
  ("AlgorithmIdentifier", Rfc5280.AlgorithmIdentifier)].
