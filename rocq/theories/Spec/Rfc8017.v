(** RFC 8017, appendix C: PKCS-1 (EXPLICIT TAGS).  The modules of RFC 3447 are the same, but
    name fewer types.  RFC 2437 has no multi-prime keys. *)
From Coq Require Import List String ZArith NArith.
From Verif Require Import Asn1.Types Spec.X680.
From Verif Require Import Spec.Rfc5280.
Import ListNotations.
Open Scope string_scope.
Open Scope list_scope.

Definition Version := INTEGER_OF [("two-prime", 0); ("multi", 1)]%Z.
Definition RSAPublicKey := SEQUENCE [req "modulus" INTEGER; req "publicExponent" INTEGER].
Definition OtherPrimeInfo := SEQUENCE [req "prime" INTEGER; req "exponent" INTEGER; req "coefficient" INTEGER].
Definition OtherPrimeInfos := size_min 1 (SEQUENCE_OF OtherPrimeInfo).
Definition RSAPrivateKey := SEQUENCE [
  req "version" Version; req "modulus" INTEGER; req "publicExponent" INTEGER; req "privateExponent" INTEGER;
  req "prime1" INTEGER; req "prime2" INTEGER; req "exponent1" INTEGER; req "exponent2" INTEGER; req "coefficient" INTEGER;
  opt "otherPrimeInfos" OtherPrimeInfos].
Definition DigestAlgorithm := AlgorithmIdentifier.
Definition HashAlgorithm := AlgorithmIdentifier.
Definition MaskGenAlgorithm := AlgorithmIdentifier.
Definition PSourceAlgorithm := AlgorithmIdentifier.
Definition DigestInfo := SEQUENCE [req "digestAlgorithm" DigestAlgorithm; req "digest" OCTET_STRING].
Definition EncodingParameters := size_min 0 OCTET_STRING.
(** id-sha1 with NULL; id-mgf1 with sha1; id-pSpecified with the empty OCTET STRING. *)
Definition sha1 : aval := VSeq [Some (VOid [1; 3; 14; 3; 2; 26]%N); Some (VOcts [5; 0]%N)].
Definition mgf1SHA1 : aval := VSeq [
  Some (VOid [1; 2; 840; 113549; 1; 1; 8]%N);
  Some (VOcts [48; 9; 6; 5; 43; 14; 3; 2; 26; 5; 0]%N)].
Definition pSpecifiedEmpty : aval := VSeq [Some (VOid [1; 2; 840; 113549; 1; 1; 9]%N); Some (VOcts [4; 0]%N)].
Definition RSAES_OAEP_params := SEQUENCE [
  dft "hashAlgorithm" (explicit 0 HashAlgorithm) sha1;
  dft "maskGenAlgorithm" (explicit 1 MaskGenAlgorithm) mgf1SHA1;
  dft "pSourceAlgorithm" (explicit 2 PSourceAlgorithm) pSpecifiedEmpty].
Definition TrailerField := INTEGER_OF [("trailerFieldBC", 1)]%Z.
Definition RSASSA_PSS_params := SEQUENCE [
  dft "hashAlgorithm" (explicit 0 HashAlgorithm) sha1;
  dft "maskGenAlgorithm" (explicit 1 MaskGenAlgorithm) mgf1SHA1;
  dft "saltLength" (explicit 2 INTEGER) (VInt 20);
  dft "trailerField" (explicit 3 TrailerField) (VInt 1)].

Definition rfc8017 : list (string * sty) := [
  ("Version", Version); ("RSAPublicKey", RSAPublicKey); ("OtherPrimeInfo", OtherPrimeInfo);
  ("OtherPrimeInfos", OtherPrimeInfos); ("RSAPrivateKey", RSAPrivateKey); ("DigestAlgorithm", DigestAlgorithm);
  ("HashAlgorithm", HashAlgorithm); ("MaskGenAlgorithm", MaskGenAlgorithm); ("PSourceAlgorithm", PSourceAlgorithm);
  ("DigestInfo", DigestInfo); ("EncodingParameters", EncodingParameters); ("RSAES_OAEP_params", RSAES_OAEP_params);
  ("TrailerField", TrailerField); ("RSASSA_PSS_params", RSASSA_PSS_params);
  ("AlgorithmIdentifier", AlgorithmIdentifier)].

Definition rfc3447 : list (string * sty) := [
  ("Version", Version); ("RSAPublicKey", RSAPublicKey); ("OtherPrimeInfo", OtherPrimeInfo);
  ("OtherPrimeInfos", OtherPrimeInfos); ("RSAPrivateKey", RSAPrivateKey); ("RSAES_OAEP_params", RSAES_OAEP_params);
  ("AlgorithmIdentifier", AlgorithmIdentifier)].

(** RFC 2437 *)
Definition Version15 := INTEGER.
Definition RSAPrivateKey15 := SEQUENCE [
  req "version" Version15; req "modulus" INTEGER; req "publicExponent" INTEGER; req "privateExponent" INTEGER;
  req "prime1" INTEGER; req "prime2" INTEGER; req "exponent1" INTEGER; req "exponent2" INTEGER; req "coefficient" INTEGER].
Definition RSAES_OAEP_params15 := SEQUENCE [
  dft "hashFunc" (explicit 0 AlgorithmIdentifier) sha1;
  dft "maskGenFunc" (explicit 1 AlgorithmIdentifier) mgf1SHA1;
  dft "pSourceFunc" (explicit 2 AlgorithmIdentifier) pSpecifiedEmpty].
Definition rfc2437 : list (string * sty) := [
  ("Version", Version15); ("RSAPublicKey", RSAPublicKey); ("RSAPrivateKey", RSAPrivateKey15);
  ("RSAES_OAEP_params", RSAES_OAEP_params15); ("AlgorithmIdentifier", AlgorithmIdentifier)].
