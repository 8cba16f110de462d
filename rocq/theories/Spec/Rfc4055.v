(** RFC 4055, section 6: PKIX1-PSS-OAEP-Algorithms (EXPLICIT TAGS). *)
From Coq Require Import List String ZArith NArith.
From Verif Require Import Asn1.Types Spec.X680.
From Verif Require Import Spec.Rfc5280.
Import ListNotations.
Open Scope string_scope.
Open Scope list_scope.

Definition sha1Identifier : aval := VSeq [Some (VOid [1; 3; 14; 3; 2; 26]%N); Some (VOcts [5; 0]%N)].
Definition mgf1SHA1Identifier : aval := VSeq [
  Some (VOid [1; 2; 840; 113549; 1; 1; 8]%N);
  Some (VOcts [48; 9; 6; 5; 43; 14; 3; 2; 26; 5; 0]%N)].
Definition pSpecifiedEmptyIdentifier : aval := VSeq [
  Some (VOid [1; 2; 840; 113549; 1; 1; 9]%N); Some (VOcts [4; 0]%N)].
Definition RSAPublicKey := SEQUENCE [req "modulus" INTEGER; req "publicExponent" INTEGER].
Definition HashAlgorithm := AlgorithmIdentifier.
Definition MaskGenAlgorithm := AlgorithmIdentifier.
Definition RSASSA_PSS_params := SEQUENCE [
  dft "hashAlgorithm" (explicit 0 HashAlgorithm) sha1Identifier;
  dft "maskGenAlgorithm" (explicit 1 MaskGenAlgorithm) mgf1SHA1Identifier;
  dft "saltLength" (explicit 2 INTEGER) (VInt 20);
  dft "trailerField" (explicit 3 INTEGER) (VInt 1)].
Definition RSAES_OAEP_params := SEQUENCE [
  dft "hashFunc" (explicit 0 AlgorithmIdentifier) sha1Identifier;
  dft "maskGenFunc" (explicit 1 AlgorithmIdentifier) mgf1SHA1Identifier;
  dft "pSourceFunc" (explicit 2 AlgorithmIdentifier) pSpecifiedEmptyIdentifier].

Definition rfc4055 : list (string * sty) := [
  ("RSAPublicKey", RSAPublicKey); ("HashAlgorithm", HashAlgorithm); ("MaskGenAlgorithm", MaskGenAlgorithm);
  ("RSASSA_PSS_params", RSASSA_PSS_params); ("RSAES_OAEP_params", RSAES_OAEP_params)].
