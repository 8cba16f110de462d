(** RFC 8018, appendix C: PKCS5 (IMPLICIT TAGS). *)
From Coq Require Import List String ZArith NArith.
From Verif Require Import Asn1.Types Spec.X680.
From Verif Require Import Spec.Rfc5280.
Import ListNotations.
Open Scope string_scope.
Open Scope list_scope.

(** {algorithm id-hmacWithSHA1, parameters NULL} *)
Definition hmacWithSHA1 : aval := VSeq [Some (VOid [1; 2; 840; 113549; 2; 7]%N); Some (VOcts [5; 0]%N)].
Definition PBKDF2_params := SEQUENCE [
  req "salt" (CHOICE [req "specified" OCTET_STRING; req "otherSource" AlgorithmIdentifier]);
  req "iterationCount" (range_min 1 INTEGER);
  opt "keyLength" (range_min 1 INTEGER);
  dft "prf" AlgorithmIdentifier hmacWithSHA1].
Definition PBEParameter := SEQUENCE [req "salt" (size 8 8 OCTET_STRING); req "iterationCount" INTEGER].
Definition PBES2_params := SEQUENCE [req "keyDerivationFunc" AlgorithmIdentifier; req "encryptionScheme" AlgorithmIdentifier].
Definition PBMAC1_params := SEQUENCE [req "keyDerivationFunc" AlgorithmIdentifier; req "messageAuthScheme" AlgorithmIdentifier].
Definition DES_IV := size 8 8 OCTET_STRING.
Definition AES_IV := size 16 16 OCTET_STRING.
Definition RC2_CBC_Parameter := SEQUENCE [opt "rc2ParameterVersion" INTEGER; req "iv" (size 8 8 OCTET_STRING)].
Definition RC5_CBC_Parameters := SEQUENCE [
  req "version" (values [16]%Z (INTEGER_OF [("v1-0", 16)]%Z));
  req "rounds" (range 8 127 INTEGER);
  req "blockSizeInBits" (values [64; 128]%Z INTEGER);
  opt "iv" OCTET_STRING].

Definition rfc8018 : list (string * sty) := [
  ("PBKDF2_params", PBKDF2_params); ("PBEParameter", PBEParameter); ("PBES2_params", PBES2_params);
  ("PBMAC1_params", PBMAC1_params); ("DES_IV", DES_IV); ("AES_IV", AES_IV); ("RC2_CBC_Parameter", RC2_CBC_Parameter);
  ("RC5_CBC_Parameters", RC5_CBC_Parameters); ("AlgorithmIdentifier", Rfc5280.AlgorithmIdentifier)].
