(** RFC 5084, appendix: CMS-AES-CCM-and-AES-GCM (IMPLICIT TAGS). *)
From Coq Require Import List String ZArith NArith.
From Verif Require Import Asn1.Types Spec.X680.
Import ListNotations.
Open Scope string_scope.
Open Scope list_scope.

Definition AES_CCM_ICVlen := values [4; 6; 8; 10; 12; 14; 16]%Z INTEGER.
(** (12 | 13 | 14 | 15 | 16) *)
Definition AES_GCM_ICVlen := range 12 16 INTEGER.
Definition CCMParameters := SEQUENCE [
  req "aes-nonce" (size 7 13 OCTET_STRING); dft "aes-ICVlen" AES_CCM_ICVlen (VInt 12)].
Definition GCMParameters := SEQUENCE [
  req "aes-nonce" OCTET_STRING; dft "aes-ICVlen" AES_GCM_ICVlen (VInt 12)].

Definition rfc5084 : list (string * sty) := [
  ("AES_CCM_ICVlen", AES_CCM_ICVlen); ("AES_GCM_ICVlen", AES_GCM_ICVlen); ("CCMParameters", CCMParameters);
  ("GCMParameters", GCMParameters)].
