(** RFC 6486, appendix A: RPKIManifest (EXPLICIT TAGS). *)
From Coq Require Import List String ZArith NArith.
From Verif Require Import Asn1.Types Spec.X680.
Import ListNotations.
Open Scope string_scope.
Open Scope list_scope.

Definition FileAndHash := SEQUENCE [req "file" IA5String; req "hash" BIT_STRING].
Definition Manifest := SEQUENCE [
  dft "version" (explicit 0 INTEGER) (VInt 0);
  req "manifestNumber" (range_min 0 INTEGER);
  req "thisUpdate" GeneralizedTime;
  req "nextUpdate" GeneralizedTime;
  req "fileHashAlg" OBJECT_IDENTIFIER;
  req "fileList" (size_min 0 (SEQUENCE_OF FileAndHash))].

Definition rfc6486 : list (string * sty) := [
  ("FileAndHash", FileAndHash); ("Manifest", Manifest)].
