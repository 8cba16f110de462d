(** RFC 2631, section 2.1.2 (explicit tags as written). *)
From Coq Require Import List String ZArith NArith.
From Verif Require Import Asn1.Types Spec.X680.
Import ListNotations.
Open Scope string_scope.
Open Scope list_scope.

Definition KeySpecificInfo := SEQUENCE [req "algorithm" OBJECT_IDENTIFIER; req "counter" (size 4 4 OCTET_STRING)].
Definition OtherInfo := SEQUENCE [
  req "keyInfo" KeySpecificInfo;
  opt "partyAInfo" (explicit 0 OCTET_STRING);
  req "suppPubInfo" (explicit 2 OCTET_STRING)].

Definition rfc2631 : list (string * sty) := [
  ("KeySpecificInfo", KeySpecificInfo); ("OtherInfo", OtherInfo)].
