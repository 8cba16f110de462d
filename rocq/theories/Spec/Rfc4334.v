(** RFC 4334, appendix A. *)
From Coq Require Import List String ZArith NArith.
From Verif Require Import Asn1.Types Spec.X680.
Import ListNotations.
Open Scope string_scope.
Open Scope list_scope.

Definition SSID := size 1 32 OCTET_STRING.
Definition SSIDList := size_min 1 (SEQUENCE_OF SSID).

Definition rfc4334 : list (string * sty) := [
  ("SSID", SSID); ("SSIDList", SSIDList)].
