(** RFC 6210, section 3. *)
From Coq Require Import List String ZArith NArith.
From Verif Require Import Asn1.Types Spec.X680.
Import ListNotations.
Open Scope string_scope.
Open Scope list_scope.

Definition MD5_XOR_EXPERIMENT := size 64 64 OCTET_STRING.

Definition rfc6210 : list (string * sty) := [
  ("MD5_XOR_EXPERIMENT", MD5_XOR_EXPERIMENT)].
