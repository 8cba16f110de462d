(** RFC 4010, appendix A. *)
From Coq Require Import List String ZArith NArith.
From Verif Require Import Asn1.Types Spec.X680.
Import ListNotations.
Open Scope string_scope.
Open Scope list_scope.

Definition SeedIV := size 16 16 OCTET_STRING.
Definition SeedCBCParameter := SeedIV.
Definition SeedSMimeCapability := NULL.

Definition rfc4010 : list (string * sty) := [
  ("SeedIV", SeedIV); ("SeedCBCParameter", SeedCBCParameter); ("SeedSMimeCapability", SeedSMimeCapability)].
