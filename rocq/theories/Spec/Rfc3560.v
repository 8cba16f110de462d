(** RFC 3560, appendix A (the type is that of RFC 4055). *)
From Coq Require Import List String ZArith NArith.
From Verif Require Import Asn1.Types Spec.X680.
From Verif Require Spec.Rfc4055.
Import ListNotations.
Open Scope string_scope.
Open Scope list_scope.

Definition RSAES_OAEP_params := Rfc4055.RSAES_OAEP_params.

Definition rfc3560 : list (string * sty) := [
  ("RSAES_OAEP_params", RSAES_OAEP_params)].
