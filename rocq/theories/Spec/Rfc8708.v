(** RFC 8708, appendix A. *)
From Coq Require Import List String ZArith NArith.
From Verif Require Import Asn1.Types Spec.X680.
Import ListNotations.
Open Scope string_scope.
Open Scope list_scope.

Definition HSS_LMS_HashSig_PublicKey := OCTET_STRING.

Definition rfc8708 : list (string * sty) := [
  ("HSS_LMS_HashSig_PublicKey", HSS_LMS_HashSig_PublicKey)].
