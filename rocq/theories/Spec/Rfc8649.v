(** RFC 8649, appendix A. *)
From Coq Require Import List String ZArith NArith.
From Verif Require Import Asn1.Types Spec.X680.
From Verif Require Import Spec.Rfc5280.
Import ListNotations.
Open Scope string_scope.
Open Scope list_scope.

Definition HashedRootKey := SEQUENCE [req "hashAlg" AlgorithmIdentifier; req "hashValue" OCTET_STRING].

Definition rfc8649 : list (string * sty) := [
  ("HashedRootKey", HashedRootKey)].
