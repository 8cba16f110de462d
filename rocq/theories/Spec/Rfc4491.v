(** RFC 4491 takes its types from RFC 4357. *)
From Coq Require Import List String ZArith NArith.
From Verif Require Import Asn1.Types Spec.X680.
From Verif Require Spec.Rfc4357.
Import ListNotations.
Open Scope string_scope.
Open Scope list_scope.

Definition GostR3410_2001_PublicKey := Rfc4357.GostR3410_2001_PublicKey.

Definition rfc4491 : list (string * sty) := [
  ("GostR3410_2001_PublicKey", GostR3410_2001_PublicKey);
  ("GostR3410_2001_PublicKeyParameters", Rfc4357.GostR3410_2001_PublicKeyParameters);
  ("GostR3410_94_PublicKey", Rfc4357.GostR3410_94_PublicKey);
  ("GostR3410_94_PublicKeyParameters", Rfc4357.GostR3410_94_PublicKeyParameters)].
