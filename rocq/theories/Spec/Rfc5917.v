(** RFC 5917: clearanceSponsor has values DirectoryString {64} (WITH COMPONENTS {utf8String
    PRESENT}). *)
From Coq Require Import List String ZArith NArith.
From Verif Require Import Asn1.Types Spec.X680.
Import ListNotations.
Open Scope string_scope.
Open Scope list_scope.

Definition DirectoryString := CHOICE [req "utf8String" (size 1 64 UTF8String)].

Definition rfc5917 : list (string * sty) := [
  ("DirectoryString", DirectoryString)].
