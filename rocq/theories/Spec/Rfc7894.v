(** RFC 7894, section 3: DirectoryString {255}. *)
From Coq Require Import List String ZArith NArith.
From Verif Require Import Asn1.Types Spec.X680.
From Verif Require Spec.Rfc7191.
Import ListNotations.
Open Scope string_scope.
Open Scope list_scope.

Definition DirectoryString := CHOICE [
  req "teletexString" (size 1 255 TeletexString);
  req "printableString" (size 1 255 PrintableString);
  req "universalString" (size 1 255 UniversalString);
  req "utf8String" (size 1 255 UTF8String);
  req "bmpString" (size 1 255 BMPString)].

Definition rfc7894 : list (string * sty) := [
  ("DirectoryString", DirectoryString); ("Attribute", Rfc7191.SingleAttribute)].
