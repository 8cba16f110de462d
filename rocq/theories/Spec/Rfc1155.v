(** RFC 1155, section 3.2 and RFC1155-SMI. *)
From Coq Require Import List String ZArith NArith.
From Verif Require Import Asn1.Types Spec.X680.
Import ListNotations.
Open Scope string_scope.
Open Scope list_scope.

Definition ObjectName := OBJECT_IDENTIFIER.
Definition SimpleSyntax := CHOICE [
  req "number" INTEGER; req "string" OCTET_STRING; req "object" OBJECT_IDENTIFIER; req "empty" NULL].
Definition IpAddress := application 0 (size 4 4 OCTET_STRING).
Definition NetworkAddress := CHOICE [req "internet" IpAddress].
Definition Counter := application 1 (range 0 4294967295 INTEGER).
Definition Gauge := application 2 (range 0 4294967295 INTEGER).
Definition TimeTicks := application 3 (range 0 4294967295 INTEGER).
Definition Opaque := application 4 OCTET_STRING.
Definition ApplicationSyntax := CHOICE [
  req "address" NetworkAddress; req "counter" Counter; req "gauge" Gauge; req "ticks" TimeTicks; req "arbitrary" Opaque].
Definition ObjectSyntax := CHOICE [req "simple" SimpleSyntax; req "application-wide" ApplicationSyntax].

Definition rfc1155 : list (string * sty) := [
  ("ObjectName", ObjectName); ("SimpleSyntax", SimpleSyntax); ("IpAddress", IpAddress);
  ("NetworkAddress", NetworkAddress); ("Counter", Counter); ("Gauge", Gauge); ("TimeTicks", TimeTicks);
  ("Opaque", Opaque); ("ApplicationSyntax", ApplicationSyntax); ("ObjectSyntax", ObjectSyntax)].
