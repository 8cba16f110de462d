(** RFC 1902, SNMPv2-SMI. *)
From Coq Require Import List String ZArith NArith.
From Verif Require Import Asn1.Types Spec.X680.
Import ListNotations.
Open Scope string_scope.
Open Scope list_scope.

Definition ObjectName := OBJECT_IDENTIFIER.
Definition Integer32 := range (-2147483648) 2147483647 INTEGER.
Definition SimpleSyntax := CHOICE [
  req "integer-value" (range (-2147483648) 2147483647 INTEGER);
  req "string-value" (size 0 65535 OCTET_STRING);
  req "objectID-value" OBJECT_IDENTIFIER].
Definition IpAddress := application 0 (size 4 4 OCTET_STRING).
Definition Counter32 := application 1 (range 0 4294967295 INTEGER).
Definition Gauge32 := application 2 (range 0 4294967295 INTEGER).
Definition Unsigned32 := application 2 (range 0 4294967295 INTEGER).
Definition TimeTicks := application 3 (range 0 4294967295 INTEGER).
Definition Opaque := application 4 OCTET_STRING.
Definition Counter64 := application 6 (range 0 18446744073709551615 INTEGER).
Definition ApplicationSyntax := CHOICE [
  req "ipAddress-value" IpAddress; req "counter-value" Counter32; req "timeticks-value" TimeTicks;
  req "arbitrary-value" Opaque; req "big-counter-value" Counter64; req "unsigned-integer-value" Unsigned32].
Definition ObjectSyntax := CHOICE [req "simple" SimpleSyntax; req "application-wide" ApplicationSyntax].

Definition rfc1902 : list (string * sty) := [
  ("ObjectName", ObjectName); ("Integer32", Integer32); ("SimpleSyntax", SimpleSyntax); ("IpAddress", IpAddress);
  ("Counter32", Counter32); ("Gauge32", Gauge32); ("Unsigned32", Unsigned32); ("TimeTicks", TimeTicks);
  ("Opaque", Opaque); ("Counter64", Counter64); ("ApplicationSyntax", ApplicationSyntax);
  ("ObjectSyntax", ObjectSyntax)].
