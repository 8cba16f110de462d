(** RFC 6482, appendix A: RouteOriginAttestation (EXPLICIT TAGS). *)
From Coq Require Import List String ZArith NArith.
From Verif Require Import Asn1.Types Spec.X680.
Import ListNotations.
Open Scope string_scope.
Open Scope list_scope.

Definition ASID := INTEGER.
Definition IPAddress := BIT_STRING.
Definition ROAIPAddress := SEQUENCE [req "address" IPAddress; opt "maxLength" INTEGER].
Definition ROAIPAddressFamily := SEQUENCE [
  req "addressFamily" (size 2 3 OCTET_STRING); req "addresses" (size_min 1 (SEQUENCE_OF ROAIPAddress))].
Definition RouteOriginAttestation := SEQUENCE [
  dft "version" (explicit 0 INTEGER) (VInt 0);
  req "asID" ASID;
  req "ipAddrBlocks" (size_min 1 (SEQUENCE_OF ROAIPAddressFamily))].

Definition rfc6482 : list (string * sty) := [
  ("ASID", ASID); ("IPAddress", IPAddress); ("ROAIPAddress", ROAIPAddress);
  ("ROAIPAddressFamily", ROAIPAddressFamily); ("RouteOriginAttestation", RouteOriginAttestation)].
