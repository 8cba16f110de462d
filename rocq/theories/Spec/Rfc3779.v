(** RFC 3779, appendix A: IPAddrAndASCertExtn (EXPLICIT TAGS). *)
From Coq Require Import List String ZArith NArith.
From Verif Require Import Asn1.Types Spec.X680.
Import ListNotations.
Open Scope string_scope.
Open Scope list_scope.

Definition IPAddress := BIT_STRING.
Definition IPAddressRange := SEQUENCE [req "min" IPAddress; req "max" IPAddress].
Definition IPAddressOrRange := CHOICE [req "addressPrefix" IPAddress; req "addressRange" IPAddressRange].
Definition IPAddressChoice := CHOICE [req "inherit" NULL; req "addressesOrRanges" (SEQUENCE_OF IPAddressOrRange)].
Definition IPAddressFamily := SEQUENCE [
  req "addressFamily" (size 2 3 OCTET_STRING); req "ipAddressChoice" IPAddressChoice].
Definition IPAddrBlocks := SEQUENCE_OF IPAddressFamily.
Definition ASId := INTEGER.
Definition ASRange := SEQUENCE [req "min" ASId; req "max" ASId].
Definition ASIdOrRange := CHOICE [req "id" ASId; req "range" ASRange].
Definition ASIdentifierChoice := CHOICE [req "inherit" NULL; req "asIdsOrRanges" (SEQUENCE_OF ASIdOrRange)].
Definition ASIdentifiers := SEQUENCE [
  opt "asnum" (explicit 0 ASIdentifierChoice); opt "rdi" (explicit 1 ASIdentifierChoice)].

Definition rfc3779 : list (string * sty) := [
  ("IPAddress", IPAddress); ("IPAddressRange", IPAddressRange); ("IPAddressOrRange", IPAddressOrRange);
  ("IPAddressChoice", IPAddressChoice); ("IPAddressFamily", IPAddressFamily); ("IPAddrBlocks", IPAddrBlocks);
  ("ASId", ASId); ("ASRange", ASRange); ("ASIdOrRange", ASIdOrRange); ("ASIdentifierChoice", ASIdentifierChoice);
  ("ASIdentifiers", ASIdentifiers)].
