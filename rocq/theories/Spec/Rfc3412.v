(** RFC 1901, section 3 (rfc1901), RFC 3412, section 6 (rfc3412) and RFC 3414, section 2.4 (rfc3414).
    ScopedPDU.data is ANY there ("e.g., PDUs as defined in [RFC3416]"); it is PDUs here. *)
From Coq Require Import List String ZArith NArith.
From Verif Require Import Asn1.Types Spec.X680.
From Verif Require Import Spec.Rfc1905.
Import ListNotations.
Open Scope string_scope.
Open Scope list_scope.

Definition ScopedPDU := SEQUENCE [req "contextEngineID" OCTET_STRING; req "contextName" OCTET_STRING; req "data" PDUs].
Definition ScopedPduData := CHOICE [req "plaintext" ScopedPDU; req "encryptedPDU" OCTET_STRING].
Definition HeaderData := SEQUENCE [
  req "msgID" (range 0 2147483647 INTEGER);
  req "msgMaxSize" (range 484 2147483647 INTEGER);
  req "msgFlags" (size 1 1 OCTET_STRING);
  req "msgSecurityModel" (range 1 2147483647 INTEGER)].
Definition SNMPv3Message := SEQUENCE [
  req "msgVersion" (range 0 2147483647 INTEGER);
  req "msgGlobalData" HeaderData;
  req "msgSecurityParameters" OCTET_STRING;
  req "msgData" ScopedPduData].

Definition rfc3412 : list (string * sty) := [
  ("ScopedPDU", ScopedPDU); ("ScopedPduData", ScopedPduData); ("HeaderData", HeaderData);
  ("SNMPv3Message", SNMPv3Message)].

Definition Message := SEQUENCE [
  req "version" (INTEGER_OF [("version-2c", 1)]%Z); req "community" OCTET_STRING; req "data" ANY].
Definition rfc1901 : list (string * sty) := [("Message", Message)].

Definition UsmSecurityParameters := SEQUENCE [
  req "msgAuthoritativeEngineID" OCTET_STRING;
  req "msgAuthoritativeEngineBoots" (range 0 2147483647 INTEGER);
  req "msgAuthoritativeEngineTime" (range 0 2147483647 INTEGER);
  req "msgUserName" (size 0 32 OCTET_STRING);
  req "msgAuthenticationParameters" OCTET_STRING;
  req "msgPrivacyParameters" OCTET_STRING].
Definition rfc3414 : list (string * sty) := [("UsmSecurityParameters", UsmSecurityParameters)].
