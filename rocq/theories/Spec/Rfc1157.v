(** RFC 1157, section 5: RFC1157-SNMP.  Message.data is ANY there, with PDUs for the trivial
    authentication protocol; it is PDUs here. *)
From Coq Require Import List String ZArith NArith.
From Verif Require Import Asn1.Types Spec.X680.
From Verif Require Import Spec.Rfc1155.
Import ListNotations.
Open Scope string_scope.
Open Scope list_scope.

Definition RequestID := INTEGER.
Definition ErrorStatus := INTEGER_OF [
  ("noError", 0); ("tooBig", 1); ("noSuchName", 2); ("badValue", 3); ("readOnly", 4); ("genErr", 5)]%Z.
Definition ErrorIndex := INTEGER.
Definition VarBind := SEQUENCE [req "name" ObjectName; req "value" ObjectSyntax].
Definition VarBindList := SEQUENCE_OF VarBind.
Definition pdu := SEQUENCE [
  req "request-id" RequestID; req "error-status" ErrorStatus; req "error-index" ErrorIndex; req "variable-bindings" VarBindList].
Definition GetRequestPDU := implicit 0 pdu.
Definition GetNextRequestPDU := implicit 1 pdu.
Definition GetResponsePDU := implicit 2 pdu.
Definition SetRequestPDU := implicit 3 pdu.
Definition TrapPDU := implicit 4 (SEQUENCE [
  req "enterprise" OBJECT_IDENTIFIER;
  req "agent-addr" NetworkAddress;
  req "generic-trap" (INTEGER_OF [
    ("coldStart", 0); ("warmStart", 1); ("linkDown", 2); ("linkUp", 3); ("authenticationFailure", 4);
    ("egpNeighborLoss", 5); ("enterpriseSpecific", 6)]%Z);
  req "specific-trap" INTEGER;
  req "time-stamp" TimeTicks;
  req "variable-bindings" VarBindList]).
Definition Pdus := CHOICE [
  req "get-request" GetRequestPDU; req "get-next-request" GetNextRequestPDU; req "get-response" GetResponsePDU;
  req "set-request" SetRequestPDU; req "trap" TrapPDU].
Definition Message := SEQUENCE [
  req "version" (INTEGER_OF [("version-1", 0)]%Z); req "community" OCTET_STRING; req "data" Pdus].

Definition rfc1157 : list (string * sty) := [
  ("RequestID", RequestID); ("ErrorStatus", ErrorStatus); ("ErrorIndex", ErrorIndex); ("VarBind", VarBind);
  ("VarBindList", VarBindList); ("GetRequestPDU", GetRequestPDU); ("GetNextRequestPDU", GetNextRequestPDU);
  ("GetResponsePDU", GetResponsePDU); ("SetRequestPDU", SetRequestPDU); ("TrapPDU", TrapPDU); ("Pdus", Pdus);
  ("Message", Message)].
