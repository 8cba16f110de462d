(** RFC 1905, SNMPv2-PDU. *)
From Coq Require Import List String ZArith NArith.
From Verif Require Import Asn1.Types Spec.X680.
From Verif Require Import Spec.Rfc1902.
Import ListNotations.
Open Scope string_scope.
Open Scope list_scope.

(** INTEGER (0..max-bindings) *)
Definition bounded := range 0 2147483647 INTEGER.
Definition VarBind := SEQUENCE [
  req "name" ObjectName;
  req "" (CHOICE [
    req "value" ObjectSyntax; req "unSpecified" NULL; req "noSuchObject" (implicit 0 NULL);
    req "noSuchInstance" (implicit 1 NULL); req "endOfMibView" (implicit 2 NULL)])].
Definition VarBindList := size 0 2147483647 (SEQUENCE_OF VarBind).
Definition PDU := SEQUENCE [
  req "request-id" Integer32;
  req "error-status" (INTEGER_OF [
    ("noError", 0); ("tooBig", 1); ("noSuchName", 2); ("badValue", 3); ("readOnly", 4); ("genErr", 5);
    ("noAccess", 6); ("wrongType", 7); ("wrongLength", 8); ("wrongEncoding", 9); ("wrongValue", 10);
    ("noCreation", 11); ("inconsistentValue", 12); ("resourceUnavailable", 13); ("commitFailed", 14);
    ("undoFailed", 15); ("authorizationError", 16); ("notWritable", 17); ("inconsistentName", 18)]%Z);
  req "error-index" bounded;
  req "variable-bindings" VarBindList].
Definition BulkPDU := SEQUENCE [
  req "request-id" Integer32; req "non-repeaters" bounded; req "max-repetitions" bounded; req "variable-bindings" VarBindList].
Definition GetRequestPDU := implicit 0 PDU.
Definition GetNextRequestPDU := implicit 1 PDU.
Definition ResponsePDU := implicit 2 PDU.
Definition SetRequestPDU := implicit 3 PDU.
Definition GetBulkRequestPDU := implicit 5 BulkPDU.
Definition InformRequestPDU := implicit 6 PDU.
Definition SNMPv2TrapPDU := implicit 7 PDU.
Definition ReportPDU := implicit 8 PDU.
Definition PDUs := CHOICE [
  req "get-request" GetRequestPDU; req "get-next-request" GetNextRequestPDU; req "get-bulk-request" GetBulkRequestPDU;
  req "response" ResponsePDU; req "set-request" SetRequestPDU; req "inform-request" InformRequestPDU;
  req "snmpV2-trap" SNMPv2TrapPDU; req "report" ReportPDU].

Definition rfc1905 : list (string * sty) := [
  ("VarBind", VarBind); ("VarBindList", VarBindList); ("PDU", PDU); ("BulkPDU", BulkPDU);
  ("GetRequestPDU", GetRequestPDU); ("GetNextRequestPDU", GetNextRequestPDU); ("ResponsePDU", ResponsePDU);
  ("SetRequestPDU", SetRequestPDU); ("GetBulkRequestPDU", GetBulkRequestPDU); ("InformRequestPDU", InformRequestPDU);
  ("SNMPv2TrapPDU", SNMPv2TrapPDU); ("ReportPDU", ReportPDU); ("PDUs", PDUs)].
