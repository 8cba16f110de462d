(** RFC 7508, appendix A: SMimeSecureHeadersV1. *)
From Coq Require Import List String ZArith NArith.
From Verif Require Import Asn1.Types Spec.X680.
Import ListNotations.
Open Scope string_scope.
Open Scope list_scope.

Definition Algorithm := ENUMERATED [("canonAlgorithmSimple", 0); ("canonAlgorithmRelaxed", 1)]%Z.
Definition HeaderFieldStatus := INTEGER_OF [("duplicated", 0); ("deleted", 1); ("modified", 2)]%Z.
(* FROM (ALL EXCEPT ":") *)
Definition HeaderFieldName := from
  " !""#$%&'()*+,-./0123456789;<=>?@ABCDEFGHIJKLMNOPQRSTUVWXYZ[\]^_`abcdefghijklmnopqrstuvwxyz{|}~" VisibleString.
Definition HeaderFieldValue := UTF8String.
Definition HeaderField := SEQUENCE [
  req "field-Name" HeaderFieldName; req "field-Value" HeaderFieldValue; dft "field-Status" HeaderFieldStatus (VInt 0)].
Definition HeaderFields := size_min 1 (SEQUENCE_OF HeaderField).
Definition SecureHeaderFields := SET [req "canonAlgorithm" Algorithm; req "secHeaderFields" HeaderFields].

Definition rfc7508 : list (string * sty) := [
  ("Algorithm", Algorithm); ("HeaderFieldStatus", HeaderFieldStatus); ("HeaderFieldName", HeaderFieldName);
  ("HeaderFieldValue", HeaderFieldValue); ("HeaderField", HeaderField); ("HeaderFields", HeaderFields);
  ("SecureHeaderFields", SecureHeaderFields)].
