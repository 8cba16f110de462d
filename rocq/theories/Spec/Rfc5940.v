(** RFC 5940, section 2.2. *)
From Coq Require Import List String ZArith NArith.
From Verif Require Import Asn1.Types Spec.X680.
From Verif Require Import Spec.Rfc5652.
From Verif Require Spec.Rfc6960.
Import ListNotations.
Open Scope string_scope.
Open Scope list_scope.

Definition SCVPReqRes := SEQUENCE [opt "request" (explicit 0 ContentInfo); req "response" ContentInfo].

Definition rfc5940 : list (string * sty) := [
  ("SCVPReqRes", SCVPReqRes); ("ContentInfo", Rfc5652.ContentInfo);
  ("OCSPResponse", Rfc6960.OCSPResponse)].
