(** RFC 3820, appendix A. *)
From Coq Require Import List String ZArith NArith.
From Verif Require Import Asn1.Types Spec.X680.
Import ListNotations.
Open Scope string_scope.
Open Scope list_scope.

Definition ProxyCertPathLengthConstraint := INTEGER.
Definition ProxyPolicy := SEQUENCE [req "policyLanguage" OBJECT_IDENTIFIER; opt "policy" OCTET_STRING].
Definition ProxyCertInfoExtension := SEQUENCE [
  opt "pCPathLenConstraint" ProxyCertPathLengthConstraint; req "proxyPolicy" ProxyPolicy].

Definition rfc3820 : list (string * sty) := [
  ("ProxyCertPathLengthConstraint", ProxyCertPathLengthConstraint); ("ProxyPolicy", ProxyPolicy);
  ("ProxyCertInfoExtension", ProxyCertInfoExtension)].
