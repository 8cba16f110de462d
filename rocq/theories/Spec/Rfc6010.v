(** RFC 6010, appendix A. *)
From Coq Require Import List String ZArith NArith.
From Verif Require Import Asn1.Types Spec.X680.
From Verif Require Spec.Rfc5280.
Import ListNotations.
Open Scope string_scope.
Open Scope list_scope.

Definition AttrConstraint := SEQUENCE [req "attrType" OBJECT_IDENTIFIER; req "attrValues" (size_min 1 (SET_OF ANY))].
Definition AttrConstraintList := size_min 1 (SEQUENCE_OF AttrConstraint).
Definition ContentTypeGeneration := ENUMERATED [("canSource", 0); ("cannotSource", 1)]%Z.
Definition ContentTypeConstraint := SEQUENCE [
  req "contentType" OBJECT_IDENTIFIER;
  dft "canSource" ContentTypeGeneration (VInt 0);
  opt "attrConstraints" AttrConstraintList].
Definition CMSContentConstraints := size_min 1 (SEQUENCE_OF ContentTypeConstraint).

Definition rfc6010 : list (string * sty) := [
  ("AttrConstraint", AttrConstraint); ("AttrConstraintList", AttrConstraintList);
  ("ContentTypeGeneration", ContentTypeGeneration); ("ContentTypeConstraint", ContentTypeConstraint);
  ("CMSContentConstraints", CMSContentConstraints); ("AttributeType", Rfc5280.AttributeType);
  ("AttributeValue", Rfc5280.AttributeValue)].
