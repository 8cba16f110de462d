(** RFC 3114, sections 3 and appendix A. *)
From Coq Require Import List String ZArith NArith.
From Verif Require Import Asn1.Types Spec.X680.
Import ListNotations.
Open Scope string_scope.
Open Scope list_scope.

Definition Amoco_SecurityClassification := INTEGER_OF [
  ("amoco-general", 6); ("amoco-confidential", 7); ("amoco-highly-confidential", 8)]%Z.
Definition Caterpillar_SecurityClassification := INTEGER_OF [
  ("caterpillar-public", 6); ("caterpillar-green", 7); ("caterpillar-yellow", 8); ("caterpillar-red", 9)]%Z.
Definition Whirlpool_SecurityClassification := INTEGER_OF [
  ("whirlpool-public", 6); ("whirlpool-internal", 7); ("whirlpool-confidential", 8)]%Z.
Definition SecurityCategoryValues := SEQUENCE_OF UTF8String.

Definition rfc3114 : list (string * sty) := [
  ("Amoco_SecurityClassification", Amoco_SecurityClassification);
  ("Caterpillar_SecurityClassification", Caterpillar_SecurityClassification);
  ("Whirlpool_SecurityClassification", Whirlpool_SecurityClassification);
  ("SecurityCategoryValues", SecurityCategoryValues)].
