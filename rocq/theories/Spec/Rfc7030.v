(** RFC 7030, section 4.5.2. *)
From Coq Require Import List String ZArith NArith.
From Verif Require Import Asn1.Types Spec.X680.
From Verif Require Spec.Rfc5652.
Import ListNotations.
Open Scope string_scope.
Open Scope list_scope.

Definition AsymmetricDecryptKeyIdentifier := OCTET_STRING.
Definition AttrOrOID := CHOICE [req "oid" OBJECT_IDENTIFIER; req "attribute" Rfc5652.Attribute].
Definition CsrAttrs := size_min 0 (SEQUENCE_OF AttrOrOID).

Definition rfc7030 : list (string * sty) := [
  ("AsymmetricDecryptKeyIdentifier", AsymmetricDecryptKeyIdentifier); ("AttrOrOID", AttrOrOID);
  ("CsrAttrs", CsrAttrs); ("Attribute", Rfc5652.Attribute)].
