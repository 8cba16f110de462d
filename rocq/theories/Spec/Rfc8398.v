(** RFC 8398, section 4 and appendix A. *)
From Coq Require Import List String ZArith NArith.
From Verif Require Import Asn1.Types Spec.X680.
Import ListNotations.
Open Scope string_scope.
Open Scope list_scope.

Definition SmtpUTF8Mailbox := size_min 1 UTF8String.

Definition rfc8398 : list (string * sty) := [
  ("SmtpUTF8Mailbox", SmtpUTF8Mailbox)].
