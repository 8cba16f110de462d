(** pyasn1_modules/rfc8398.py, printed by tools/py2coq.py.  Every statement is
    preceded by its line number in that file. *)
From Verif Require Import Py.Syntax.
From Coq Require Import List String ZArith NArith.
Import ListNotations.
Open Scope string_scope.
Open Scope Z_scope.

Definition src : module := [
  (16%N, SFrom "pyasn1.type" [("char", "char")]);
  (17%N, SFrom "pyasn1.type" [("constraint", "constraint")]);
  (18%N, SFrom "pyasn1.type" [("univ", "univ")]);
  (20%N, SFrom "pyasn1_modules" [("rfc5280", "rfc5280")]);
  (22%N, set "MAX" (call (EName "float") [EStr "inf"]));
  (27%N, set "id_pkix" (qual "rfc5280" "id_pkix"));
  (29%N, set "id_on" (EBin OAdd (EName "id_pkix") (ETuple [EInt 8])));
  (31%N, set "id_on_SmtpUTF8Mailbox" (EBin OAdd (EName "id_on") (ETuple [EInt 9])));
  (34%N, SClass "SmtpUTF8Mailbox" (chr "UTF8String") [SPass]);
  (37%N, seta "SmtpUTF8Mailbox" "subtypeSpec" (sizec (EInt 1) (EName "MAX")));
  (40%N, set "on_SmtpUTF8Mailbox" (call0 (qual "rfc5280" "AnotherName")));
  (41%N, SAssign [ESub (EName "on_SmtpUTF8Mailbox") (EStr "type-id")] (EName "id_on_SmtpUTF8Mailbox"));
  (42%N, SAssign [ESub (EName "on_SmtpUTF8Mailbox") (EStr "value")] (new "SmtpUTF8Mailbox"));
  (48%N, set "_anotherNameMapUpdate" (EDict [(EName "id_on_SmtpUTF8Mailbox", new "SmtpUTF8Mailbox")]));
  (52%N, SExpr (call (EAttr (qual "rfc5280" "anotherNameMap") "update") [EName "_anotherNameMapUpdate"]))
].
