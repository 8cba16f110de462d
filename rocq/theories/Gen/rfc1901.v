(** pyasn1_modules/rfc1901.py, printed by tools/py2coq.py.  Every statement is
    preceded by its line number in that file. *)
From Verif Require Import Py.Syntax.
From Coq Require Import List String ZArith NArith.
Import ListNotations.
Open Scope string_scope.
Open Scope Z_scope.

Definition src : module := [
  (12%N, SFrom "pyasn1.type" [("namedtype", "namedtype")]);
  (13%N, SFrom "pyasn1.type" [("namedval", "namedval")]);
  (14%N, SFrom "pyasn1.type" [("univ", "univ")]);
  (17%N, SClass "Message" (univ "Sequence") [set "componentType" (nts [nt "version" (ECall (univ "Integer") [] [("namedValues", nvs [nv "version-2c" 1])]); nt "community" (call0 (univ "OctetString")); nt "data" (call0 (univ "Any"))])])
].
