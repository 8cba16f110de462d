(** pyasn1_modules/rfc4387.py, printed by tools/py2coq.py.  Every statement is
    preceded by its line number in that file. *)
From Verif Require Import Py.Syntax.
From Coq Require Import List String ZArith NArith.
Import ListNotations.
Open Scope string_scope.
Open Scope Z_scope.

Definition src : module := [
  (16%N, SFrom "pyasn1.type" [("univ", "univ")]);
  (19%N, set "id_ad" (call (univ "ObjectIdentifier") [ETuple [EInt 1; EInt 3; EInt 6; EInt 1; EInt 5; EInt 5; EInt 7; EInt 48]]));
  (21%N, set "id_ad_http_certs" (EBin OAdd (EName "id_ad") (ETuple [EInt 6])));
  (23%N, set "id_ad_http_crls" (EBin OAdd (EName "id_ad") (ETuple [EInt 7])))
].
