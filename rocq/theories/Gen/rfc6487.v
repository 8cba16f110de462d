(** pyasn1_modules/rfc6487.py, printed by tools/py2coq.py.  Every statement is
    preceded by its line number in that file. *)
From Verif Require Import Py.Syntax.
From Coq Require Import List String ZArith NArith.
Import ListNotations.
Open Scope string_scope.
Open Scope Z_scope.

Definition src : module := [
  (15%N, SFrom "pyasn1.type" [("univ", "univ")]);
  (17%N, set "id_pkix" (call (univ "ObjectIdentifier") [EStr "1.3.6.1.5.5.7"]));
  (19%N, set "id_ad" (EBin OAdd (EName "id_pkix") (ETuple [EInt 48])));
  (21%N, set "id_ad_rpkiManifest" (EBin OAdd (EName "id_ad") (ETuple [EInt 10])));
  (22%N, set "id_ad_signedObject" (EBin OAdd (EName "id_ad") (ETuple [EInt 11])))
].
