(** pyasn1_modules/rfc3537.py, printed by tools/py2coq.py.  Every statement is
    preceded by its line number in that file. *)
From Verif Require Import Py.Syntax.
From Coq Require Import List String ZArith NArith.
Import ListNotations.
Open Scope string_scope.
Open Scope Z_scope.

Definition src : module := [
  (15%N, SFrom "pyasn1.type" [("constraint", "constraint")]);
  (16%N, SFrom "pyasn1.type" [("univ", "univ")]);
  (18%N, SFrom "pyasn1_modules" [("rfc5280", "rfc5280")]);
  (21%N, set "id_alg_HMACwith3DESwrap" (call (univ "ObjectIdentifier") [EStr "1.2.840.113549.1.9.16.3.11"]));
  (24%N, set "id_alg_HMACwithAESwrap" (call (univ "ObjectIdentifier") [EStr "1.2.840.113549.1.9.16.3.12"]));
  (29%N, set "_algorithmIdentifierMapUpdate" (EDict [(EName "id_alg_HMACwith3DESwrap", call (univ "Null") [EStr ""]); (EName "id_alg_HMACwithAESwrap", call (univ "Null") [EStr ""])]));
  (34%N, SExpr (call (EAttr (qual "rfc5280" "algorithmIdentifierMap") "update") [EName "_algorithmIdentifierMapUpdate"]))
].
