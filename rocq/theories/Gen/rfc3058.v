(** pyasn1_modules/rfc3058.py, printed by tools/py2coq.py.  Every statement is
    preceded by its line number in that file. *)
From Verif Require Import Py.Syntax.
From Coq Require Import List String ZArith NArith.
Import ListNotations.
Open Scope string_scope.
Open Scope Z_scope.

Definition src : module := [
  (16%N, SFrom "pyasn1.type" [("namedtype", "namedtype")]);
  (17%N, SFrom "pyasn1.type" [("univ", "univ")]);
  (19%N, SFrom "pyasn1_modules" [("rfc5280", "rfc5280")]);
  (22%N, set "id_IDEA_CBC" (call (univ "ObjectIdentifier") [EStr "1.3.6.1.4.1.188.7.1.1.2"]));
  (25%N, set "id_alg_CMSIDEAwrap" (call (univ "ObjectIdentifier") [EStr "1.3.6.1.4.1.188.7.1.1.6"]));
  (28%N, SClass "IDEA_CBCPar" (univ "Sequence") [set "componentType" (nts [ont "iv" (call0 (univ "OctetString"))])]);
  (37%N, set "_algorithmIdentifierMapUpdate" (EDict [(EName "id_IDEA_CBC", new "IDEA_CBCPar"); (EName "id_alg_CMSIDEAwrap", call (univ "Null") [EStr ""])]));
  (42%N, SExpr (call (EAttr (qual "rfc5280" "algorithmIdentifierMap") "update") [EName "_algorithmIdentifierMapUpdate"]))
].
