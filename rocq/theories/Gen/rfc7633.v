(** pyasn1_modules/rfc7633.py, printed by tools/py2coq.py.  Every statement is
    preceded by its line number in that file. *)
From Verif Require Import Py.Syntax.
From Coq Require Import List String ZArith NArith.
Import ListNotations.
Open Scope string_scope.
Open Scope Z_scope.

Definition src : module := [
  (15%N, SFrom "pyasn1.type" [("univ", "univ")]);
  (17%N, SFrom "pyasn1_modules" [("rfc5280", "rfc5280")]);
  (22%N, set "id_pe" (call (univ "ObjectIdentifier") [EStr "1.3.6.1.5.5.7.1"]));
  (24%N, set "id_pe_tlsfeature" (EBin OAdd (EName "id_pe") (ETuple [EInt 24])));
  (27%N, SClass "Features" (univ "SequenceOf") [set "componentType" (call0 (univ "Integer"))]);
  (34%N, set "_certificateExtensionsMapUpdate" (EDict [(EName "id_pe_tlsfeature", new "Features")]));
  (38%N, SExpr (call (EAttr (qual "rfc5280" "certificateExtensionsMap") "update") [EName "_certificateExtensionsMapUpdate"]))
].
