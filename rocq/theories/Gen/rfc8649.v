(** pyasn1_modules/rfc8649.py, printed by tools/py2coq.py.  Every statement is
    preceded by its line number in that file. *)
From Verif Require Import Py.Syntax.
From Coq Require Import List String ZArith NArith.
Import ListNotations.
Open Scope string_scope.
Open Scope Z_scope.

Definition src : module := [
  (15%N, SFrom "pyasn1.type" [("namedtype", "namedtype")]);
  (16%N, SFrom "pyasn1.type" [("univ", "univ")]);
  (18%N, SFrom "pyasn1_modules" [("rfc5280", "rfc5280")]);
  (21%N, set "id_ce_hashOfRootKey" (call (univ "ObjectIdentifier") [EStr "1.3.6.1.4.1.51483.2.1"]));
  (24%N, SClass "HashedRootKey" (univ "Sequence") [SPass]);
  (27%N, seta "HashedRootKey" "componentType" (nts [nt "hashAlg" (call0 (qual "rfc5280" "AlgorithmIdentifier")); nt "hashValue" (call0 (univ "OctetString"))]));
  (36%N, set "_certificateExtensionsMapUpdate" (EDict [(EName "id_ce_hashOfRootKey", new "HashedRootKey")]));
  (40%N, SExpr (call (EAttr (qual "rfc5280" "certificateExtensionsMap") "update") [EName "_certificateExtensionsMapUpdate"]))
].
