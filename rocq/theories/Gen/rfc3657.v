(** pyasn1_modules/rfc3657.py, printed by tools/py2coq.py.  Every statement is
    preceded by its line number in that file. *)
From Verif Require Import Py.Syntax.
From Coq Require Import List String ZArith NArith.
Import ListNotations.
Open Scope string_scope.
Open Scope Z_scope.

Definition src : module := [
  (15%N, SFrom "pyasn1.type" [("constraint", "constraint")]);
  (16%N, SFrom "pyasn1.type" [("univ", "univ")]);
  (18%N, SFrom "pyasn1_modules" [("rfc5280", "rfc5280")]);
  (19%N, SFrom "pyasn1_modules" [("rfc5751", "rfc5751")]);
  (22%N, set "id_camellia128_cbc" (call (univ "ObjectIdentifier") [EStr "1.2.392.200011.61.1.1.1.2"]));
  (24%N, set "id_camellia192_cbc" (call (univ "ObjectIdentifier") [EStr "1.2.392.200011.61.1.1.1.3"]));
  (26%N, set "id_camellia256_cbc" (call (univ "ObjectIdentifier") [EStr "1.2.392.200011.61.1.1.1.4"]));
  (28%N, set "id_camellia128_wrap" (call (univ "ObjectIdentifier") [EStr "1.2.392.200011.61.1.1.3.2"]));
  (30%N, set "id_camellia192_wrap" (call (univ "ObjectIdentifier") [EStr "1.2.392.200011.61.1.1.3.3"]));
  (32%N, set "id_camellia256_wrap" (call (univ "ObjectIdentifier") [EStr "1.2.392.200011.61.1.1.3.4"]));
  (36%N, SClass "Camellia_IV" (univ "OctetString") [set "subtypeSpec" (sizec (EInt 16) (EInt 16))]);
  (40%N, SClass "CamelliaSMimeCapability" (univ "Null") [SPass]);
  (46%N, set "_algorithmIdentifierMapUpdate" (EDict [(EName "id_camellia128_cbc", new "Camellia_IV"); (EName "id_camellia192_cbc", new "Camellia_IV"); (EName "id_camellia256_cbc", new "Camellia_IV")]));
  (52%N, SExpr (call (EAttr (qual "rfc5280" "algorithmIdentifierMap") "update") [EName "_algorithmIdentifierMapUpdate"]));
  (57%N, set "_smimeCapabilityMapUpdate" (EDict [(EName "id_camellia128_cbc", new "CamelliaSMimeCapability"); (EName "id_camellia192_cbc", new "CamelliaSMimeCapability"); (EName "id_camellia256_cbc", new "CamelliaSMimeCapability"); (EName "id_camellia128_wrap", new "CamelliaSMimeCapability"); (EName "id_camellia192_wrap", new "CamelliaSMimeCapability"); (EName "id_camellia256_wrap", new "CamelliaSMimeCapability")]));
  (66%N, SExpr (call (EAttr (qual "rfc5751" "smimeCapabilityMap") "update") [EName "_smimeCapabilityMapUpdate"]))
].
