(** pyasn1_modules/rfc6210.py, printed by tools/py2coq.py.  Every statement is
    preceded by its line number in that file. *)
From Verif Require Import Py.Syntax.
From Coq Require Import List String ZArith NArith.
Import ListNotations.
Open Scope string_scope.
Open Scope Z_scope.

Definition src : module := [
  (15%N, SFrom "pyasn1.type" [("constraint", "constraint")]);
  (16%N, SFrom "pyasn1.type" [("univ", "univ")]);
  (18%N, SFrom "pyasn1_modules" [("rfc5280", "rfc5280")]);
  (21%N, set "id_alg_MD5_XOR_EXPERIMENT" (call (univ "ObjectIdentifier") [EStr "1.2.840.113549.1.9.16.3.13"]));
  (24%N, SClass "MD5_XOR_EXPERIMENT" (univ "OctetString") [SPass]);
  (27%N, seta "MD5_XOR_EXPERIMENT" "subtypeSpec" (sizec (EInt 64) (EInt 64)));
  (30%N, set "mda_xor_md5_EXPERIMENT" (call0 (qual "rfc5280" "AlgorithmIdentifier")));
  (31%N, SAssign [ESub (EName "mda_xor_md5_EXPERIMENT") (EStr "algorithm")] (EName "id_alg_MD5_XOR_EXPERIMENT"));
  (32%N, SAssign [ESub (EName "mda_xor_md5_EXPERIMENT") (EStr "parameters")] (new "MD5_XOR_EXPERIMENT"));
  (38%N, set "_algorithmIdentifierMapUpdate" (EDict [(EName "id_alg_MD5_XOR_EXPERIMENT", new "MD5_XOR_EXPERIMENT")]));
  (42%N, SExpr (call (EAttr (qual "rfc5280" "algorithmIdentifierMap") "update") [EName "_algorithmIdentifierMapUpdate"]))
].
