(** pyasn1_modules/rfc3565.py, printed by tools/py2coq.py.  Every statement is
    preceded by its line number in that file. *)
From Verif Require Import Py.Syntax.
From Coq Require Import List String ZArith NArith.
Import ListNotations.
Open Scope string_scope.
Open Scope Z_scope.

Definition src : module := [
  (16%N, SFrom "pyasn1.type" [("constraint", "constraint")]);
  (17%N, SFrom "pyasn1.type" [("univ", "univ")]);
  (19%N, SFrom "pyasn1_modules" [("rfc5280", "rfc5280")]);
  (22%N, SClass "AlgorithmIdentifier" (qual "rfc5280" "AlgorithmIdentifier") [SPass]);
  (26%N, SClass "AES_IV" (univ "OctetString") [SPass]);
  (29%N, seta "AES_IV" "subtypeSpec" (sizec (EInt 16) (EInt 16)));
  (32%N, set "id_aes128_CBC" (call (univ "ObjectIdentifier") [EStr "2.16.840.1.101.3.4.1.2"]));
  (34%N, set "id_aes192_CBC" (call (univ "ObjectIdentifier") [EStr "2.16.840.1.101.3.4.1.22"]));
  (36%N, set "id_aes256_CBC" (call (univ "ObjectIdentifier") [EStr "2.16.840.1.101.3.4.1.42"]));
  (39%N, set "id_aes128_wrap" (call (univ "ObjectIdentifier") [EStr "2.16.840.1.101.3.4.1.5"]));
  (41%N, set "id_aes192_wrap" (call (univ "ObjectIdentifier") [EStr "2.16.840.1.101.3.4.1.25"]));
  (43%N, set "id_aes256_wrap" (call (univ "ObjectIdentifier") [EStr "2.16.840.1.101.3.4.1.45"]));
  (48%N, set "_algorithmIdentifierMapUpdate" (EDict [(EName "id_aes128_CBC", new "AES_IV"); (EName "id_aes192_CBC", new "AES_IV"); (EName "id_aes256_CBC", new "AES_IV"); (EName "id_aes128_wrap", call0 (univ "Null")); (EName "id_aes192_wrap", call0 (univ "Null")); (EName "id_aes256_wrap", call0 (univ "Null"))]));
  (57%N, SExpr (call (EAttr (qual "rfc5280" "algorithmIdentifierMap") "update") [EName "_algorithmIdentifierMapUpdate"]))
].
