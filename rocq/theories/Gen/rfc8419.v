(** pyasn1_modules/rfc8419.py, printed by tools/py2coq.py.  Every statement is
    preceded by its line number in that file. *)
From Verif Require Import Py.Syntax.
From Coq Require Import List String ZArith NArith.
Import ListNotations.
Open Scope string_scope.
Open Scope Z_scope.

Definition src : module := [
  (15%N, SFrom "pyasn1.type" [("univ", "univ")]);
  (17%N, SFrom "pyasn1_modules" [("rfc5280", "rfc5280")]);
  (20%N, SClass "ShakeOutputLen" (univ "Integer") [SPass]);
  (24%N, set "id_Ed25519" (call (univ "ObjectIdentifier") [EStr "1.3.101.112"]));
  (26%N, set "sigAlg_Ed25519" (call0 (qual "rfc5280" "AlgorithmIdentifier")));
  (27%N, SAssign [ESub (EName "sigAlg_Ed25519") (EStr "algorithm")] (EName "id_Ed25519"));
  (31%N, set "id_Ed448" (call (univ "ObjectIdentifier") [EStr "1.3.101.113"]));
  (33%N, set "sigAlg_Ed448" (call0 (qual "rfc5280" "AlgorithmIdentifier")));
  (34%N, SAssign [ESub (EName "sigAlg_Ed448") (EStr "algorithm")] (EName "id_Ed448"));
  (38%N, set "hashAlgs" (call (univ "ObjectIdentifier") [EStr "2.16.840.1.101.3.4.2"]));
  (40%N, set "id_sha512" (EBin OAdd (EName "hashAlgs") (ETuple [EInt 3])));
  (42%N, set "hashAlg_SHA_512" (call0 (qual "rfc5280" "AlgorithmIdentifier")));
  (43%N, SAssign [ESub (EName "hashAlg_SHA_512") (EStr "algorithm")] (EName "id_sha512"));
  (47%N, set "id_shake256" (EBin OAdd (EName "hashAlgs") (ETuple [EInt 12])));
  (49%N, set "hashAlg_SHAKE256" (call0 (qual "rfc5280" "AlgorithmIdentifier")));
  (50%N, SAssign [ESub (EName "hashAlg_SHAKE256") (EStr "algorithm")] (EName "id_shake256"));
  (54%N, set "id_shake256_len" (EBin OAdd (EName "hashAlgs") (ETuple [EInt 18])));
  (56%N, set "hashAlg_SHAKE256_LEN" (call0 (qual "rfc5280" "AlgorithmIdentifier")));
  (57%N, SAssign [ESub (EName "hashAlg_SHAKE256_LEN") (EStr "algorithm")] (EName "id_shake256_len"));
  (58%N, SAssign [ESub (EName "hashAlg_SHAKE256_LEN") (EStr "parameters")] (new "ShakeOutputLen"));
  (64%N, set "_algorithmIdentifierMapUpdate" (EDict [(EName "id_shake256_len", new "ShakeOutputLen")]));
  (68%N, SExpr (call (EAttr (qual "rfc5280" "algorithmIdentifierMap") "update") [EName "_algorithmIdentifierMapUpdate"]))
].
