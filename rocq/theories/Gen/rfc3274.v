(** pyasn1_modules/rfc3274.py, printed by tools/py2coq.py.  Every statement is
    preceded by its line number in that file. *)
From Verif Require Import Py.Syntax.
From Coq Require Import List String ZArith NArith.
Import ListNotations.
Open Scope string_scope.
Open Scope Z_scope.

Definition src : module := [
  (16%N, SFrom "pyasn1.type" [("namedtype", "namedtype")]);
  (17%N, SFrom "pyasn1.type" [("univ", "univ")]);
  (19%N, SFrom "pyasn1_modules" [("rfc5280", "rfc5280")]);
  (20%N, SFrom "pyasn1_modules" [("rfc5652", "rfc5652")]);
  (23%N, SClass "CompressionAlgorithmIdentifier" (qual "rfc5280" "AlgorithmIdentifier") [SPass]);
  (29%N, set "id_ct_compressedData" (call (univ "ObjectIdentifier") [EStr "1.2.840.113549.1.9.16.1.9"]));
  (31%N, SClass "CompressedData" (univ "Sequence") [SPass]);
  (34%N, seta "CompressedData" "componentType" (nts [nt "version" (call0 (qual "rfc5652" "CMSVersion")); nt "compressionAlgorithm" (new "CompressionAlgorithmIdentifier"); nt "encapContentInfo" (call0 (qual "rfc5652" "EncapsulatedContentInfo"))]));
  (45%N, set "id_alg_zlibCompress" (call (univ "ObjectIdentifier") [EStr "1.2.840.113549.1.9.16.3.8"]));
  (47%N, set "cpa_zlibCompress" (call0 (qual "rfc5280" "AlgorithmIdentifier")));
  (48%N, SAssign [ESub (EName "cpa_zlibCompress") (EStr "algorithm")] (EName "id_alg_zlibCompress"));
  (55%N, set "_cmsContentTypesMapUpdate" (EDict [(EName "id_ct_compressedData", new "CompressedData")]));
  (59%N, SExpr (call (EAttr (qual "rfc5652" "cmsContentTypesMap") "update") [EName "_cmsContentTypesMapUpdate"]))
].
