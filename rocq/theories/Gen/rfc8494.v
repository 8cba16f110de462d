(** pyasn1_modules/rfc8494.py, printed by tools/py2coq.py.  Every statement is
    preceded by its line number in that file. *)
From Verif Require Import Py.Syntax.
From Coq Require Import List String ZArith NArith.
Import ListNotations.
Open Scope string_scope.
Open Scope Z_scope.

Definition src : module := [
  (13%N, SFrom "pyasn1.type" [("namedtype", "namedtype")]);
  (14%N, SFrom "pyasn1.type" [("namedval", "namedval")]);
  (15%N, SFrom "pyasn1.type" [("tag", "tag")]);
  (16%N, SFrom "pyasn1.type" [("univ", "univ")]);
  (19%N, set "id_mmhs_CDT" (call (univ "ObjectIdentifier") [EStr "1.3.26.0.4406.0.4.2"]));
  (22%N, SClass "AlgorithmID_ShortForm" (univ "Integer") [SPass]);
  (25%N, seta "AlgorithmID_ShortForm" "namedValues" (nvs [nv "zlibCompress" 0]));
  (30%N, SClass "ContentType_ShortForm" (univ "Integer") [SPass]);
  (33%N, seta "ContentType_ShortForm" "namedValues" (nvs [nv "unidentified" 0; nv "external" 1; nv "p1" 2; nv "p3" 3; nv "p7" 4; nv "mule" 25]));
  (43%N, SClass "CompressedContentInfo" (univ "Sequence") [SPass]);
  (46%N, seta "CompressedContentInfo" "componentType" (nts [nt "unnamed" (ECall (univ "Choice") [] [("componentType", nts [nt "contentType-ShortForm" (explicit (new "ContentType_ShortForm") (ctxS 0)); nt "contentType-OID" (explicit (call0 (univ "ObjectIdentifier")) (ctxS 1))])]); nt "compressedContent" (explicit (call0 (univ "OctetString")) (ctxS 0))]));
  (61%N, SClass "CompressionAlgorithmIdentifier" (univ "Choice") [SPass]);
  (64%N, seta "CompressionAlgorithmIdentifier" "componentType" (nts [nt "algorithmID-ShortForm" (explicit (new "AlgorithmID_ShortForm") (ctxS 0)); nt "algorithmID-OID" (explicit (call0 (univ "ObjectIdentifier")) (ctxS 1))]));
  (74%N, SClass "CompressedData" (univ "Sequence") [SPass]);
  (77%N, seta "CompressedData" "componentType" (nts [nt "compressionAlgorithm" (new "CompressionAlgorithmIdentifier"); nt "compressedContentInfo" (new "CompressedContentInfo")]))
].
