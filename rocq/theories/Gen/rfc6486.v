(** pyasn1_modules/rfc6486.py, printed by tools/py2coq.py.  Every statement is
    preceded by its line number in that file. *)
From Verif Require Import Py.Syntax.
From Coq Require Import List String ZArith NArith.
Import ListNotations.
Open Scope string_scope.
Open Scope Z_scope.

Definition src : module := [
  (15%N, SFrom "pyasn1.type" [("char", "char")]);
  (16%N, SFrom "pyasn1.type" [("constraint", "constraint")]);
  (17%N, SFrom "pyasn1.type" [("namedtype", "namedtype")]);
  (18%N, SFrom "pyasn1.type" [("tag", "tag")]);
  (19%N, SFrom "pyasn1.type" [("useful", "useful")]);
  (20%N, SFrom "pyasn1.type" [("univ", "univ")]);
  (22%N, SFrom "pyasn1_modules" [("rfc5652", "rfc5652")]);
  (24%N, set "MAX" (call (EName "float") [EStr "inf"]));
  (27%N, set "id_smime" (call (univ "ObjectIdentifier") [EStr "1.2.840.113549.1.9.16"]));
  (29%N, set "id_ct" (EBin OAdd (EName "id_smime") (ETuple [EInt 1])));
  (31%N, set "id_ct_rpkiManifest" (EBin OAdd (EName "id_ct") (ETuple [EInt 26])));
  (34%N, SClass "FileAndHash" (univ "Sequence") [set "componentType" (nts [nt "file" (call0 (chr "IA5String")); nt "hash" (call0 (univ "BitString"))])]);
  (41%N, SClass "Manifest" (univ "Sequence") [set "componentType" (nts [dnt "version" (withvalue (explicit (call0 (univ "Integer")) (ctxS 0)) (EInt 0)); nt "manifestNumber" (withspec (call0 (univ "Integer")) (rangec (EInt 0) (EName "MAX"))); nt "thisUpdate" (call0 (useful "GeneralizedTime")); nt "nextUpdate" (call0 (useful "GeneralizedTime")); nt "fileHashAlg" (call0 (univ "ObjectIdentifier")); nt "fileList" (withspec (ECall (univ "SequenceOf") [] [("componentType", new "FileAndHash")]) (sizec (EInt 0) (EName "MAX")))])]);
  (64%N, set "_cmsContentTypesMapUpdate" (EDict [(EName "id_ct_rpkiManifest", new "Manifest")]));
  (68%N, SExpr (call (EAttr (qual "rfc5652" "cmsContentTypesMap") "update") [EName "_cmsContentTypesMapUpdate"]))
].
