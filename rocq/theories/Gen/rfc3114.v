(** pyasn1_modules/rfc3114.py, printed by tools/py2coq.py.  Every statement is
    preceded by its line number in that file. *)
From Verif Require Import Py.Syntax.
From Coq Require Import List String ZArith NArith.
Import ListNotations.
Open Scope string_scope.
Open Scope Z_scope.

Definition src : module := [
  (15%N, SFrom "pyasn1.type" [("char", "char")]);
  (16%N, SFrom "pyasn1.type" [("namedval", "namedval")]);
  (17%N, SFrom "pyasn1.type" [("univ", "univ")]);
  (19%N, SFrom "pyasn1_modules" [("rfc5755", "rfc5755")]);
  (22%N, set "id_smime" (call (univ "ObjectIdentifier") [ETuple [EInt 1; EInt 2; EInt 840; EInt 113549; EInt 1; EInt 9; EInt 16]]));
  (24%N, set "id_tsp" (EBin OAdd (EName "id_smime") (ETuple [EInt 7])));
  (26%N, set "id_tsp_TEST_Amoco" (EBin OAdd (EName "id_tsp") (ETuple [EInt 1])));
  (28%N, SClass "Amoco_SecurityClassification" (univ "Integer") [set "namedValues" (nvs [nv "amoco-general" 6; nv "amoco-confidential" 7; nv "amoco-highly-confidential" 8])]);
  (36%N, set "id_tsp_TEST_Caterpillar" (EBin OAdd (EName "id_tsp") (ETuple [EInt 2])));
  (38%N, SClass "Caterpillar_SecurityClassification" (univ "Integer") [set "namedValues" (nvs [nv "caterpillar-public" 6; nv "caterpillar-green" 7; nv "caterpillar-yellow" 8; nv "caterpillar-red" 9])]);
  (47%N, set "id_tsp_TEST_Whirlpool" (EBin OAdd (EName "id_tsp") (ETuple [EInt 3])));
  (49%N, SClass "Whirlpool_SecurityClassification" (univ "Integer") [set "namedValues" (nvs [nv "whirlpool-public" 6; nv "whirlpool-internal" 7; nv "whirlpool-confidential" 8])]);
  (57%N, set "id_tsp_TEST_Whirlpool_Categories" (EBin OAdd (EName "id_tsp") (ETuple [EInt 4])));
  (59%N, SClass "SecurityCategoryValues" (univ "SequenceOf") [set "componentType" (call0 (chr "UTF8String"))]);
  (73%N, set "_securityCategoryMapUpdate" (EDict [(EName "id_tsp_TEST_Whirlpool_Categories", new "SecurityCategoryValues")]));
  (77%N, SExpr (call (EAttr (qual "rfc5755" "securityCategoryMap") "update") [EName "_securityCategoryMapUpdate"]))
].
