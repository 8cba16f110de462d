(** pyasn1_modules/rfc7508.py, printed by tools/py2coq.py.  Every statement is
    preceded by its line number in that file. *)
From Verif Require Import Py.Syntax.
From Coq Require Import List String ZArith NArith.
Import ListNotations.
Open Scope string_scope.
Open Scope Z_scope.

Definition src : module := [
  (16%N, SFrom "pyasn1.type" [("char", "char")]);
  (17%N, SFrom "pyasn1.type" [("constraint", "constraint")]);
  (18%N, SFrom "pyasn1.type" [("namedtype", "namedtype")]);
  (19%N, SFrom "pyasn1.type" [("namedval", "namedval")]);
  (20%N, SFrom "pyasn1.type" [("univ", "univ")]);
  (22%N, SFrom "pyasn1_modules" [("rfc5652", "rfc5652")]);
  (24%N, SImport "string");
  (26%N, set "MAX" (call (EName "float") [EStr "inf"]));
  (29%N, SClass "Algorithm" (univ "Enumerated") [set "namedValues" (nvs [nv "canonAlgorithmSimple" 0; nv "canonAlgorithmRelaxed" 1])]);
  (36%N, SClass "HeaderFieldStatus" (univ "Integer") [set "namedValues" (nvs [nv "duplicated" 0; nv "deleted" 1; nv "modified" 2])]);
  (44%N, SClass "HeaderFieldName" (chr "VisibleString") [set "subtypeSpec" (EBin OSub (call (qual "constraint" "PermittedAlphabetConstraint") [EStar (qual "string" "printable")]) (call (qual "constraint" "PermittedAlphabetConstraint") [EStr ":"]))]);
  (51%N, SClass "HeaderFieldValue" (chr "UTF8String") [SPass]);
  (55%N, SClass "HeaderField" (univ "Sequence") [set "componentType" (nts [nt "field-Name" (new "HeaderFieldName"); nt "field-Value" (new "HeaderFieldValue"); dnt "field-Status" (withvalue (new "HeaderFieldStatus") (EStr "duplicated"))])]);
  (64%N, SClass "HeaderFields" (univ "SequenceOf") [set "componentType" (new "HeaderField"); set "subtypeSpec" (sizec (EInt 1) (EName "MAX"))]);
  (69%N, SClass "SecureHeaderFields" (univ "Set") [set "componentType" (nts [nt "canonAlgorithm" (new "Algorithm"); nt "secHeaderFields" (new "HeaderFields")])]);
  (76%N, set "id_aa" (call (univ "ObjectIdentifier") [ETuple [EInt 1; EInt 2; EInt 840; EInt 113549; EInt 1; EInt 9; EInt 16; EInt 2]]));
  (78%N, set "id_aa_secureHeaderFieldsIdentifier" (EBin OAdd (EName "id_aa") (ETuple [EInt 55])));
  (85%N, set "_cmsAttributesMapUpdate" (EDict [(EName "id_aa_secureHeaderFieldsIdentifier", new "SecureHeaderFields")]));
  (89%N, SExpr (call (EAttr (qual "rfc5652" "cmsAttributesMap") "update") [EName "_cmsAttributesMapUpdate"]))
].
