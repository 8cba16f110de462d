(** pyasn1_modules/rfc4476.py, printed by tools/py2coq.py.  Every statement is
    preceded by its line number in that file. *)
From Verif Require Import Py.Syntax.
From Coq Require Import List String ZArith NArith.
Import ListNotations.
Open Scope string_scope.
Open Scope Z_scope.

Definition src : module := [
  (15%N, SFrom "pyasn1.type" [("char", "char")]);
  (16%N, SFrom "pyasn1.type" [("constraint", "constraint")]);
  (17%N, SFrom "pyasn1.type" [("namedtype", "namedtype")]);
  (18%N, SFrom "pyasn1.type" [("univ", "univ")]);
  (20%N, SFrom "pyasn1_modules" [("rfc5280", "rfc5280")]);
  (22%N, set "MAX" (call (EName "float") [EStr "inf"]));
  (27%N, set "PolicyQualifierId" (qual "rfc5280" "PolicyQualifierId"));
  (29%N, set "PolicyQualifierInfo" (qual "rfc5280" "PolicyQualifierInfo"));
  (31%N, set "UserNotice" (qual "rfc5280" "UserNotice"));
  (33%N, set "id_pkix" (qual "rfc5280" "id_pkix"));
  (38%N, set "id_pe" (EBin OAdd (EName "id_pkix") (ETuple [EInt 1])));
  (40%N, set "id_pe_acPolicies" (EBin OAdd (EName "id_pe") (ETuple [EInt 15])));
  (42%N, set "id_qt" (EBin OAdd (EName "id_pkix") (ETuple [EInt 2])));
  (44%N, set "id_qt_acps" (EBin OAdd (EName "id_qt") (ETuple [EInt 4])));
  (46%N, set "id_qt_acunotice" (EBin OAdd (EName "id_qt") (ETuple [EInt 5])));
  (51%N, SClass "ACUserNotice" (EName "UserNotice") [SPass]);
  (55%N, SClass "ACPSuri" (chr "IA5String") [SPass]);
  (59%N, SClass "AcPolicyId" (univ "ObjectIdentifier") [SPass]);
  (63%N, SClass "PolicyInformation" (univ "Sequence") [set "componentType" (nts [nt "policyIdentifier" (new "AcPolicyId"); ont "policyQualifiers" (withspec (ECall (univ "SequenceOf") [] [("componentType", new "PolicyQualifierInfo")]) (sizec (EInt 1) (EName "MAX")))])]);
  (72%N, SClass "AcPoliciesSyntax" (univ "SequenceOf") [set "componentType" (new "PolicyInformation"); set "subtypeSpec" (sizec (EInt 1) (EName "MAX"))]);
  (79%N, set "_policyQualifierInfoMapUpdate" (EDict [(EName "id_qt_acps", new "ACPSuri"); (EName "id_qt_acunotice", new "UserNotice")]));
  (84%N, SExpr (call (EAttr (qual "rfc5280" "policyQualifierInfoMap") "update") [EName "_policyQualifierInfoMapUpdate"]));
  (89%N, set "_certificateExtensionsMapUpdate" (EDict [(EName "id_pe_acPolicies", new "AcPoliciesSyntax")]));
  (93%N, SExpr (call (EAttr (qual "rfc5280" "certificateExtensionsMap") "update") [EName "_certificateExtensionsMapUpdate"]))
].
