(** pyasn1_modules/rfc8226.py, printed by tools/py2coq.py.  Every statement is
    preceded by its line number in that file. *)
From Verif Require Import Py.Syntax.
From Coq Require Import List String ZArith NArith.
Import ListNotations.
Open Scope string_scope.
Open Scope Z_scope.

Definition src : module := [
  (15%N, SFrom "pyasn1.type" [("char", "char")]);
  (16%N, SFrom "pyasn1.type" [("constraint", "constraint")]);
  (17%N, SFrom "pyasn1.type" [("namedtype", "namedtype")]);
  (18%N, SFrom "pyasn1.type" [("tag", "tag")]);
  (19%N, SFrom "pyasn1.type" [("univ", "univ")]);
  (21%N, SFrom "pyasn1_modules" [("rfc5280", "rfc5280")]);
  (23%N, set "MAX" (call (EName "float") [EStr "inf"]));
  (26%N, SDef "_OID" [] (Some "components") [set "output" (EList []); SFor "x" (call (EName "tuple") [EName "components"]) [SIf (call (EName "isinstance") [EName "x"; univ "ObjectIdentifier"]) [SExpr (call (qual "output" "extend") [call (EName "list") [EName "x"]])] [SExpr (call (qual "output" "append") [call (EName "int") [EName "x"]])]]; SReturn (call (univ "ObjectIdentifier") [EName "output"])]);
  (37%N, SClass "JWTClaimName" (chr "IA5String") [SPass]);
  (41%N, SClass "JWTClaimNames" (univ "SequenceOf") [SPass]);
  (44%N, seta "JWTClaimNames" "componentType" (new "JWTClaimName"));
  (45%N, seta "JWTClaimNames" "sizeSpec" (sizec (EInt 1) (EName "MAX")));
  (48%N, SClass "JWTClaimPermittedValues" (univ "Sequence") [SPass]);
  (51%N, seta "JWTClaimPermittedValues" "componentType" (nts [nt "claim" (new "JWTClaimName"); nt "permitted" (withsize (ECall (univ "SequenceOf") [] [("componentType", call0 (chr "UTF8String"))]) (sizec (EInt 1) (EName "MAX")))]));
  (59%N, SClass "JWTClaimPermittedValuesList" (univ "SequenceOf") [SPass]);
  (62%N, seta "JWTClaimPermittedValuesList" "componentType" (new "JWTClaimPermittedValues"));
  (63%N, seta "JWTClaimPermittedValuesList" "sizeSpec" (sizec (EInt 1) (EName "MAX")));
  (66%N, SClass "JWTClaimConstraints" (univ "Sequence") [SPass]);
  (69%N, seta "JWTClaimConstraints" "componentType" (nts [ont "mustInclude" (explicit (new "JWTClaimNames") (ctxS 0)); ont "permittedValues" (explicit (new "JWTClaimPermittedValuesList") (ctxS 1))]));
  (78%N, seta "JWTClaimConstraints" "subtypeSpec" (call (qual "constraint" "ConstraintsUnion") [call (qual "constraint" "WithComponentsConstraint") [ETuple [EStr "mustInclude"; call0 (qual "constraint" "ComponentPresentConstraint")]]; call (qual "constraint" "WithComponentsConstraint") [ETuple [EStr "permittedValues"; call0 (qual "constraint" "ComponentPresentConstraint")]]]));
  (86%N, set "id_pe_JWTClaimConstraints" (call (EName "_OID") [EInt 1; EInt 3; EInt 6; EInt 1; EInt 5; EInt 5; EInt 7; EInt 1; EInt 27]));
  (89%N, SClass "ServiceProviderCode" (chr "IA5String") [SPass]);
  (93%N, SClass "TelephoneNumber" (chr "IA5String") [SPass]);
  (96%N, seta "TelephoneNumber" "subtypeSpec" (call (qual "constraint" "ConstraintsIntersection") [sizec (EInt 1) (EInt 15); call (qual "constraint" "PermittedAlphabetConstraint") [EStr "0"; EStr "1"; EStr "2"; EStr "3"; EStr "4"; EStr "5"; EStr "6"; EStr "7"; EStr "8"; EStr "9"; EStr "#"; EStr "*"]]));
  (103%N, SClass "TelephoneNumberRange" (univ "Sequence") [SPass]);
  (106%N, seta "TelephoneNumberRange" "componentType" (nts [nt "start" (new "TelephoneNumber"); nt "count" (withspec (call0 (univ "Integer")) (rangec (EInt 2) (EName "MAX")))]));
  (113%N, SClass "TNEntry" (univ "Choice") [SPass]);
  (116%N, seta "TNEntry" "componentType" (nts [nt "spc" (explicit (new "ServiceProviderCode") (ctxS 0)); nt "range" (explicit (new "TelephoneNumberRange") (ctxC 1)); nt "one" (explicit (new "TelephoneNumber") (ctxS 2))]));
  (129%N, SClass "TNAuthorizationList" (univ "SequenceOf") [SPass]);
  (132%N, seta "TNAuthorizationList" "componentType" (new "TNEntry"));
  (133%N, seta "TNAuthorizationList" "sizeSpec" (sizec (EInt 1) (EName "MAX")));
  (135%N, set "id_pe_TNAuthList" (call (EName "_OID") [EInt 1; EInt 3; EInt 6; EInt 1; EInt 5; EInt 5; EInt 7; EInt 1; EInt 26]));
  (138%N, set "id_ad_stirTNList" (call (EName "_OID") [EInt 1; EInt 3; EInt 6; EInt 1; EInt 5; EInt 5; EInt 7; EInt 48; EInt 14]));
  (144%N, set "_certificateExtensionsMapUpdate" (EDict [(EName "id_pe_TNAuthList", new "TNAuthorizationList"); (EName "id_pe_JWTClaimConstraints", new "JWTClaimConstraints")]));
  (149%N, SExpr (call (EAttr (qual "rfc5280" "certificateExtensionsMap") "update") [EName "_certificateExtensionsMapUpdate"]))
].
