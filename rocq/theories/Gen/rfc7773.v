(** pyasn1_modules/rfc7773.py, printed by tools/py2coq.py.  Every statement is
    preceded by its line number in that file. *)
From Verif Require Import Py.Syntax.
From Coq Require Import List String ZArith NArith.
Import ListNotations.
Open Scope string_scope.
Open Scope Z_scope.

Definition src : module := [
  (15%N, SFrom "pyasn1.type" [("char", "char")]);
  (16%N, SFrom "pyasn1.type" [("constraint", "constraint")]);
  (17%N, SFrom "pyasn1.type" [("namedtype", "namedtype")]);
  (18%N, SFrom "pyasn1.type" [("univ", "univ")]);
  (20%N, SFrom "pyasn1_modules" [("rfc5280", "rfc5280")]);
  (22%N, set "MAX" (call (EName "float") [EStr "inf"]));
  (27%N, set "e_legnamnden" (call (univ "ObjectIdentifier") [EStr "1.2.752.201"]));
  (29%N, set "id_eleg_ce" (EBin OAdd (EName "e_legnamnden") (ETuple [EInt 5])));
  (31%N, set "id_ce_authContext" (EBin OAdd (EName "id_eleg_ce") (ETuple [EInt 1])));
  (34%N, SClass "AuthenticationContext" (univ "Sequence") [set "componentType" (nts [nt "contextType" (call0 (chr "UTF8String")); ont "contextInfo" (call0 (chr "UTF8String"))])]);
  (40%N, SClass "AuthenticationContexts" (univ "SequenceOf") [set "componentType" (new "AuthenticationContext"); set "subtypeSpec" (sizec (EInt 1) (EName "MAX"))]);
  (48%N, set "_certificateExtensionsMapUpdate" (EDict [(EName "id_ce_authContext", new "AuthenticationContexts")]));
  (52%N, SExpr (call (EAttr (qual "rfc5280" "certificateExtensionsMap") "update") [EName "_certificateExtensionsMapUpdate"]))
].
