(** pyasn1_modules/rfc4334.py, printed by tools/py2coq.py.  Every statement is
    preceded by its line number in that file. *)
From Verif Require Import Py.Syntax.
From Coq Require Import List String ZArith NArith.
Import ListNotations.
Open Scope string_scope.
Open Scope Z_scope.

Definition src : module := [
  (16%N, SFrom "pyasn1.type" [("constraint", "constraint")]);
  (17%N, SFrom "pyasn1.type" [("univ", "univ")]);
  (19%N, SFrom "pyasn1_modules" [("rfc5280", "rfc5280")]);
  (21%N, set "MAX" (call (EName "float") [EStr "inf"]));
  (26%N, set "id_pe" (call (univ "ObjectIdentifier") [EStr "1.3.6.1.5.5.7.1"]));
  (28%N, set "id_kp" (call (univ "ObjectIdentifier") [EStr "1.3.6.1.5.5.7.3"]));
  (30%N, set "id_aca" (call (univ "ObjectIdentifier") [EStr "1.3.6.1.5.5.7.10"]));
  (35%N, set "id_kp_eapOverPPP" (EBin OAdd (EName "id_kp") (ETuple [EInt 13])));
  (37%N, set "id_kp_eapOverLAN" (EBin OAdd (EName "id_kp") (ETuple [EInt 14])));
  (42%N, set "id_pe_wlanSSID" (EBin OAdd (EName "id_pe") (ETuple [EInt 13])));
  (44%N, SClass "SSID" (univ "OctetString") [SExpr (sizec (EInt 1) (EInt 32))]);
  (48%N, SClass "SSIDList" (univ "SequenceOf") [set "componentType" (new "SSID"); set "subtypeSpec" (sizec (EInt 1) (EName "MAX"))]);
  (55%N, set "id_aca_wlanSSID" (EBin OAdd (EName "id_aca") (ETuple [EInt 7])));
  (61%N, set "_certificateExtensionsMap" (EDict [(EName "id_pe_wlanSSID", new "SSIDList")]));
  (65%N, SExpr (call (EAttr (qual "rfc5280" "certificateExtensionsMap") "update") [EName "_certificateExtensionsMap"]));
  (71%N, set "_certificateAttributesMapUpdate" (EDict [(EName "id_aca_wlanSSID", new "SSIDList")]));
  (75%N, SExpr (call (EAttr (qual "rfc5280" "certificateAttributesMap") "update") [EName "_certificateAttributesMapUpdate"]))
].
