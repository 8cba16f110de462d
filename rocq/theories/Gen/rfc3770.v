(** pyasn1_modules/rfc3770.py, printed by tools/py2coq.py.  Every statement is
    preceded by its line number in that file. *)
From Verif Require Import Py.Syntax.
From Coq Require Import List String ZArith NArith.
Import ListNotations.
Open Scope string_scope.
Open Scope Z_scope.

Definition src : module := [
  (17%N, SFrom "pyasn1.type" [("constraint", "constraint")]);
  (18%N, SFrom "pyasn1.type" [("univ", "univ")]);
  (20%N, SFrom "pyasn1_modules" [("rfc5280", "rfc5280")]);
  (23%N, set "MAX" (call (EName "float") [EStr "inf"]));
  (28%N, set "id_kp_eapOverLAN" (call (univ "ObjectIdentifier") [EStr "1.3.6.1.5.5.7.3.14"]));
  (30%N, set "id_kp_eapOverPPP" (call (univ "ObjectIdentifier") [EStr "1.3.6.1.5.5.7.3.13"]));
  (35%N, set "id_pe_wlanSSID" (call (univ "ObjectIdentifier") [EStr "1.3.6.1.5.5.7.1.13"]));
  (38%N, SClass "SSID" (univ "OctetString") [SPass]);
  (41%N, seta "SSID" "subtypeSpec" (sizec (EInt 1) (EInt 32)));
  (44%N, SClass "SSIDList" (univ "SequenceOf") [SPass]);
  (47%N, seta "SSIDList" "componentType" (new "SSID"));
  (48%N, seta "SSIDList" "subtypeSpec" (sizec (EInt 1) (EName "MAX")));
  (55%N, set "id_aca_wlanSSID" (call (univ "ObjectIdentifier") [EStr "1.3.6.1.5.5.7.10.7"]));
  (61%N, set "_certificateExtensionsMap" (EDict [(EName "id_pe_wlanSSID", new "SSIDList")]));
  (65%N, SExpr (call (EAttr (qual "rfc5280" "certificateExtensionsMap") "update") [EName "_certificateExtensionsMap"]));
  (71%N, set "_certificateAttributesMapUpdate" (EDict [(EName "id_aca_wlanSSID", new "SSIDList")]));
  (75%N, SExpr (call (EAttr (qual "rfc5280" "certificateAttributesMap") "update") [EName "_certificateAttributesMapUpdate"]))
].
