(** pyasn1_modules/rfc3820.py, printed by tools/py2coq.py.  Every statement is
    preceded by its line number in that file. *)
From Verif Require Import Py.Syntax.
From Coq Require Import List String ZArith NArith.
Import ListNotations.
Open Scope string_scope.
Open Scope Z_scope.

Definition src : module := [
  (15%N, SFrom "pyasn1.type" [("namedtype", "namedtype")]);
  (16%N, SFrom "pyasn1.type" [("univ", "univ")]);
  (18%N, SFrom "pyasn1_modules" [("rfc5280", "rfc5280")]);
  (22%N, SClass "ProxyCertPathLengthConstraint" (univ "Integer") [SPass]);
  (26%N, SClass "ProxyPolicy" (univ "Sequence") [set "componentType" (nts [nt "policyLanguage" (call0 (univ "ObjectIdentifier")); ont "policy" (call0 (univ "OctetString"))])]);
  (33%N, SClass "ProxyCertInfoExtension" (univ "Sequence") [set "componentType" (nts [ont "pCPathLenConstraint" (new "ProxyCertPathLengthConstraint"); nt "proxyPolicy" (new "ProxyPolicy")])]);
  (41%N, set "id_pkix" (call (univ "ObjectIdentifier") [ETuple [EInt 1; EInt 3; EInt 6; EInt 1; EInt 5; EInt 5; EInt 7]]));
  (44%N, set "id_pe" (EBin OAdd (EName "id_pkix") (ETuple [EInt 1])));
  (46%N, set "id_pe_proxyCertInfo" (EBin OAdd (EName "id_pe") (ETuple [EInt 14])));
  (49%N, set "id_ppl" (EBin OAdd (EName "id_pkix") (ETuple [EInt 21])));
  (51%N, set "id_ppl_anyLanguage" (EBin OAdd (EName "id_ppl") (ETuple [EInt 0])));
  (53%N, set "id_ppl_inheritAll" (EBin OAdd (EName "id_ppl") (ETuple [EInt 1])));
  (55%N, set "id_ppl_independent" (EBin OAdd (EName "id_ppl") (ETuple [EInt 2])));
  (61%N, set "_certificateExtensionsMapUpdate" (EDict [(EName "id_pe_proxyCertInfo", new "ProxyCertInfoExtension")]));
  (65%N, SExpr (call (EAttr (qual "rfc5280" "certificateExtensionsMap") "update") [EName "_certificateExtensionsMapUpdate"]))
].
