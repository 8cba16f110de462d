(** pyasn1_modules/rfc8702.py, printed by tools/py2coq.py.  Every statement is
    preceded by its line number in that file. *)
From Verif Require Import Py.Syntax.
From Coq Require Import List String ZArith NArith.
Import ListNotations.
Open Scope string_scope.
Open Scope Z_scope.

Definition src : module := [
  (14%N, SFrom "pyasn1.type" [("namedtype", "namedtype")]);
  (15%N, SFrom "pyasn1.type" [("tag", "tag")]);
  (16%N, SFrom "pyasn1.type" [("univ", "univ")]);
  (18%N, SFrom "pyasn1_modules" [("rfc5280", "rfc5280")]);
  (19%N, SFrom "pyasn1_modules" [("rfc8692", "rfc8692")]);
  (24%N, set "AlgorithmIdentifier" (qual "rfc5280" "AlgorithmIdentifier"));
  (29%N, set "id_shake128" (qual "rfc8692" "id_shake128"));
  (31%N, set "mda_shake128" (qual "rfc8692" "mda_shake128"));
  (33%N, set "id_shake256" (qual "rfc8692" "id_shake256"));
  (35%N, set "mda_shake256" (qual "rfc8692" "mda_shake256"));
  (37%N, set "id_RSASSA_PSS_SHAKE128" (qual "rfc8692" "id_RSASSA_PSS_SHAKE128"));
  (39%N, set "sa_rSASSA_PSS_SHAKE128" (qual "rfc8692" "sa_rSASSA_PSS_SHAKE128"));
  (41%N, set "pk_rsaSSA_PSS_SHAKE128" (qual "rfc8692" "pk_rsaSSA_PSS_SHAKE128"));
  (43%N, set "id_RSASSA_PSS_SHAKE256" (qual "rfc8692" "id_RSASSA_PSS_SHAKE256"));
  (45%N, set "sa_rSASSA_PSS_SHAKE256" (qual "rfc8692" "sa_rSASSA_PSS_SHAKE256"));
  (47%N, set "pk_rsaSSA_PSS_SHAKE256" (qual "rfc8692" "pk_rsaSSA_PSS_SHAKE256"));
  (49%N, set "id_ecdsa_with_shake128" (qual "rfc8692" "id_ecdsa_with_shake128"));
  (51%N, set "sa_ecdsa_with_shake128" (qual "rfc8692" "sa_ecdsa_with_shake128"));
  (53%N, set "id_ecdsa_with_shake256" (qual "rfc8692" "id_ecdsa_with_shake256"));
  (55%N, set "sa_ecdsa_with_shake256" (qual "rfc8692" "sa_ecdsa_with_shake256"));
  (57%N, set "pk_ec" (qual "rfc8692" "pk_ec"));
  (62%N, set "id_KMACWithSHAKE128" (call (univ "ObjectIdentifier") [EStr "2.16.840.1.101.3.4.2.19"]));
  (65%N, SClass "KMACwithSHAKE128_params" (univ "Sequence") [set "componentType" (nts [dnt "kMACOutputLength" (withvalue (call0 (univ "Integer")) (EInt 256)); dnt "customizationString" (withvalue (call0 (univ "OctetString")) (EStr ""))])]);
  (74%N, set "maca_KMACwithSHAKE128" (new "AlgorithmIdentifier"));
  (75%N, SAssign [ESub (EName "maca_KMACwithSHAKE128") (EStr "algorithm")] (EName "id_KMACWithSHAKE128"));
  (76%N, SAssign [ESub (EName "maca_KMACwithSHAKE128") (EStr "parameters")] (new "KMACwithSHAKE128_params"));
  (81%N, set "id_KMACWithSHAKE256" (call (univ "ObjectIdentifier") [EStr "2.16.840.1.101.3.4.2.20"]));
  (84%N, SClass "KMACwithSHAKE256_params" (univ "Sequence") [set "componentType" (nts [dnt "kMACOutputLength" (withvalue (call0 (univ "Integer")) (EInt 512)); dnt "customizationString" (withvalue (call0 (univ "OctetString")) (EStr ""))])]);
  (93%N, set "maca_KMACwithSHAKE256" (new "AlgorithmIdentifier"));
  (94%N, SAssign [ESub (EName "maca_KMACwithSHAKE256") (EStr "algorithm")] (EName "id_KMACWithSHAKE256"));
  (95%N, SAssign [ESub (EName "maca_KMACwithSHAKE256") (EStr "parameters")] (new "KMACwithSHAKE256_params"));
  (100%N, set "_algorithmIdentifierMapUpdate" (EDict [(EName "id_KMACWithSHAKE128", new "KMACwithSHAKE128_params"); (EName "id_KMACWithSHAKE256", new "KMACwithSHAKE256_params")]));
  (105%N, SExpr (call (EAttr (qual "rfc5280" "algorithmIdentifierMap") "update") [EName "_algorithmIdentifierMapUpdate"]))
].
