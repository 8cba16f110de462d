(** pyasn1_modules/rfc4683.py, printed by tools/py2coq.py.  Every statement is
    preceded by its line number in that file. *)
From Verif Require Import Py.Syntax.
From Coq Require Import List String ZArith NArith.
Import ListNotations.
Open Scope string_scope.
Open Scope Z_scope.

Definition src : module := [
  (16%N, SFrom "pyasn1.type" [("char", "char")]);
  (17%N, SFrom "pyasn1.type" [("namedtype", "namedtype")]);
  (18%N, SFrom "pyasn1.type" [("univ", "univ")]);
  (20%N, SFrom "pyasn1_modules" [("rfc5280", "rfc5280")]);
  (25%N, SClass "HashContent" (univ "Sequence") [set "componentType" (nts [nt "userPassword" (call0 (chr "UTF8String")); nt "authorityRandom" (call0 (univ "OctetString")); nt "identifierType" (call0 (univ "ObjectIdentifier")); nt "identifier" (call0 (chr "UTF8String"))])]);
  (36%N, set "id_pkix" (qual "rfc5280" "id_pkix"));
  (38%N, set "id_on" (EBin OAdd (EName "id_pkix") (ETuple [EInt 8])));
  (40%N, set "id_on_SIM" (EBin OAdd (EName "id_on") (ETuple [EInt 6])));
  (43%N, SClass "SIM" (univ "Sequence") [set "componentType" (nts [nt "hashAlg" (call0 (qual "rfc5280" "AlgorithmIdentifier")); nt "authorityRandom" (call0 (univ "OctetString")); nt "pEPSI" (call0 (univ "OctetString"))])]);
  (53%N, set "id_pkip" (EBin OAdd (EName "id_pkix") (ETuple [EInt 5])));
  (55%N, set "id_regEPEPSI" (EBin OAdd (EName "id_pkip") (ETuple [EInt 3])));
  (58%N, SClass "EncryptedPEPSI" (univ "Sequence") [set "componentType" (nts [nt "identifierType" (call0 (univ "ObjectIdentifier")); nt "identifier" (call0 (chr "UTF8String")); nt "sIM" (new "SIM")])]);
  (68%N, set "_anotherNameMapUpdate" (EDict [(EName "id_on_SIM", new "SIM")]));
  (72%N, SExpr (call (EAttr (qual "rfc5280" "anotherNameMap") "update") [EName "_anotherNameMapUpdate"]))
].
