(** pyasn1_modules/rfc2876.py, printed by tools/py2coq.py.  Every statement is
    preceded by its line number in that file. *)
From Verif Require Import Py.Syntax.
From Coq Require Import List String ZArith NArith.
Import ListNotations.
Open Scope string_scope.
Open Scope Z_scope.

Definition src : module := [
  (15%N, SFrom "pyasn1.type" [("namedtype", "namedtype")]);
  (16%N, SFrom "pyasn1.type" [("univ", "univ")]);
  (18%N, SFrom "pyasn1_modules" [("rfc5280", "rfc5280")]);
  (19%N, SFrom "pyasn1_modules" [("rfc5751", "rfc5751")]);
  (22%N, set "id_fortezzaConfidentialityAlgorithm" (call (univ "ObjectIdentifier") [EStr "2.16.840.1.101.2.1.1.4"]));
  (25%N, set "id_fortezzaWrap80" (call (univ "ObjectIdentifier") [EStr "2.16.840.1.101.2.1.1.23"]));
  (28%N, set "id_kEAKeyEncryptionAlgorithm" (call (univ "ObjectIdentifier") [EStr "2.16.840.1.101.2.1.1.24"]));
  (31%N, set "id_keyExchangeAlgorithm" (call (univ "ObjectIdentifier") [EStr "2.16.840.1.101.2.1.1.22"]));
  (34%N, SClass "Skipjack_Parm" (univ "Sequence") [set "componentType" (nts [nt "initialization-vector" (call0 (univ "OctetString"))])]);
  (42%N, set "_algorithmIdentifierMapUpdate" (EDict [(EName "id_fortezzaConfidentialityAlgorithm", new "Skipjack_Parm"); (EName "id_kEAKeyEncryptionAlgorithm", call0 (qual "rfc5280" "AlgorithmIdentifier"))]));
  (47%N, SExpr (call (EAttr (qual "rfc5280" "algorithmIdentifierMap") "update") [EName "_algorithmIdentifierMapUpdate"]));
  (52%N, set "_smimeCapabilityMapUpdate" (EDict [(EName "id_kEAKeyEncryptionAlgorithm", call0 (qual "rfc5280" "AlgorithmIdentifier"))]));
  (56%N, SExpr (call (EAttr (qual "rfc5751" "smimeCapabilityMap") "update") [EName "_smimeCapabilityMapUpdate"]))
].
