(** pyasn1_modules/rfc3412.py, printed by tools/py2coq.py.  Every statement is
    preceded by its line number in that file. *)
From Verif Require Import Py.Syntax.
From Coq Require Import List String ZArith NArith.
Import ListNotations.
Open Scope string_scope.
Open Scope Z_scope.

Definition src : module := [
  (12%N, SFrom "pyasn1.type" [("constraint", "constraint")]);
  (13%N, SFrom "pyasn1.type" [("namedtype", "namedtype")]);
  (14%N, SFrom "pyasn1.type" [("univ", "univ")]);
  (16%N, SFrom "pyasn1_modules" [("rfc1905", "rfc1905")]);
  (19%N, SClass "ScopedPDU" (univ "Sequence") [set "componentType" (nts [nt "contextEngineId" (call0 (univ "OctetString")); nt "contextName" (call0 (univ "OctetString")); nt "data" (call0 (qual "rfc1905" "PDUs"))])]);
  (27%N, SClass "ScopedPduData" (univ "Choice") [set "componentType" (nts [nt "plaintext" (new "ScopedPDU"); nt "encryptedPDU" (call0 (univ "OctetString"))])]);
  (34%N, SClass "HeaderData" (univ "Sequence") [set "componentType" (nts [nt "msgID" (withspec (call0 (univ "Integer")) (rangec (EInt 0) (EInt 2147483647))); nt "msgMaxSize" (withspec (call0 (univ "Integer")) (rangec (EInt 484) (EInt 2147483647))); nt "msgFlags" (withspec (call0 (univ "OctetString")) (sizec (EInt 1) (EInt 1))); nt "msgSecurityModel" (withspec (call0 (univ "Integer")) (rangec (EInt 1) (EInt 2147483647)))])]);
  (46%N, SClass "SNMPv3Message" (univ "Sequence") [set "componentType" (nts [nt "msgVersion" (withspec (call0 (univ "Integer")) (rangec (EInt 0) (EInt 2147483647))); nt "msgGlobalData" (new "HeaderData"); nt "msgSecurityParameters" (call0 (univ "OctetString")); nt "msgData" (new "ScopedPduData")])])
].
