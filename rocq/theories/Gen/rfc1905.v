(** pyasn1_modules/rfc1905.py, printed by tools/py2coq.py.  Every statement is
    preceded by its line number in that file. *)
From Verif Require Import Py.Syntax.
From Coq Require Import List String ZArith NArith.
Import ListNotations.
Open Scope string_scope.
Open Scope Z_scope.

Definition src : module := [
  (12%N, SFrom "pyasn1.type" [("constraint", "constraint")]);
  (13%N, SFrom "pyasn1.type" [("namedtype", "namedtype")]);
  (14%N, SFrom "pyasn1.type" [("namedval", "namedval")]);
  (15%N, SFrom "pyasn1.type" [("tag", "tag")]);
  (16%N, SFrom "pyasn1.type" [("univ", "univ")]);
  (18%N, SFrom "pyasn1_modules" [("rfc1902", "rfc1902")]);
  (20%N, set "max_bindings" (call (qual "rfc1902" "Integer") [EInt 2147483647]));
  (23%N, SClass "_BindValue" (univ "Choice") [set "componentType" (nts [nt "value" (call0 (qual "rfc1902" "ObjectSyntax")); nt "unSpecified" (call0 (univ "Null")); nt "noSuchObject" (implicit (call0 (univ "Null")) (ctxS 0)); nt "noSuchInstance" (implicit (call0 (univ "Null")) (ctxS 1)); nt "endOfMibView" (implicit (call0 (univ "Null")) (ctxS 2))])]);
  (36%N, SClass "VarBind" (univ "Sequence") [set "componentType" (nts [nt "name" (call0 (qual "rfc1902" "ObjectName")); nt "" (new "_BindValue")])]);
  (43%N, SClass "VarBindList" (univ "SequenceOf") [set "componentType" (new "VarBind"); set "sizeSpec" (EBin OAdd (EAttr (univ "SequenceOf") "sizeSpec") (sizec (EInt 0) (EName "max_bindings")))]);
  (50%N, SClass "PDU" (univ "Sequence") [set "componentType" (nts [nt "request-id" (call0 (qual "rfc1902" "Integer32")); nt "error-status" (ECall (univ "Integer") [] [("namedValues", nvs [nv "noError" 0; nv "tooBig" 1; nv "noSuchName" 2; nv "badValue" 3; nv "readOnly" 4; nv "genErr" 5; nv "noAccess" 6; nv "wrongType" 7; nv "wrongLength" 8; nv "wrongEncoding" 9; nv "wrongValue" 10; nv "noCreation" 11; nv "inconsistentValue" 12; nv "resourceUnavailable" 13; nv "commitFailed" 14; nv "undoFailed" 15; nv "authorizationError" 16; nv "notWritable" 17; nv "inconsistentName" 18])]); nt "error-index" (withspec (call0 (univ "Integer")) (rangec (EInt 0) (EName "max_bindings"))); nt "variable-bindings" (new "VarBindList")])]);
  (66%N, SClass "BulkPDU" (univ "Sequence") [set "componentType" (nts [nt "request-id" (call0 (qual "rfc1902" "Integer32")); nt "non-repeaters" (withspec (call0 (univ "Integer")) (rangec (EInt 0) (EName "max_bindings"))); nt "max-repetitions" (withspec (call0 (univ "Integer")) (rangec (EInt 0) (EName "max_bindings"))); nt "variable-bindings" (new "VarBindList")])]);
  (77%N, SClass "GetRequestPDU" (EName "PDU") [set "tagSet" (call (EAttr (qual "PDU" "tagSet") "tagImplicitly") [ctxC 0])]);
  (83%N, SClass "GetNextRequestPDU" (EName "PDU") [set "tagSet" (call (EAttr (qual "PDU" "tagSet") "tagImplicitly") [ctxC 1])]);
  (89%N, SClass "ResponsePDU" (EName "PDU") [set "tagSet" (call (EAttr (qual "PDU" "tagSet") "tagImplicitly") [ctxC 2])]);
  (95%N, SClass "SetRequestPDU" (EName "PDU") [set "tagSet" (call (EAttr (qual "PDU" "tagSet") "tagImplicitly") [ctxC 3])]);
  (101%N, SClass "GetBulkRequestPDU" (EName "BulkPDU") [set "tagSet" (call (EAttr (qual "PDU" "tagSet") "tagImplicitly") [ctxC 5])]);
  (107%N, SClass "InformRequestPDU" (EName "PDU") [set "tagSet" (call (EAttr (qual "PDU" "tagSet") "tagImplicitly") [ctxC 6])]);
  (113%N, SClass "SNMPv2TrapPDU" (EName "PDU") [set "tagSet" (call (EAttr (qual "PDU" "tagSet") "tagImplicitly") [ctxC 7])]);
  (119%N, SClass "ReportPDU" (EName "PDU") [set "tagSet" (call (EAttr (qual "PDU" "tagSet") "tagImplicitly") [ctxC 8])]);
  (125%N, SClass "PDUs" (univ "Choice") [set "componentType" (nts [nt "get-request" (new "GetRequestPDU"); nt "get-next-request" (new "GetNextRequestPDU"); nt "get-bulk-request" (new "GetBulkRequestPDU"); nt "response" (new "ResponsePDU"); nt "set-request" (new "SetRequestPDU"); nt "inform-request" (new "InformRequestPDU"); nt "snmpV2-trap" (new "SNMPv2TrapPDU"); nt "report" (new "ReportPDU")])])
].
