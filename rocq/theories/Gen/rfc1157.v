(** pyasn1_modules/rfc1157.py, printed by tools/py2coq.py.  Every statement is
    preceded by its line number in that file. *)
From Verif Require Import Py.Syntax.
From Coq Require Import List String ZArith NArith.
Import ListNotations.
Open Scope string_scope.
Open Scope Z_scope.

Definition src : module := [
  (15%N, SFrom "pyasn1.type" [("namedtype", "namedtype")]);
  (16%N, SFrom "pyasn1.type" [("namedval", "namedval")]);
  (17%N, SFrom "pyasn1.type" [("tag", "tag")]);
  (18%N, SFrom "pyasn1.type" [("univ", "univ")]);
  (20%N, SFrom "pyasn1_modules" [("rfc1155", "rfc1155")]);
  (23%N, SClass "Version" (univ "Integer") [set "namedValues" (nvs [nv "version-1" 0]); set "defaultValue" (EInt 0)]);
  (30%N, SClass "Community" (univ "OctetString") [SPass]);
  (34%N, SClass "RequestID" (univ "Integer") [SPass]);
  (38%N, SClass "ErrorStatus" (univ "Integer") [set "namedValues" (nvs [nv "noError" 0; nv "tooBig" 1; nv "noSuchName" 2; nv "badValue" 3; nv "readOnly" 4; nv "genErr" 5])]);
  (49%N, SClass "ErrorIndex" (univ "Integer") [SPass]);
  (53%N, SClass "VarBind" (univ "Sequence") [set "componentType" (nts [nt "name" (call0 (qual "rfc1155" "ObjectName")); nt "value" (call0 (qual "rfc1155" "ObjectSyntax"))])]);
  (60%N, SClass "VarBindList" (univ "SequenceOf") [set "componentType" (new "VarBind")]);
  (64%N, SClass "_RequestBase" (univ "Sequence") [set "componentType" (nts [nt "request-id" (new "RequestID"); nt "error-status" (new "ErrorStatus"); nt "error-index" (new "ErrorIndex"); nt "variable-bindings" (new "VarBindList")])]);
  (73%N, SClass "GetRequestPDU" (EName "_RequestBase") [set "tagSet" (call (EAttr (qual "_RequestBase" "tagSet") "tagImplicitly") [ctxC 0])]);
  (79%N, SClass "GetNextRequestPDU" (EName "_RequestBase") [set "tagSet" (call (EAttr (qual "_RequestBase" "tagSet") "tagImplicitly") [ctxC 1])]);
  (85%N, SClass "GetResponsePDU" (EName "_RequestBase") [set "tagSet" (call (EAttr (qual "_RequestBase" "tagSet") "tagImplicitly") [ctxC 2])]);
  (91%N, SClass "SetRequestPDU" (EName "_RequestBase") [set "tagSet" (call (EAttr (qual "_RequestBase" "tagSet") "tagImplicitly") [ctxC 3])]);
  (97%N, SClass "TrapPDU" (univ "Sequence") [set "componentType" (nts [nt "enterprise" (call0 (univ "ObjectIdentifier")); nt "agent-addr" (call0 (qual "rfc1155" "NetworkAddress")); nt "generic-trap" (ECall (EAttr (call0 (univ "Integer")) "clone") [] [("namedValues", nvs [nv "coldStart" 0; nv "warmStart" 1; nv "linkDown" 2; nv "linkUp" 3; nv "authenticationFailure" 4; nv "egpNeighborLoss" 5; nv "enterpriseSpecific" 6])]); nt "specific-trap" (call0 (univ "Integer")); nt "time-stamp" (call0 (qual "rfc1155" "TimeTicks")); nt "variable-bindings" (new "VarBindList")])]);
  (111%N, SClass "Pdus" (univ "Choice") [set "componentType" (nts [nt "get-request" (new "GetRequestPDU"); nt "get-next-request" (new "GetNextRequestPDU"); nt "get-response" (new "GetResponsePDU"); nt "set-request" (new "SetRequestPDU"); nt "trap" (new "TrapPDU")])]);
  (121%N, SClass "Message" (univ "Sequence") [set "componentType" (nts [nt "version" (new "Version"); nt "community" (new "Community"); nt "data" (new "Pdus")])])
].
