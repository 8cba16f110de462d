(** pyasn1_modules/rfc1155.py, printed by tools/py2coq.py.  Every statement is
    preceded by its line number in that file. *)
From Verif Require Import Py.Syntax.
From Coq Require Import List String ZArith NArith.
Import ListNotations.
Open Scope string_scope.
Open Scope Z_scope.

Definition src : module := [
  (15%N, SFrom "pyasn1.type" [("constraint", "constraint")]);
  (16%N, SFrom "pyasn1.type" [("namedtype", "namedtype")]);
  (17%N, SFrom "pyasn1.type" [("tag", "tag")]);
  (18%N, SFrom "pyasn1.type" [("univ", "univ")]);
  (21%N, SClass "ObjectName" (univ "ObjectIdentifier") [SPass]);
  (25%N, SClass "SimpleSyntax" (univ "Choice") [set "componentType" (nts [nt "number" (call0 (univ "Integer")); nt "string" (call0 (univ "OctetString")); nt "object" (call0 (univ "ObjectIdentifier")); nt "empty" (call0 (univ "Null"))])]);
  (34%N, SClass "IpAddress" (univ "OctetString") [set "tagSet" (call (EAttr (EAttr (univ "OctetString") "tagSet") "tagImplicitly") [appS 0]); set "subtypeSpec" (EBin OAdd (EAttr (univ "Integer") "subtypeSpec") (sizec (EInt 4) (EInt 4)))]);
  (43%N, SClass "NetworkAddress" (univ "Choice") [set "componentType" (nts [nt "internet" (new "IpAddress")])]);
  (49%N, SClass "Counter" (univ "Integer") [set "tagSet" (call (EAttr (EAttr (univ "Integer") "tagSet") "tagImplicitly") [appS 1]); set "subtypeSpec" (EBin OAdd (EAttr (univ "Integer") "subtypeSpec") (rangec (EInt 0) (EInt 4294967295)))]);
  (58%N, SClass "Gauge" (univ "Integer") [set "tagSet" (call (EAttr (EAttr (univ "Integer") "tagSet") "tagImplicitly") [appS 2]); set "subtypeSpec" (EBin OAdd (EAttr (univ "Integer") "subtypeSpec") (rangec (EInt 0) (EInt 4294967295)))]);
  (67%N, SClass "TimeTicks" (univ "Integer") [set "tagSet" (call (EAttr (EAttr (univ "Integer") "tagSet") "tagImplicitly") [appS 3]); set "subtypeSpec" (EBin OAdd (EAttr (univ "Integer") "subtypeSpec") (rangec (EInt 0) (EInt 4294967295)))]);
  (76%N, SClass "Opaque" (univ "OctetString") [set "tagSet" (call (EAttr (EAttr (univ "OctetString") "tagSet") "tagImplicitly") [appS 4])]);
  (82%N, SClass "ApplicationSyntax" (univ "Choice") [set "componentType" (nts [nt "address" (new "NetworkAddress"); nt "counter" (new "Counter"); nt "gauge" (new "Gauge"); nt "ticks" (new "TimeTicks"); nt "arbitrary" (new "Opaque")])]);
  (92%N, SClass "ObjectSyntax" (univ "Choice") [set "componentType" (nts [nt "simple" (new "SimpleSyntax"); nt "application-wide" (new "ApplicationSyntax")])])
].
