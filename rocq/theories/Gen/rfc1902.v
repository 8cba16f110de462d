(** pyasn1_modules/rfc1902.py, printed by tools/py2coq.py.  Every statement is
    preceded by its line number in that file. *)
From Verif Require Import Py.Syntax.
From Coq Require Import List String ZArith NArith.
Import ListNotations.
Open Scope string_scope.
Open Scope Z_scope.

Definition src : module := [
  (12%N, SFrom "pyasn1.type" [("constraint", "constraint")]);
  (13%N, SFrom "pyasn1.type" [("namedtype", "namedtype")]);
  (14%N, SFrom "pyasn1.type" [("tag", "tag")]);
  (15%N, SFrom "pyasn1.type" [("univ", "univ")]);
  (18%N, SClass "Integer" (univ "Integer") [set "subtypeSpec" (EBin OAdd (EAttr (univ "Integer") "subtypeSpec") (rangec (ENeg (EInt 2147483648)) (EInt 2147483647)))]);
  (24%N, SClass "Integer32" (univ "Integer") [set "subtypeSpec" (EBin OAdd (EAttr (univ "Integer") "subtypeSpec") (rangec (ENeg (EInt 2147483648)) (EInt 2147483647)))]);
  (30%N, SClass "OctetString" (univ "OctetString") [set "subtypeSpec" (EBin OAdd (EAttr (univ "Integer") "subtypeSpec") (sizec (EInt 0) (EInt 65535)))]);
  (36%N, SClass "IpAddress" (univ "OctetString") [set "tagSet" (call (EAttr (EAttr (univ "OctetString") "tagSet") "tagImplicitly") [appS 0]); set "subtypeSpec" (EBin OAdd (EAttr (univ "OctetString") "subtypeSpec") (sizec (EInt 4) (EInt 4)))]);
  (45%N, SClass "Counter32" (univ "Integer") [set "tagSet" (call (EAttr (EAttr (univ "Integer") "tagSet") "tagImplicitly") [appS 1]); set "subtypeSpec" (EBin OAdd (EAttr (univ "Integer") "subtypeSpec") (rangec (EInt 0) (EInt 4294967295)))]);
  (54%N, SClass "Gauge32" (univ "Integer") [set "tagSet" (call (EAttr (EAttr (univ "Integer") "tagSet") "tagImplicitly") [appS 2]); set "subtypeSpec" (EBin OAdd (EAttr (univ "Integer") "subtypeSpec") (rangec (EInt 0) (EInt 4294967295)))]);
  (63%N, SClass "Unsigned32" (univ "Integer") [set "tagSet" (call (EAttr (EAttr (univ "Integer") "tagSet") "tagImplicitly") [appS 2]); set "subtypeSpec" (EBin OAdd (EAttr (univ "Integer") "subtypeSpec") (rangec (EInt 0) (EInt 4294967295)))]);
  (72%N, SClass "TimeTicks" (univ "Integer") [set "tagSet" (call (EAttr (EAttr (univ "Integer") "tagSet") "tagImplicitly") [appS 3]); set "subtypeSpec" (EBin OAdd (EAttr (univ "Integer") "subtypeSpec") (rangec (EInt 0) (EInt 4294967295)))]);
  (81%N, SClass "Opaque" (univ "OctetString") [set "tagSet" (call (EAttr (EAttr (univ "OctetString") "tagSet") "tagImplicitly") [appS 4])]);
  (87%N, SClass "Counter64" (univ "Integer") [set "tagSet" (call (EAttr (EAttr (univ "Integer") "tagSet") "tagImplicitly") [appS 6]); set "subtypeSpec" (EBin OAdd (EAttr (univ "Integer") "subtypeSpec") (rangec (EInt 0) (EInt 18446744073709551615)))]);
  (96%N, SClass "Bits" (univ "OctetString") [SPass]);
  (100%N, SClass "ObjectName" (univ "ObjectIdentifier") [SPass]);
  (104%N, SClass "SimpleSyntax" (univ "Choice") [set "componentType" (nts [nt "integer-value" (new "Integer"); nt "string-value" (new "OctetString"); nt "objectID-value" (call0 (univ "ObjectIdentifier"))])]);
  (112%N, SClass "ApplicationSyntax" (univ "Choice") [set "componentType" (nts [nt "ipAddress-value" (new "IpAddress"); nt "counter-value" (new "Counter32"); nt "timeticks-value" (new "TimeTicks"); nt "arbitrary-value" (new "Opaque"); nt "big-counter-value" (new "Counter64"); nt "gauge32-value" (new "Gauge32")])]);
  (125%N, SClass "ObjectSyntax" (univ "Choice") [set "componentType" (nts [nt "simple" (new "SimpleSyntax"); nt "application-wide" (new "ApplicationSyntax")])])
].
