(** Generated by tools/scripts2coq.py from tools/snmpget.py. *)
From Coq Require Import List String ZArith.
From Verif Require Import Tools.ScriptLang.
Import ListNotations.
Open Scope string_scope.
Open Scope Z_scope.
Open Scope list_scope.

(** tools/snmpget.py *)
Definition snmpget_py : list ps :=
  [PImport "socket";
   PImport "sys";
   PFrom "pyasn1.codec.ber" ["decoder"];
   PFrom "pyasn1.codec.ber" ["encoder"];
   PFrom "pyasn1_modules" ["rfc1157"];
   PIf (XCmp "!=" (XCall (XName "len") [(XAttr (XName "sys") "argv")] []) (XInt 4))
     [PExpr (XCall (XName "print") [(XMod (XStr "Usage:
$ %s <community> <host> <OID>") (XSub (XAttr (XName "sys") "argv") (XInt 0)))] []);
      PExpr (XCall (XAttr (XName "sys") "exit") [(XNeg (XInt 1))] [])]
     [];
   PAssign ["msg"] (XCall (XAttr (XName "rfc1157") "Message") [] []);
   PExpr (XCall (XAttr (XName "msg") "setComponentByPosition") [(XInt 0)] []);
   PExpr (XCall (XAttr (XName "msg") "setComponentByPosition") [(XInt 1); (XSub (XAttr (XName "sys") "argv") (XInt 1))] []);
   PAssign ["pdus"] (XCall (XAttr (XCall (XAttr (XName "msg") "setComponentByPosition") [(XInt 2)] []) "getComponentByPosition") [(XInt 2)] []);
   PAssign ["pdu"] (XCall (XAttr (XCall (XAttr (XName "pdus") "setComponentByPosition") [(XInt 0)] []) "getComponentByPosition") [(XInt 0)] []);
   PExpr (XCall (XAttr (XName "pdu") "setComponentByPosition") [(XInt 0); (XInt 123)] []);
   PExpr (XCall (XAttr (XName "pdu") "setComponentByPosition") [(XInt 1); (XInt 0)] []);
   PExpr (XCall (XAttr (XName "pdu") "setComponentByPosition") [(XInt 2); (XInt 0)] []);
   PAssign ["vbl"] (XCall (XAttr (XCall (XAttr (XName "pdu") "setComponentByPosition") [(XInt 3)] []) "getComponentByPosition") [(XInt 3)] []);
   PAssign ["vb"] (XCall (XAttr (XCall (XAttr (XName "vbl") "setComponentByPosition") [(XInt 0)] []) "getComponentByPosition") [(XInt 0)] []);
   PExpr (XCall (XAttr (XName "vb") "setComponentByPosition") [(XInt 0); (XSub (XAttr (XName "sys") "argv") (XInt 3))] []);
   PAssign ["v"] (XCall (XAttr (XCall (XAttr (XCall (XAttr (XCall (XAttr (XCall (XAttr (XCall (XAttr (XName "vb") "setComponentByPosition") [(XInt 1)] []) "getComponentByPosition") [(XInt 1)] []) "setComponentByPosition") [(XInt 0)] []) "getComponentByPosition") [(XInt 0)] []) "setComponentByPosition") [(XInt 3)] []) "getComponentByPosition") [(XInt 3)] []);
   PExpr (XCall (XName "print") [(XMod (XStr "sending: %s") (XCall (XAttr (XName "msg") "prettyPrint") [] []))] []);
   PAssign ["sock"] (XCall (XAttr (XName "socket") "socket") [(XAttr (XName "socket") "AF_INET"); (XAttr (XName "socket") "SOCK_DGRAM")] []);
   PExpr (XCall (XAttr (XName "sock") "sendto") [(XCall (XAttr (XName "encoder") "encode") [(XName "msg")] []); (XTuple [(XSub (XAttr (XName "sys") "argv") (XInt 2)); (XInt 161)])] []);
   PAssign ["substrate"; "_"] (XCall (XAttr (XName "sock") "recvfrom") [(XInt 2048)] []);
   PAssign ["rMsg"; "_"] (XCall (XAttr (XName "decoder") "decode") [(XName "substrate")] [("asn1Spec", (XName "msg"))]);
   PExpr (XCall (XName "print") [(XMod (XStr "received: %s") (XCall (XAttr (XName "rMsg") "prettyPrint") [] []))] [])].
