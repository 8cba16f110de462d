(** pyasn1_modules/rfc3414.py, printed by tools/py2coq.py.  Every statement is
    preceded by its line number in that file. *)
From Verif Require Import Py.Syntax.
From Coq Require Import List String ZArith NArith.
Import ListNotations.
Open Scope string_scope.
Open Scope Z_scope.

Definition src : module := [
  (12%N, SFrom "pyasn1.type" [("constraint", "constraint")]);
  (13%N, SFrom "pyasn1.type" [("namedtype", "namedtype")]);
  (14%N, SFrom "pyasn1.type" [("univ", "univ")]);
  (17%N, SClass "UsmSecurityParameters" (univ "Sequence") [set "componentType" (nts [nt "msgAuthoritativeEngineID" (call0 (univ "OctetString")); nt "msgAuthoritativeEngineBoots" (withspec (call0 (univ "Integer")) (rangec (EInt 0) (EInt 2147483647))); nt "msgAuthoritativeEngineTime" (withspec (call0 (univ "Integer")) (rangec (EInt 0) (EInt 2147483647))); nt "msgUserName" (withspec (call0 (univ "OctetString")) (sizec (EInt 0) (EInt 32))); nt "msgAuthenticationParameters" (call0 (univ "OctetString")); nt "msgPrivacyParameters" (call0 (univ "OctetString"))])])
].
