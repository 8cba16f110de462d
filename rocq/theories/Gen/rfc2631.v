(** pyasn1_modules/rfc2631.py, printed by tools/py2coq.py.  Every statement is
    preceded by its line number in that file. *)
From Verif Require Import Py.Syntax.
From Coq Require Import List String ZArith NArith.
Import ListNotations.
Open Scope string_scope.
Open Scope Z_scope.

Definition src : module := [
  (16%N, SFrom "pyasn1.type" [("constraint", "constraint")]);
  (17%N, SFrom "pyasn1.type" [("namedtype", "namedtype")]);
  (18%N, SFrom "pyasn1.type" [("tag", "tag")]);
  (19%N, SFrom "pyasn1.type" [("univ", "univ")]);
  (22%N, SClass "KeySpecificInfo" (univ "Sequence") [set "componentType" (nts [nt "algorithm" (call0 (univ "ObjectIdentifier")); nt "counter" (withspec (call0 (univ "OctetString")) (sizec (EInt 4) (EInt 4)))])]);
  (30%N, SClass "OtherInfo" (univ "Sequence") [set "componentType" (nts [nt "keyInfo" (new "KeySpecificInfo"); ont "partyAInfo" (explicit (call0 (univ "OctetString")) (ctxS 0)); nt "suppPubInfo" (explicit (call0 (univ "OctetString")) (ctxS 2))])])
].
