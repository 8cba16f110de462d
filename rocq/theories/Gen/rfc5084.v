(** pyasn1_modules/rfc5084.py, printed by tools/py2coq.py.  Every statement is
    preceded by its line number in that file. *)
From Verif Require Import Py.Syntax.
From Coq Require Import List String ZArith NArith.
Import ListNotations.
Open Scope string_scope.
Open Scope Z_scope.

Definition src : module := [
  (15%N, SFrom "pyasn1.type" [("constraint", "constraint")]);
  (16%N, SFrom "pyasn1.type" [("namedtype", "namedtype")]);
  (17%N, SFrom "pyasn1.type" [("univ", "univ")]);
  (19%N, SFrom "pyasn1_modules" [("rfc5280", "rfc5280")]);
  (22%N, SDef "_OID" [] (Some "components") [set "output" (EList []); SFor "x" (call (EName "tuple") [EName "components"]) [SIf (call (EName "isinstance") [EName "x"; univ "ObjectIdentifier"]) [SExpr (call (qual "output" "extend") [call (EName "list") [EName "x"]])] [SExpr (call (qual "output" "append") [call (EName "int") [EName "x"]])]]; SReturn (call (univ "ObjectIdentifier") [EName "output"])]);
  (33%N, SClass "AES_CCM_ICVlen" (univ "Integer") [SPass]);
  (37%N, SClass "AES_GCM_ICVlen" (univ "Integer") [SPass]);
  (41%N, seta "AES_CCM_ICVlen" "subtypeSpec" (call (qual "constraint" "SingleValueConstraint") [EInt 4; EInt 6; EInt 8; EInt 10; EInt 12; EInt 14; EInt 16]));
  (43%N, seta "AES_GCM_ICVlen" "subtypeSpec" (rangec (EInt 12) (EInt 16)));
  (46%N, SClass "CCMParameters" (univ "Sequence") [SPass]);
  (50%N, seta "CCMParameters" "componentType" (nts [nt "aes-nonce" (withspec (call0 (univ "OctetString")) (sizec (EInt 7) (EInt 13))); dnt "aes-ICVlen" (withvalue (new "AES_CCM_ICVlen") (EInt 12))]));
  (58%N, SClass "GCMParameters" (univ "Sequence") [SPass]);
  (62%N, seta "GCMParameters" "componentType" (nts [nt "aes-nonce" (call0 (univ "OctetString")); dnt "aes-ICVlen" (withvalue (new "AES_GCM_ICVlen") (EInt 12))]));
  (70%N, set "aes" (call (EName "_OID") [EInt 2; EInt 16; EInt 840; EInt 1; EInt 101; EInt 3; EInt 4; EInt 1]));
  (72%N, set "id_aes128_CCM" (call (EName "_OID") [EName "aes"; EInt 7]));
  (74%N, set "id_aes128_GCM" (call (EName "_OID") [EName "aes"; EInt 6]));
  (76%N, set "id_aes192_CCM" (call (EName "_OID") [EName "aes"; EInt 27]));
  (78%N, set "id_aes192_GCM" (call (EName "_OID") [EName "aes"; EInt 26]));
  (80%N, set "id_aes256_CCM" (call (EName "_OID") [EName "aes"; EInt 47]));
  (82%N, set "id_aes256_GCM" (call (EName "_OID") [EName "aes"; EInt 46]));
  (88%N, set "_algorithmIdentifierMapUpdate" (EDict [(EName "id_aes128_CCM", new "CCMParameters"); (EName "id_aes128_GCM", new "GCMParameters"); (EName "id_aes192_CCM", new "CCMParameters"); (EName "id_aes192_GCM", new "GCMParameters"); (EName "id_aes256_CCM", new "CCMParameters"); (EName "id_aes256_GCM", new "GCMParameters")]));
  (97%N, SExpr (call (EAttr (qual "rfc5280" "algorithmIdentifierMap") "update") [EName "_algorithmIdentifierMapUpdate"]))
].
