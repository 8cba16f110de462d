(** pyasn1_modules/rfc5915.py, printed by tools/py2coq.py.  Every statement is
    preceded by its line number in that file. *)
From Verif Require Import Py.Syntax.
From Coq Require Import List String ZArith NArith.
Import ListNotations.
Open Scope string_scope.
Open Scope Z_scope.

Definition src : module := [
  (13%N, SFrom "pyasn1.type" [("namedtype", "namedtype")]);
  (14%N, SFrom "pyasn1.type" [("namedval", "namedval")]);
  (15%N, SFrom "pyasn1.type" [("tag", "tag")]);
  (16%N, SFrom "pyasn1.type" [("univ", "univ")]);
  (18%N, SFrom "pyasn1_modules" [("rfc5480", "rfc5480")]);
  (21%N, SClass "ECPrivateKey" (univ "Sequence") [SPass]);
  (24%N, seta "ECPrivateKey" "componentType" (nts [nt "version" (ECall (univ "Integer") [] [("namedValues", nvs [nv "ecPrivkeyVer1" 1])]); nt "privateKey" (call0 (univ "OctetString")); ont "parameters" (explicit (call0 (qual "rfc5480" "ECParameters")) (ctxS 0)); ont "publicKey" (explicit (call0 (univ "BitString")) (ctxS 1))]))
].
