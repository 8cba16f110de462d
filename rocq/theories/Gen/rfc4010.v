(** pyasn1_modules/rfc4010.py, printed by tools/py2coq.py.  Every statement is
    preceded by its line number in that file. *)
From Verif Require Import Py.Syntax.
From Coq Require Import List String ZArith NArith.
Import ListNotations.
Open Scope string_scope.
Open Scope Z_scope.

Definition src : module := [
  (15%N, SFrom "pyasn1.type" [("constraint", "constraint")]);
  (16%N, SFrom "pyasn1.type" [("univ", "univ")]);
  (18%N, SFrom "pyasn1_modules" [("rfc5280", "rfc5280")]);
  (19%N, SFrom "pyasn1_modules" [("rfc5751", "rfc5751")]);
  (22%N, set "id_seedCBC" (call (univ "ObjectIdentifier") [EStr "1.2.410.200004.1.4"]));
  (25%N, set "id_npki_app_cmsSeed_wrap" (call (univ "ObjectIdentifier") [EStr "1.2.410.200004.7.1.1.1"]));
  (28%N, SClass "SeedIV" (univ "OctetString") [set "subtypeSpec" (sizec (EInt 16) (EInt 16))]);
  (32%N, SClass "SeedCBCParameter" (EName "SeedIV") [SPass]);
  (36%N, SClass "SeedSMimeCapability" (univ "Null") [SPass]);
  (42%N, set "_algorithmIdentifierMapUpdate" (EDict [(EName "id_seedCBC", new "SeedCBCParameter"); (EName "id_npki_app_cmsSeed_wrap", call (univ "Null") [EStr ""])]));
  (47%N, SExpr (call (EAttr (qual "rfc5280" "algorithmIdentifierMap") "update") [EName "_algorithmIdentifierMapUpdate"]));
  (52%N, set "_smimeCapabilityMapUpdate" (EDict [(EName "id_seedCBC", new "SeedSMimeCapability"); (EName "id_npki_app_cmsSeed_wrap", new "SeedSMimeCapability")]));
  (58%N, SExpr (call (EAttr (qual "rfc5751" "smimeCapabilityMap") "update") [EName "_smimeCapabilityMapUpdate"]))
].
