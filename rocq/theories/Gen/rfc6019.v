(** pyasn1_modules/rfc6019.py, printed by tools/py2coq.py.  Every statement is
    preceded by its line number in that file. *)
From Verif Require Import Py.Syntax.
From Coq Require Import List String ZArith NArith.
Import ListNotations.
Open Scope string_scope.
Open Scope Z_scope.

Definition src : module := [
  (14%N, SFrom "pyasn1.type" [("constraint", "constraint")]);
  (15%N, SFrom "pyasn1.type" [("univ", "univ")]);
  (17%N, SFrom "pyasn1_modules" [("rfc5652", "rfc5652")]);
  (19%N, set "MAX" (call (EName "float") [EStr "inf"]));
  (24%N, SClass "BinaryTime" (univ "Integer") [SPass]);
  (27%N, seta "BinaryTime" "subtypeSpec" (rangec (EInt 0) (EName "MAX")));
  (32%N, set "id_aa_binarySigningTime" (call (univ "ObjectIdentifier") [EStr "1.2.840.113549.1.9.16.2.46"]));
  (34%N, SClass "BinarySigningTime" (EName "BinaryTime") [SPass]);
  (41%N, set "_cmsAttributesMapUpdate" (EDict [(EName "id_aa_binarySigningTime", new "BinarySigningTime")]));
  (45%N, SExpr (call (EAttr (qual "rfc5652" "cmsAttributesMap") "update") [EName "_cmsAttributesMapUpdate"]))
].
