(** pyasn1_modules/rfc7914.py, printed by tools/py2coq.py.  Every statement is
    preceded by its line number in that file. *)
From Verif Require Import Py.Syntax.
From Coq Require Import List String ZArith NArith.
Import ListNotations.
Open Scope string_scope.
Open Scope Z_scope.

Definition src : module := [
  (16%N, SFrom "pyasn1.type" [("constraint", "constraint")]);
  (17%N, SFrom "pyasn1.type" [("namedtype", "namedtype")]);
  (18%N, SFrom "pyasn1.type" [("univ", "univ")]);
  (20%N, SFrom "pyasn1_modules" [("rfc5280", "rfc5280")]);
  (22%N, set "MAX" (call (EName "float") [EStr "inf"]));
  (25%N, set "id_scrypt" (call (univ "ObjectIdentifier") [EStr "1.3.6.1.4.1.11591.4.11"]));
  (28%N, SClass "Scrypt_params" (univ "Sequence") [set "componentType" (nts [nt "salt" (call0 (univ "OctetString")); nt "costParameter" (withspec (call0 (univ "Integer")) (rangec (EInt 1) (EName "MAX"))); nt "blockSize" (withspec (call0 (univ "Integer")) (rangec (EInt 1) (EName "MAX"))); nt "parallelizationParameter" (withspec (call0 (univ "Integer")) (rangec (EInt 1) (EName "MAX"))); ont "keyLength" (withspec (call0 (univ "Integer")) (rangec (EInt 1) (EName "MAX")))])]);
  (45%N, set "_algorithmIdentifierMapUpdate" (EDict [(EName "id_scrypt", new "Scrypt_params")]));
  (49%N, SExpr (call (EAttr (qual "rfc5280" "algorithmIdentifierMap") "update") [EName "_algorithmIdentifierMapUpdate"]))
].
