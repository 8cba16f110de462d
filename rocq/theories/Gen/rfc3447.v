(** pyasn1_modules/rfc3447.py, printed by tools/py2coq.py.  Every statement is
    preceded by its line number in that file. *)
From Verif Require Import Py.Syntax.
From Coq Require Import List String ZArith NArith.
Import ListNotations.
Open Scope string_scope.
Open Scope Z_scope.

Definition src : module := [
  (14%N, SFrom "pyasn1.type" [("constraint", "constraint")]);
  (15%N, SFrom "pyasn1.type" [("namedval", "namedval")]);
  (17%N, SFromStar "pyasn1_modules.rfc2437");
  (20%N, SClass "OtherPrimeInfo" (univ "Sequence") [set "componentType" (nts [nt "prime" (call0 (univ "Integer")); nt "exponent" (call0 (univ "Integer")); nt "coefficient" (call0 (univ "Integer"))])]);
  (28%N, SClass "OtherPrimeInfos" (univ "SequenceOf") [set "componentType" (new "OtherPrimeInfo"); set "sizeSpec" (EBin OAdd (EAttr (univ "SequenceOf") "sizeSpec") (sizec (EInt 1) (EName "MAX")))]);
  (33%N, SClass "RSAPrivateKey" (univ "Sequence") [set "componentType" (nts [nt "version" (ECall (univ "Integer") [] [("namedValues", nvs [nv "two-prime" 0; nv "multi" 1])]); nt "modulus" (call0 (univ "Integer")); nt "publicExponent" (call0 (univ "Integer")); nt "privateExponent" (call0 (univ "Integer")); nt "prime1" (call0 (univ "Integer")); nt "prime2" (call0 (univ "Integer")); nt "exponent1" (call0 (univ "Integer")); nt "exponent2" (call0 (univ "Integer")); nt "coefficient" (call0 (univ "Integer")); ont "otherPrimeInfos" (new "OtherPrimeInfos")])])
].
