(** pyasn1_modules/rfc5639.py, printed by tools/py2coq.py.  Every statement is
    preceded by its line number in that file. *)
From Verif Require Import Py.Syntax.
From Coq Require Import List String ZArith NArith.
Import ListNotations.
Open Scope string_scope.
Open Scope Z_scope.

Definition src : module := [
  (14%N, SFrom "pyasn1.type" [("univ", "univ")]);
  (17%N, set "ecStdCurvesAndGeneration" (call (univ "ObjectIdentifier") [ETuple [EInt 1; EInt 3; EInt 36; EInt 3; EInt 3; EInt 2; EInt 8]]));
  (19%N, set "ellipticCurve" (EBin OAdd (EName "ecStdCurvesAndGeneration") (ETuple [EInt 1])));
  (21%N, set "versionOne" (EBin OAdd (EName "ellipticCurve") (ETuple [EInt 1])));
  (23%N, set "brainpoolP160r1" (EBin OAdd (EName "versionOne") (ETuple [EInt 1])));
  (25%N, set "brainpoolP160t1" (EBin OAdd (EName "versionOne") (ETuple [EInt 2])));
  (27%N, set "brainpoolP192r1" (EBin OAdd (EName "versionOne") (ETuple [EInt 3])));
  (29%N, set "brainpoolP192t1" (EBin OAdd (EName "versionOne") (ETuple [EInt 4])));
  (31%N, set "brainpoolP224r1" (EBin OAdd (EName "versionOne") (ETuple [EInt 5])));
  (33%N, set "brainpoolP224t1" (EBin OAdd (EName "versionOne") (ETuple [EInt 6])));
  (35%N, set "brainpoolP256r1" (EBin OAdd (EName "versionOne") (ETuple [EInt 7])));
  (37%N, set "brainpoolP256t1" (EBin OAdd (EName "versionOne") (ETuple [EInt 8])));
  (39%N, set "brainpoolP320r1" (EBin OAdd (EName "versionOne") (ETuple [EInt 9])));
  (41%N, set "brainpoolP320t1" (EBin OAdd (EName "versionOne") (ETuple [EInt 10])));
  (43%N, set "brainpoolP384r1" (EBin OAdd (EName "versionOne") (ETuple [EInt 11])));
  (45%N, set "brainpoolP384t1" (EBin OAdd (EName "versionOne") (ETuple [EInt 12])));
  (47%N, set "brainpoolP512r1" (EBin OAdd (EName "versionOne") (ETuple [EInt 13])));
  (49%N, set "brainpoolP512t1" (EBin OAdd (EName "versionOne") (ETuple [EInt 14])))
].
