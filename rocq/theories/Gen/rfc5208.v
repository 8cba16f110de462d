(** pyasn1_modules/rfc5208.py, printed by tools/py2coq.py.  Every statement is
    preceded by its line number in that file. *)
From Verif Require Import Py.Syntax.
From Coq Require Import List String ZArith NArith.
Import ListNotations.
Open Scope string_scope.
Open Scope Z_scope.

Definition src : module := [
  (14%N, SFrom "pyasn1_modules" [("rfc2251", "rfc2251")]);
  (15%N, SFromStar "pyasn1_modules.rfc2459");
  (18%N, SClass "KeyEncryptionAlgorithms" (EName "AlgorithmIdentifier") [SPass]);
  (22%N, SClass "PrivateKeyAlgorithms" (EName "AlgorithmIdentifier") [SPass]);
  (26%N, SClass "EncryptedData" (univ "OctetString") [SPass]);
  (30%N, SClass "EncryptedPrivateKeyInfo" (univ "Sequence") [set "componentType" (nts [nt "encryptionAlgorithm" (new "AlgorithmIdentifier"); nt "encryptedData" (new "EncryptedData")])]);
  (37%N, SClass "PrivateKey" (univ "OctetString") [SPass]);
  (41%N, SClass "Attributes" (univ "SetOf") [set "componentType" (call0 (qual "rfc2251" "Attribute"))]);
  (45%N, SClass "Version" (univ "Integer") [set "namedValues" (nvs [nv "v1" 0; nv "v2" 1])]);
  (49%N, SClass "PrivateKeyInfo" (univ "Sequence") [set "componentType" (nts [nt "version" (new "Version"); nt "privateKeyAlgorithm" (new "AlgorithmIdentifier"); nt "privateKey" (new "PrivateKey"); ont "attributes" (implicit (new "Attributes") (ctxC 0))])])
].
