(** pyasn1_modules/rfc8696.py, printed by tools/py2coq.py.  Every statement is
    preceded by its line number in that file. *)
From Verif Require Import Py.Syntax.
From Coq Require Import List String ZArith NArith.
Import ListNotations.
Open Scope string_scope.
Open Scope Z_scope.

Definition src : module := [
  (15%N, SFrom "pyasn1.type" [("constraint", "constraint")]);
  (16%N, SFrom "pyasn1.type" [("namedtype", "namedtype")]);
  (17%N, SFrom "pyasn1.type" [("namedval", "namedval")]);
  (18%N, SFrom "pyasn1.type" [("tag", "tag")]);
  (19%N, SFrom "pyasn1.type" [("univ", "univ")]);
  (21%N, SFrom "pyasn1_modules" [("rfc5652", "rfc5652")]);
  (23%N, set "MAX" (call (EName "float") [EStr "inf"]));
  (26%N, set "id_ori" (call (univ "ObjectIdentifier") [EStr "1.2.840.113549.1.9.16.13"]));
  (28%N, set "id_ori_keyTransPSK" (call (univ "ObjectIdentifier") [EStr "1.2.840.113549.1.9.16.13.1"]));
  (30%N, set "id_ori_keyAgreePSK" (call (univ "ObjectIdentifier") [EStr "1.2.840.113549.1.9.16.13.2"]));
  (33%N, SClass "PreSharedKeyIdentifier" (univ "OctetString") [SPass]);
  (37%N, SClass "KeyTransRecipientInfos" (univ "SequenceOf") [set "componentType" (call0 (qual "rfc5652" "KeyTransRecipientInfo"))]);
  (41%N, SClass "KeyTransPSKRecipientInfo" (univ "Sequence") [set "componentType" (nts [nt "version" (call0 (qual "rfc5652" "CMSVersion")); nt "pskid" (new "PreSharedKeyIdentifier"); nt "kdfAlgorithm" (call0 (qual "rfc5652" "KeyDerivationAlgorithmIdentifier")); nt "keyEncryptionAlgorithm" (call0 (qual "rfc5652" "KeyEncryptionAlgorithmIdentifier")); nt "ktris" (new "KeyTransRecipientInfos"); nt "encryptedKey" (call0 (qual "rfc5652" "EncryptedKey"))])]);
  (58%N, SClass "KeyAgreePSKRecipientInfo" (univ "Sequence") [set "componentType" (nts [nt "version" (call0 (qual "rfc5652" "CMSVersion")); nt "pskid" (new "PreSharedKeyIdentifier"); nt "originator" (explicit (call0 (qual "rfc5652" "OriginatorIdentifierOrKey")) (ctxC 0)); ont "ukm" (explicit (call0 (qual "rfc5652" "UserKeyingMaterial")) (ctxS 1)); nt "kdfAlgorithm" (call0 (qual "rfc5652" "KeyDerivationAlgorithmIdentifier")); nt "keyEncryptionAlgorithm" (call0 (qual "rfc5652" "KeyEncryptionAlgorithmIdentifier")); nt "recipientEncryptedKeys" (call0 (qual "rfc5652" "RecipientEncryptedKeys"))])]);
  (79%N, SClass "CMSORIforPSKOtherInfo" (univ "Sequence") [set "componentType" (nts [nt "psk" (call0 (univ "OctetString")); nt "keyMgmtAlgType" (ECall (univ "Enumerated") [] [("namedValues", nvs [nv "keyTrans" 5; nv "keyAgree" 10])]); nt "keyEncryptionAlgorithm" (call0 (qual "rfc5652" "KeyEncryptionAlgorithmIdentifier")); nt "pskLength" (withspec (call0 (univ "Integer")) (rangec (EInt 1) (EName "MAX"))); nt "kdkLength" (withspec (call0 (univ "Integer")) (rangec (EInt 1) (EName "MAX")))])]);
  (99%N, set "_otherRecipientInfoMapUpdate" (EDict [(EName "id_ori_keyTransPSK", new "KeyTransPSKRecipientInfo"); (EName "id_ori_keyAgreePSK", new "KeyAgreePSKRecipientInfo")]));
  (104%N, SExpr (call (EAttr (qual "rfc5652" "otherRecipientInfoMap") "update") [EName "_otherRecipientInfoMapUpdate"]))
].
