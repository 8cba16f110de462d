(** pyasn1_modules/rfc5958.py, printed by tools/py2coq.py.  Every statement is
    preceded by its line number in that file. *)
From Verif Require Import Py.Syntax.
From Coq Require Import List String ZArith NArith.
Import ListNotations.
Open Scope string_scope.
Open Scope Z_scope.

Definition src : module := [
  (16%N, SFrom "pyasn1.type" [("univ", "univ"); ("constraint", "constraint"); ("namedtype", "namedtype"); ("namedval", "namedval"); ("tag", "tag")]);
  (18%N, SFrom "pyasn1_modules" [("rfc5280", "rfc5280")]);
  (19%N, SFrom "pyasn1_modules" [("rfc5652", "rfc5652")]);
  (22%N, set "MAX" (call (EName "float") [EStr "inf"]));
  (25%N, SClass "KeyEncryptionAlgorithmIdentifier" (qual "rfc5280" "AlgorithmIdentifier") [SPass]);
  (29%N, SClass "PrivateKeyAlgorithmIdentifier" (qual "rfc5280" "AlgorithmIdentifier") [SPass]);
  (33%N, SClass "EncryptedData" (univ "OctetString") [SPass]);
  (37%N, SClass "EncryptedPrivateKeyInfo" (univ "Sequence") [set "componentType" (nts [nt "encryptionAlgorithm" (new "KeyEncryptionAlgorithmIdentifier"); nt "encryptedData" (new "EncryptedData")])]);
  (44%N, SClass "Version" (univ "Integer") [set "namedValues" (nvs [nv "v1" 0; nv "v2" 1])]);
  (48%N, SClass "PrivateKey" (univ "OctetString") [SPass]);
  (52%N, SClass "Attributes" (univ "SetOf") [set "componentType" (call0 (qual "rfc5652" "Attribute"))]);
  (56%N, SClass "PublicKey" (univ "BitString") [SPass]);
  (64%N, SClass "OneAsymmetricKey" (univ "Sequence") [set "componentType" (nts [nt "version" (new "Version"); nt "privateKeyAlgorithm" (new "PrivateKeyAlgorithmIdentifier"); nt "privateKey" (new "PrivateKey"); ont "attributes" (implicit (new "Attributes") (ctxC 0)); ont "publicKey" (implicit (new "PublicKey") (ctxC 1))])]);
  (76%N, SClass "PrivateKeyInfo" (EName "OneAsymmetricKey") [SPass]);
  (82%N, set "id_ct_KP_aKeyPackage" (call (univ "ObjectIdentifier") [EStr "2.16.840.1.101.2.1.2.78.5"]));
  (84%N, SClass "AsymmetricKeyPackage" (univ "SequenceOf") [SPass]);
  (87%N, seta "AsymmetricKeyPackage" "componentType" (new "OneAsymmetricKey"));
  (88%N, seta "AsymmetricKeyPackage" "sizeSpec" (sizec (EInt 1) (EName "MAX")));
  (94%N, set "_cmsContentTypesMapUpdate" (EDict [(EName "id_ct_KP_aKeyPackage", new "AsymmetricKeyPackage")]));
  (98%N, SExpr (call (EAttr (qual "rfc5652" "cmsContentTypesMap") "update") [EName "_cmsContentTypesMapUpdate"]))
].
