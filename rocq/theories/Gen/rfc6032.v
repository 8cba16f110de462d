(** pyasn1_modules/rfc6032.py, printed by tools/py2coq.py.  Every statement is
    preceded by its line number in that file. *)
From Verif Require Import Py.Syntax.
From Coq Require Import List String ZArith NArith.
Import ListNotations.
Open Scope string_scope.
Open Scope Z_scope.

Definition src : module := [
  (15%N, SFrom "pyasn1.type" [("namedtype", "namedtype")]);
  (16%N, SFrom "pyasn1.type" [("tag", "tag")]);
  (17%N, SFrom "pyasn1.type" [("univ", "univ")]);
  (19%N, SFrom "pyasn1_modules" [("rfc5652", "rfc5652")]);
  (20%N, SFrom "pyasn1_modules" [("rfc5083", "rfc5083")]);
  (25%N, set "id_aa_KP_contentDecryptKeyID" (call (univ "ObjectIdentifier") [EStr "2.16.840.1.101.2.1.5.66"]));
  (27%N, SClass "ContentDecryptKeyID" (univ "OctetString") [SPass]);
  (30%N, set "aa_content_decrypt_key_identifier" (call0 (qual "rfc5652" "Attribute")));
  (31%N, SAssign [ESub (EName "aa_content_decrypt_key_identifier") (EStr "attrType")] (EName "id_aa_KP_contentDecryptKeyID"));
  (32%N, SAssign [ESub (ESub (EName "aa_content_decrypt_key_identifier") (EStr "attrValues")) (EInt 0)] (new "ContentDecryptKeyID"));
  (37%N, set "id_ct_KP_encryptedKeyPkg" (call (univ "ObjectIdentifier") [EStr "2.16.840.1.101.2.1.2.78.2"]));
  (39%N, SClass "EncryptedKeyPackage" (univ "Choice") [SPass]);
  (42%N, seta "EncryptedKeyPackage" "componentType" (nts [nt "encrypted" (call0 (qual "rfc5652" "EncryptedData")); nt "enveloped" (implicit (call0 (qual "rfc5652" "EnvelopedData")) (ctxS 0)); nt "authEnveloped" (implicit (call0 (qual "rfc5083" "AuthEnvelopedData")) (ctxS 1))]));
  (54%N, set "_cmsAttributesMapUpdate" (EDict [(EName "id_aa_KP_contentDecryptKeyID", new "ContentDecryptKeyID")]));
  (58%N, SExpr (call (EAttr (qual "rfc5652" "cmsAttributesMap") "update") [EName "_cmsAttributesMapUpdate"]));
  (64%N, set "_cmsContentTypesMapUpdate" (EDict [(EName "id_ct_KP_encryptedKeyPkg", new "EncryptedKeyPackage")]));
  (68%N, SExpr (call (EAttr (qual "rfc5652" "cmsContentTypesMap") "update") [EName "_cmsContentTypesMapUpdate"]))
].
