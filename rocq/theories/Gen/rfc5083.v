(** pyasn1_modules/rfc5083.py, printed by tools/py2coq.py.  Every statement is
    preceded by its line number in that file. *)
From Verif Require Import Py.Syntax.
From Coq Require Import List String ZArith NArith.
Import ListNotations.
Open Scope string_scope.
Open Scope Z_scope.

Definition src : module := [
  (15%N, SFrom "pyasn1.type" [("namedtype", "namedtype")]);
  (16%N, SFrom "pyasn1.type" [("tag", "tag")]);
  (17%N, SFrom "pyasn1.type" [("univ", "univ")]);
  (19%N, SFrom "pyasn1_modules" [("rfc5652", "rfc5652")]);
  (21%N, set "MAX" (call (EName "float") [EStr "inf"]));
  (26%N, set "id_ct_authEnvelopedData" (call (univ "ObjectIdentifier") [EStr "1.2.840.113549.1.9.16.1.23"]));
  (28%N, SClass "AuthEnvelopedData" (univ "Sequence") [SPass]);
  (31%N, seta "AuthEnvelopedData" "componentType" (nts [nt "version" (call0 (qual "rfc5652" "CMSVersion")); ont "originatorInfo" (implicit (call0 (qual "rfc5652" "OriginatorInfo")) (ctxC 0)); nt "recipientInfos" (call0 (qual "rfc5652" "RecipientInfos")); nt "authEncryptedContentInfo" (call0 (qual "rfc5652" "EncryptedContentInfo")); ont "authAttrs" (implicit (call0 (qual "rfc5652" "AuthAttributes")) (ctxS 1)); nt "mac" (call0 (qual "rfc5652" "MessageAuthenticationCode")); ont "unauthAttrs" (implicit (call0 (qual "rfc5652" "UnauthAttributes")) (ctxS 2))]));
  (48%N, set "_cmsContentTypesMapUpdate" (EDict [(EName "id_ct_authEnvelopedData", new "AuthEnvelopedData")]));
  (52%N, SExpr (call (EAttr (qual "rfc5652" "cmsContentTypesMap") "update") [EName "_cmsContentTypesMapUpdate"]))
].
