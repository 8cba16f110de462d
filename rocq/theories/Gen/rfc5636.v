(** pyasn1_modules/rfc5636.py, printed by tools/py2coq.py.  Every statement is
    preceded by its line number in that file. *)
From Verif Require Import Py.Syntax.
From Coq Require Import List String ZArith NArith.
Import ListNotations.
Open Scope string_scope.
Open Scope Z_scope.

Definition src : module := [
  (13%N, SFrom "pyasn1.type" [("namedtype", "namedtype")]);
  (14%N, SFrom "pyasn1.type" [("univ", "univ")]);
  (15%N, SFrom "pyasn1.type" [("useful", "useful")]);
  (17%N, SFrom "pyasn1_modules" [("rfc5652", "rfc5652")]);
  (22%N, set "ContentInfo" (qual "rfc5652" "ContentInfo"));
  (24%N, set "EncapsulatedContentInfo" (qual "rfc5652" "EncapsulatedContentInfo"));
  (26%N, set "id_data" (qual "rfc5652" "id_data"));
  (31%N, set "id_KISA" (call (univ "ObjectIdentifier") [ETuple [EInt 1; EInt 2; EInt 410; EInt 200004]]));
  (34%N, set "id_npki" (EBin OAdd (EName "id_KISA") (ETuple [EInt 10])));
  (37%N, set "id_attribute" (EBin OAdd (EName "id_npki") (ETuple [EInt 1])));
  (40%N, set "id_kisa_tac" (EBin OAdd (EName "id_attribute") (ETuple [EInt 1])));
  (43%N, set "id_kisa_tac_token" (EBin OAdd (EName "id_kisa_tac") (ETuple [EInt 1])));
  (46%N, set "id_kisa_tac_tokenandblindbash" (EBin OAdd (EName "id_kisa_tac") (ETuple [EInt 2])));
  (49%N, set "id_kisa_tac_tokenandpartially" (EBin OAdd (EName "id_kisa_tac") (ETuple [EInt 3])));
  (54%N, SClass "UserKey" (univ "OctetString") [SPass]);
  (58%N, SClass "Timeout" (useful "GeneralizedTime") [SPass]);
  (62%N, SClass "BlinedCertificateHash" (univ "OctetString") [SPass]);
  (66%N, SClass "PartiallySignedCertificateHash" (univ "OctetString") [SPass]);
  (70%N, SClass "Token" (EName "ContentInfo") [SPass]);
  (74%N, SClass "TokenandBlindHash" (EName "ContentInfo") [SPass]);
  (78%N, SClass "TokenandPartiallySignedCertificateHash" (EName "ContentInfo") [SPass]);
  (84%N, SClass "TACToken" (univ "Sequence") [set "componentType" (nts [nt "userKey" (new "UserKey"); nt "timeout" (new "Timeout")])]);
  (91%N, SClass "TACTokenandBlindHash" (univ "Sequence") [set "componentType" (nts [nt "token" (new "Token"); nt "blinded" (new "BlinedCertificateHash")])]);
  (98%N, SClass "TACTokenandPartiallySignedCertificateHash" (univ "Sequence") [set "componentType" (nts [nt "token" (new "Token"); nt "partially" (new "PartiallySignedCertificateHash")])]);
  (107%N, set "_cmsContentTypesMapUpdate" (EDict [(EName "id_kisa_tac_token", new "TACToken"); (EName "id_kisa_tac_tokenandblindbash", new "TACTokenandBlindHash"); (EName "id_kisa_tac_tokenandpartially", new "TACTokenandPartiallySignedCertificateHash")]));
  (113%N, SExpr (call (EAttr (qual "rfc5652" "cmsContentTypesMap") "update") [EName "_cmsContentTypesMapUpdate"]))
].
