(** pyasn1_modules/rfc5275.py, printed by tools/py2coq.py.  Every statement is
    preceded by its line number in that file. *)
From Verif Require Import Py.Syntax.
From Coq Require Import List String ZArith NArith.
Import ListNotations.
Open Scope string_scope.
Open Scope Z_scope.

Definition src : module := [
  (15%N, SFrom "pyasn1.type" [("constraint", "constraint")]);
  (16%N, SFrom "pyasn1.type" [("namedtype", "namedtype")]);
  (17%N, SFrom "pyasn1.type" [("namedval", "namedval")]);
  (18%N, SFrom "pyasn1.type" [("opentype", "opentype")]);
  (19%N, SFrom "pyasn1.type" [("tag", "tag")]);
  (20%N, SFrom "pyasn1.type" [("univ", "univ")]);
  (21%N, SFrom "pyasn1.type" [("useful", "useful")]);
  (23%N, SFrom "pyasn1_modules" [("rfc3565", "rfc3565")]);
  (24%N, SFrom "pyasn1_modules" [("rfc5280", "rfc5280")]);
  (25%N, SFrom "pyasn1_modules" [("rfc5652", "rfc5652")]);
  (26%N, SFrom "pyasn1_modules" [("rfc5751", "rfc5751")]);
  (27%N, SFrom "pyasn1_modules" [("rfc5755", "rfc5755")]);
  (29%N, set "MAX" (call (EName "float") [EStr "inf"]));
  (34%N, set "glaQueryRRMap" (EDict []));
  (39%N, set "id_aes128_wrap" (qual "rfc3565" "id_aes128_wrap"));
  (44%N, set "AlgorithmIdentifier" (qual "rfc5280" "AlgorithmIdentifier"));
  (46%N, set "Certificate" (qual "rfc5280" "Certificate"));
  (48%N, set "GeneralName" (qual "rfc5280" "GeneralName"));
  (53%N, set "CertificateSet" (qual "rfc5652" "CertificateSet"));
  (55%N, set "KEKIdentifier" (qual "rfc5652" "KEKIdentifier"));
  (57%N, set "RecipientInfos" (qual "rfc5652" "RecipientInfos"));
  (62%N, set "SMIMECapability" (qual "rfc5751" "SMIMECapability"));
  (67%N, set "AttributeCertificate" (qual "rfc5755" "AttributeCertificate"));
  (72%N, set "id_skd" (call (univ "ObjectIdentifier") [ETuple [EInt 1; EInt 2; EInt 840; EInt 113549; EInt 1; EInt 9; EInt 16; EInt 8]]));
  (77%N, set "id_skd_glUseKEK" (EBin OAdd (EName "id_skd") (ETuple [EInt 1])));
  (80%N, SClass "Certificates" (univ "Sequence") [set "componentType" (nts [ont "pKC" (implicit (new "Certificate") (ctxS 0)); ont "aC" (implicit (withspec (ECall (univ "SequenceOf") [] [("componentType", new "AttributeCertificate")]) (sizec (EInt 1) (EName "MAX"))) (ctxS 1)); ont "certPath" (implicit (new "CertificateSet") (ctxS 2))])]);
  (95%N, SClass "GLInfo" (univ "Sequence") [set "componentType" (nts [nt "glName" (new "GeneralName"); nt "glAddress" (new "GeneralName")])]);
  (102%N, SClass "GLOwnerInfo" (univ "Sequence") [set "componentType" (nts [nt "glOwnerName" (new "GeneralName"); nt "glOwnerAddress" (new "GeneralName"); ont "certificates" (new "Certificates")])]);
  (110%N, SClass "GLAdministration" (univ "Integer") [set "namedValues" (nvs [nv "unmanaged" 0; nv "managed" 1; nv "closed" 2])]);
  (118%N, set "requested_algorithm" (implicit (new "SMIMECapability") (ctxS 4)));
  (120%N, SAssign [ESub (EName "requested_algorithm") (EStr "capabilityID")] (EName "id_aes128_wrap"));
  (123%N, SClass "GLKeyAttributes" (univ "Sequence") [set "componentType" (nts [dnt "rekeyControlledByGLO" (ECall (EAttr (call0 (univ "Boolean")) "subtype") [] [("value", EInt 0); ("implicitTag", ctxS 0)]); dnt "recipientsNotMutuallyAware" (ECall (EAttr (call0 (univ "Boolean")) "subtype") [] [("value", EInt 1); ("implicitTag", ctxS 1)]); dnt "duration" (ECall (EAttr (call0 (univ "Integer")) "subtype") [] [("value", EInt 0); ("implicitTag", ctxS 2)]); dnt "generationCounter" (ECall (EAttr (call0 (univ "Integer")) "subtype") [] [("value", EInt 2); ("implicitTag", ctxS 3)]); dnt "requestedAlgorithm" (EName "requested_algorithm")])]);
  (141%N, SClass "GLUseKEK" (univ "Sequence") [set "componentType" (nts [nt "glInfo" (new "GLInfo"); nt "glOwnerInfo" (withspec (ECall (univ "SequenceOf") [] [("componentType", new "GLOwnerInfo")]) (sizec (EInt 1) (EName "MAX"))); dnt "glAdministration" (withvalue (new "GLAdministration") (EInt 1)); ont "glKeyAttributes" (new "GLKeyAttributes")])]);
  (155%N, set "id_skd_glDelete" (EBin OAdd (EName "id_skd") (ETuple [EInt 2])));
  (158%N, SClass "DeleteGL" (EName "GeneralName") [SPass]);
  (164%N, set "id_skd_glAddMember" (EBin OAdd (EName "id_skd") (ETuple [EInt 3])));
  (167%N, SClass "GLMember" (univ "Sequence") [set "componentType" (nts [nt "glMemberName" (new "GeneralName"); ont "glMemberAddress" (new "GeneralName"); ont "certificates" (new "Certificates")])]);
  (175%N, SClass "GLAddMember" (univ "Sequence") [set "componentType" (nts [nt "glName" (new "GeneralName"); nt "glMember" (new "GLMember")])]);
  (184%N, set "id_skd_glDeleteMember" (EBin OAdd (EName "id_skd") (ETuple [EInt 4])));
  (187%N, SClass "GLDeleteMember" (univ "Sequence") [set "componentType" (nts [nt "glName" (new "GeneralName"); nt "glMemberToDelete" (new "GeneralName")])]);
  (196%N, set "id_skd_glRekey" (EBin OAdd (EName "id_skd") (ETuple [EInt 5])));
  (199%N, SClass "GLNewKeyAttributes" (univ "Sequence") [set "componentType" (nts [ont "rekeyControlledByGLO" (implicit (call0 (univ "Boolean")) (ctxS 0)); ont "recipientsNotMutuallyAware" (implicit (call0 (univ "Boolean")) (ctxS 1)); ont "duration" (implicit (call0 (univ "Integer")) (ctxS 2)); ont "generationCounter" (implicit (call0 (univ "Integer")) (ctxS 3)); ont "requestedAlgorithm" (implicit (new "AlgorithmIdentifier") (ctxS 4))])]);
  (219%N, SClass "GLRekey" (univ "Sequence") [set "componentType" (nts [nt "glName" (new "GeneralName"); ont "glAdministration" (new "GLAdministration"); ont "glNewKeyAttributes" (new "GLNewKeyAttributes"); ont "glRekeyAllGLKeys" (call0 (univ "Boolean"))])]);
  (230%N, set "id_skd_glAddOwner" (EBin OAdd (EName "id_skd") (ETuple [EInt 6])));
  (232%N, set "id_skd_glRemoveOwner" (EBin OAdd (EName "id_skd") (ETuple [EInt 7])));
  (235%N, SClass "GLOwnerAdministration" (univ "Sequence") [set "componentType" (nts [nt "glName" (new "GeneralName"); nt "glOwnerInfo" (new "GLOwnerInfo")])]);
  (244%N, set "id_skd_glKeyCompromise" (EBin OAdd (EName "id_skd") (ETuple [EInt 8])));
  (247%N, SClass "GLKCompromise" (EName "GeneralName") [SPass]);
  (253%N, set "id_skd_glkRefresh" (EBin OAdd (EName "id_skd") (ETuple [EInt 9])));
  (256%N, SClass "Date" (univ "Sequence") [set "componentType" (nts [nt "start" (call0 (useful "GeneralizedTime")); ont "end" (call0 (useful "GeneralizedTime"))])]);
  (263%N, SClass "GLKRefresh" (univ "Sequence") [set "componentType" (nts [nt "glName" (new "GeneralName"); nt "dates" (withspec (ECall (univ "SequenceOf") [] [("componentType", new "Date")]) (sizec (EInt 1) (EName "MAX")))])]);
  (274%N, set "id_skd_glaQueryRequest" (EBin OAdd (EName "id_skd") (ETuple [EInt 11])));
  (277%N, SClass "GLAQueryRequest" (univ "Sequence") [set "componentType" (nts [nt "glaRequestType" (call0 (univ "ObjectIdentifier")); ECall (qual "namedtype" "NamedType") [EStr "glaRequestValue"; call0 (univ "Any")] [("openType", call (qual "opentype" "OpenType") [EStr "glaRequestType"; EName "glaQueryRRMap"])]])]);
  (287%N, set "id_skd_glaQueryResponse" (EBin OAdd (EName "id_skd") (ETuple [EInt 12])));
  (290%N, SClass "GLAQueryResponse" (univ "Sequence") [set "componentType" (nts [nt "glaResponseType" (call0 (univ "ObjectIdentifier")); ECall (qual "namedtype" "NamedType") [EStr "glaResponseValue"; call0 (univ "Any")] [("openType", call (qual "opentype" "OpenType") [EStr "glaResponseType"; EName "glaQueryRRMap"])]])]);
  (300%N, set "id_cmc_glaRR" (call (univ "ObjectIdentifier") [ETuple [EInt 1; EInt 3; EInt 6; EInt 1; EInt 5; EInt 5; EInt 7; EInt 7; EInt 99]]));
  (305%N, set "id_cmc_gla_skdAlgRequest" (EBin OAdd (EName "id_cmc_glaRR") (ETuple [EInt 1])));
  (308%N, SClass "SKDAlgRequest" (univ "Null") [SPass]);
  (314%N, set "id_cmc_gla_skdAlgResponse" (EBin OAdd (EName "id_cmc_glaRR") (ETuple [EInt 2])));
  (316%N, set "SMIMECapabilities" (qual "rfc5751" "SMIMECapabilities"));
  (322%N, set "id_skd_glProvideCert" (EBin OAdd (EName "id_skd") (ETuple [EInt 13])));
  (324%N, set "id_skd_glManageCert" (EBin OAdd (EName "id_skd") (ETuple [EInt 14])));
  (327%N, SClass "GLManageCert" (univ "Sequence") [set "componentType" (nts [nt "glName" (new "GeneralName"); nt "glMember" (new "GLMember")])]);
  (336%N, set "id_skd_glKey" (EBin OAdd (EName "id_skd") (ETuple [EInt 15])));
  (339%N, SClass "GLKey" (univ "Sequence") [set "componentType" (nts [nt "glName" (new "GeneralName"); nt "glIdentifier" (new "KEKIdentifier"); nt "glkWrapped" (new "RecipientInfos"); nt "glkAlgorithm" (new "AlgorithmIdentifier"); nt "glkNotBefore" (call0 (useful "GeneralizedTime")); nt "glkNotAfter" (call0 (useful "GeneralizedTime"))])]);
  (352%N, set "id_cet_skdFailInfo" (call (univ "ObjectIdentifier") [ETuple [EInt 1; EInt 3; EInt 6; EInt 1; EInt 5; EInt 5; EInt 7; EInt 15; EInt 1]]));
  (355%N, SClass "SKDFailInfo" (univ "Integer") [set "namedValues" (nvs [nv "unspecified" 0; nv "closedGL" 1; nv "unsupportedDuration" 2; nv "noGLACertificate" 3; nv "invalidCert" 4; nv "unsupportedAlgorithm" 5; nv "noGLONameMatch" 6; nv "invalidGLName" 7; nv "nameAlreadyInUse" 8; nv "noSpam" 9; nv "alreadyAMember" 11; nv "notAMember" 12; nv "alreadyAnOwner" 13; nv "notAnOwner" 14])]);
  (376%N, set "_glaQueryRRMapUpdate" (EDict [(EName "id_cmc_gla_skdAlgRequest", call (univ "Null") [EStr ""]); (EName "id_cmc_gla_skdAlgResponse", new "SMIMECapabilities")]));
  (381%N, SExpr (call (qual "glaQueryRRMap" "update") [EName "_glaQueryRRMapUpdate"]));
  (387%N, set "_cmcControlAttributesMapUpdate" (EDict [(EName "id_skd_glUseKEK", new "GLUseKEK"); (EName "id_skd_glDelete", new "DeleteGL"); (EName "id_skd_glAddMember", new "GLAddMember"); (EName "id_skd_glDeleteMember", new "GLDeleteMember"); (EName "id_skd_glRekey", new "GLRekey"); (EName "id_skd_glAddOwner", new "GLOwnerAdministration"); (EName "id_skd_glRemoveOwner", new "GLOwnerAdministration"); (EName "id_skd_glKeyCompromise", new "GLKCompromise"); (EName "id_skd_glkRefresh", new "GLKRefresh"); (EName "id_skd_glaQueryRequest", new "GLAQueryRequest"); (EName "id_skd_glaQueryResponse", new "GLAQueryResponse"); (EName "id_skd_glProvideCert", new "GLManageCert"); (EName "id_skd_glManageCert", new "GLManageCert"); (EName "id_skd_glKey", new "GLKey")]));
  (404%N, SExpr (call (EAttr (qual "rfc5652" "cmsAttributesMap") "update") [EName "_cmcControlAttributesMapUpdate"]))
].
