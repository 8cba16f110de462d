(** pyasn1_modules/rfc6960.py, printed by tools/py2coq.py.  Every statement is
    preceded by its line number in that file. *)
From Verif Require Import Py.Syntax.
From Coq Require Import List String ZArith NArith.
Import ListNotations.
Open Scope string_scope.
Open Scope Z_scope.

Definition src : module := [
  (15%N, SFrom "pyasn1.type" [("univ", "univ"); ("char", "char"); ("namedtype", "namedtype"); ("namedval", "namedval"); ("tag", "tag"); ("constraint", "constraint"); ("useful", "useful")]);
  (17%N, SFrom "pyasn1_modules" [("rfc2560", "rfc2560")]);
  (18%N, SFrom "pyasn1_modules" [("rfc5280", "rfc5280")]);
  (20%N, set "MAX" (call (EName "float") [EStr "inf"]));
  (25%N, set "AlgorithmIdentifier" (qual "rfc5280" "AlgorithmIdentifier"));
  (26%N, set "AuthorityInfoAccessSyntax" (qual "rfc5280" "AuthorityInfoAccessSyntax"));
  (27%N, set "Certificate" (qual "rfc5280" "Certificate"));
  (28%N, set "CertificateSerialNumber" (qual "rfc5280" "CertificateSerialNumber"));
  (29%N, set "CRLReason" (qual "rfc5280" "CRLReason"));
  (30%N, set "Extensions" (qual "rfc5280" "Extensions"));
  (31%N, set "GeneralName" (qual "rfc5280" "GeneralName"));
  (32%N, set "Name" (qual "rfc5280" "Name"));
  (34%N, set "id_kp" (qual "rfc5280" "id_kp"));
  (36%N, set "id_ad_ocsp" (qual "rfc5280" "id_ad_ocsp"));
  (41%N, set "AcceptableResponses" (qual "rfc2560" "AcceptableResponses"));
  (42%N, set "ArchiveCutoff" (qual "rfc2560" "ArchiveCutoff"));
  (43%N, set "CertStatus" (qual "rfc2560" "CertStatus"));
  (44%N, set "KeyHash" (qual "rfc2560" "KeyHash"));
  (45%N, set "OCSPResponse" (qual "rfc2560" "OCSPResponse"));
  (46%N, set "OCSPResponseStatus" (qual "rfc2560" "OCSPResponseStatus"));
  (47%N, set "ResponseBytes" (qual "rfc2560" "ResponseBytes"));
  (48%N, set "RevokedInfo" (qual "rfc2560" "RevokedInfo"));
  (49%N, set "UnknownInfo" (qual "rfc2560" "UnknownInfo"));
  (50%N, set "Version" (qual "rfc2560" "Version"));
  (52%N, set "id_kp_OCSPSigning" (qual "rfc2560" "id_kp_OCSPSigning"));
  (54%N, set "id_pkix_ocsp" (qual "rfc2560" "id_pkix_ocsp"));
  (55%N, set "id_pkix_ocsp_archive_cutoff" (qual "rfc2560" "id_pkix_ocsp_archive_cutoff"));
  (56%N, set "id_pkix_ocsp_basic" (qual "rfc2560" "id_pkix_ocsp_basic"));
  (57%N, set "id_pkix_ocsp_crl" (qual "rfc2560" "id_pkix_ocsp_crl"));
  (58%N, set "id_pkix_ocsp_nocheck" (qual "rfc2560" "id_pkix_ocsp_nocheck"));
  (59%N, set "id_pkix_ocsp_nonce" (qual "rfc2560" "id_pkix_ocsp_nonce"));
  (60%N, set "id_pkix_ocsp_response" (qual "rfc2560" "id_pkix_ocsp_response"));
  (61%N, set "id_pkix_ocsp_service_locator" (qual "rfc2560" "id_pkix_ocsp_service_locator"));
  (66%N, set "id_pkix_ocsp_pref_sig_algs" (EBin OAdd (EName "id_pkix_ocsp") (ETuple [EInt 8])));
  (67%N, set "id_pkix_ocsp_extended_revoke" (EBin OAdd (EName "id_pkix_ocsp") (ETuple [EInt 9])));
  (72%N, SClass "CertID" (univ "Sequence") [set "componentType" (nts [nt "hashAlgorithm" (new "AlgorithmIdentifier"); nt "issuerNameHash" (call0 (univ "OctetString")); nt "issuerKeyHash" (call0 (univ "OctetString")); nt "serialNumber" (new "CertificateSerialNumber")])]);
  (81%N, SClass "SingleResponse" (univ "Sequence") [set "componentType" (nts [nt "certID" (new "CertID"); nt "certStatus" (new "CertStatus"); nt "thisUpdate" (call0 (useful "GeneralizedTime")); ont "nextUpdate" (explicit (call0 (useful "GeneralizedTime")) (ctxS 0)); ont "singleExtensions" (explicit (new "Extensions") (ctxS 1))])]);
  (93%N, SClass "ResponderID" (univ "Choice") [set "componentType" (nts [nt "byName" (explicit (new "Name") (ctxS 1)); nt "byKey" (explicit (new "KeyHash") (ctxS 2))])]);
  (102%N, SClass "ResponseData" (univ "Sequence") [set "componentType" (nts [dnt "version" (explicit (call (EName "Version") [EStr "v1"]) (ctxS 0)); nt "responderID" (new "ResponderID"); nt "producedAt" (call0 (useful "GeneralizedTime")); nt "responses" (ECall (univ "SequenceOf") [] [("componentType", new "SingleResponse")]); ont "responseExtensions" (explicit (new "Extensions") (ctxS 1))])]);
  (115%N, SClass "BasicOCSPResponse" (univ "Sequence") [set "componentType" (nts [nt "tbsResponseData" (new "ResponseData"); nt "signatureAlgorithm" (new "AlgorithmIdentifier"); nt "signature" (call0 (univ "BitString")); ont "certs" (explicit (ECall (univ "SequenceOf") [] [("componentType", new "Certificate")]) (ctxS 0))])]);
  (126%N, SClass "Request" (univ "Sequence") [set "componentType" (nts [nt "reqCert" (new "CertID"); ont "singleRequestExtensions" (explicit (new "Extensions") (ctxS 0))])]);
  (134%N, SClass "Signature" (univ "Sequence") [set "componentType" (nts [nt "signatureAlgorithm" (new "AlgorithmIdentifier"); nt "signature" (call0 (univ "BitString")); ont "certs" (explicit (ECall (univ "SequenceOf") [] [("componentType", new "Certificate")]) (ctxS 0))])]);
  (144%N, SClass "TBSRequest" (univ "Sequence") [set "componentType" (nts [dnt "version" (explicit (call (EName "Version") [EStr "v1"]) (ctxS 0)); ont "requestorName" (explicit (new "GeneralName") (ctxS 1)); nt "requestList" (ECall (univ "SequenceOf") [] [("componentType", new "Request")]); ont "requestExtensions" (explicit (new "Extensions") (ctxS 2))])]);
  (157%N, SClass "OCSPRequest" (univ "Sequence") [set "componentType" (nts [nt "tbsRequest" (new "TBSRequest"); ont "optionalSignature" (explicit (new "Signature") (ctxS 0))])]);
  (167%N, SClass "ServiceLocator" (univ "Sequence") [set "componentType" (nts [nt "issuer" (new "Name"); nt "locator" (new "AuthorityInfoAccessSyntax")])]);
  (176%N, SClass "CrlID" (univ "Sequence") [set "componentType" (nts [ont "crlUrl" (explicit (call0 (chr "IA5String")) (ctxS 0)); ont "crlNum" (explicit (call0 (univ "Integer")) (ctxS 1)); ont "crlTime" (explicit (call0 (useful "GeneralizedTime")) (ctxS 2))])]);
  (187%N, SClass "PreferredSignatureAlgorithm" (univ "Sequence") [set "componentType" (nts [nt "sigIdentifier" (new "AlgorithmIdentifier"); ont "certIdentifier" (new "AlgorithmIdentifier")])]);
  (194%N, SClass "PreferredSignatureAlgorithms" (univ "SequenceOf") [set "componentType" (new "PreferredSignatureAlgorithm")]);
  (201%N, set "ocspResponseMap" (EDict [(EName "id_pkix_ocsp_basic", new "BasicOCSPResponse")]));
  (209%N, set "_certificateExtensionsMapUpdate" (EDict [(EName "id_pkix_ocsp_nocheck", call (univ "Null") [EStr ""]); (EName "id_pkix_ocsp_nonce", call0 (univ "OctetString")); (EName "id_pkix_ocsp_response", new "AcceptableResponses"); (EName "id_pkix_ocsp_service_locator", new "ServiceLocator"); (EName "id_pkix_ocsp_pref_sig_algs", new "PreferredSignatureAlgorithms"); (EName "id_pkix_ocsp_crl", new "CrlID"); (EName "id_pkix_ocsp_archive_cutoff", new "ArchiveCutoff"); (EName "id_pkix_ocsp_extended_revoke", call (univ "Null") [EStr ""])]));
  (223%N, SExpr (call (EAttr (qual "rfc5280" "certificateExtensionsMap") "update") [EName "_certificateExtensionsMapUpdate"]))
].
