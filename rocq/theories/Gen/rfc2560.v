(** pyasn1_modules/rfc2560.py, printed by tools/py2coq.py.  Every statement is
    preceded by its line number in that file. *)
From Verif Require Import Py.Syntax.
From Coq Require Import List String ZArith NArith.
Import ListNotations.
Open Scope string_scope.
Open Scope Z_scope.

Definition src : module := [
  (24%N, SFrom "pyasn1.type" [("namedtype", "namedtype")]);
  (25%N, SFrom "pyasn1.type" [("namedval", "namedval")]);
  (26%N, SFrom "pyasn1.type" [("tag", "tag")]);
  (27%N, SFrom "pyasn1.type" [("univ", "univ")]);
  (28%N, SFrom "pyasn1.type" [("useful", "useful")]);
  (30%N, SFrom "pyasn1_modules" [("rfc2459", "rfc2459")]);
  (37%N, SClass "CRLReason" (univ "Enumerated") [set "namedValues" (nvs [nv "unspecified" 0; nv "keyCompromise" 1; nv "cACompromise" 2; nv "affiliationChanged" 3; nv "superseded" 4; nv "cessationOfOperation" 5; nv "certificateHold" 6; nv "removeFromCRL" 8; nv "privilegeWithdrawn" 9; nv "aACompromise" 10])]);
  (56%N, SClass "GeneralName" (univ "OctetString") [SPass]);
  (62%N, set "id_kp_OCSPSigning" (call (univ "ObjectIdentifier") [ETuple [EInt 1; EInt 3; EInt 6; EInt 1; EInt 5; EInt 5; EInt 7; EInt 3; EInt 9]]));
  (63%N, set "id_pkix_ocsp" (call (univ "ObjectIdentifier") [ETuple [EInt 1; EInt 3; EInt 6; EInt 1; EInt 5; EInt 5; EInt 7; EInt 48; EInt 1]]));
  (64%N, set "id_pkix_ocsp_basic" (call (univ "ObjectIdentifier") [ETuple [EInt 1; EInt 3; EInt 6; EInt 1; EInt 5; EInt 5; EInt 7; EInt 48; EInt 1; EInt 1]]));
  (65%N, set "id_pkix_ocsp_nonce" (call (univ "ObjectIdentifier") [ETuple [EInt 1; EInt 3; EInt 6; EInt 1; EInt 5; EInt 5; EInt 7; EInt 48; EInt 1; EInt 2]]));
  (66%N, set "id_pkix_ocsp_crl" (call (univ "ObjectIdentifier") [ETuple [EInt 1; EInt 3; EInt 6; EInt 1; EInt 5; EInt 5; EInt 7; EInt 48; EInt 1; EInt 3]]));
  (67%N, set "id_pkix_ocsp_response" (call (univ "ObjectIdentifier") [ETuple [EInt 1; EInt 3; EInt 6; EInt 1; EInt 5; EInt 5; EInt 7; EInt 48; EInt 1; EInt 4]]));
  (68%N, set "id_pkix_ocsp_nocheck" (call (univ "ObjectIdentifier") [ETuple [EInt 1; EInt 3; EInt 6; EInt 1; EInt 5; EInt 5; EInt 7; EInt 48; EInt 1; EInt 5]]));
  (69%N, set "id_pkix_ocsp_archive_cutoff" (call (univ "ObjectIdentifier") [ETuple [EInt 1; EInt 3; EInt 6; EInt 1; EInt 5; EInt 5; EInt 7; EInt 48; EInt 1; EInt 6]]));
  (70%N, set "id_pkix_ocsp_service_locator" (call (univ "ObjectIdentifier") [ETuple [EInt 1; EInt 3; EInt 6; EInt 1; EInt 5; EInt 5; EInt 7; EInt 48; EInt 1; EInt 7]]));
  (73%N, SClass "AcceptableResponses" (univ "SequenceOf") [set "componentType" (call0 (univ "ObjectIdentifier"))]);
  (77%N, SClass "ArchiveCutoff" (useful "GeneralizedTime") [SPass]);
  (81%N, SClass "UnknownInfo" (univ "Null") [SPass]);
  (85%N, SClass "RevokedInfo" (univ "Sequence") [set "componentType" (nts [nt "revocationTime" (call0 (useful "GeneralizedTime")); ont "revocationReason" (explicit (new "CRLReason") (ctxS 0))])]);
  (93%N, SClass "CertID" (univ "Sequence") [set "componentType" (nts [nt "hashAlgorithm" (call0 (qual "rfc2459" "AlgorithmIdentifier")); nt "issuerNameHash" (call0 (univ "OctetString")); nt "issuerKeyHash" (call0 (univ "OctetString")); nt "serialNumber" (call0 (qual "rfc2459" "CertificateSerialNumber"))])]);
  (102%N, SClass "CertStatus" (univ "Choice") [set "componentType" (nts [nt "good" (implicit (call0 (univ "Null")) (ctxS 0)); nt "revoked" (implicit (new "RevokedInfo") (ctxS 1)); nt "unknown" (implicit (new "UnknownInfo") (ctxS 2))])]);
  (113%N, SClass "SingleResponse" (univ "Sequence") [set "componentType" (nts [nt "certID" (new "CertID"); nt "certStatus" (new "CertStatus"); nt "thisUpdate" (call0 (useful "GeneralizedTime")); ont "nextUpdate" (explicit (call0 (useful "GeneralizedTime")) (ctxS 0)); ont "singleExtensions" (explicit (call0 (qual "rfc2459" "Extensions")) (ctxS 1))])]);
  (125%N, SClass "KeyHash" (univ "OctetString") [SPass]);
  (129%N, SClass "ResponderID" (univ "Choice") [set "componentType" (nts [nt "byName" (explicit (call0 (qual "rfc2459" "Name")) (ctxS 1)); nt "byKey" (explicit (new "KeyHash") (ctxS 2))])]);
  (138%N, SClass "Version" (univ "Integer") [set "namedValues" (nvs [nv "v1" 0])]);
  (142%N, SClass "ResponseData" (univ "Sequence") [set "componentType" (nts [dnt "version" (explicit (call (EName "Version") [EStr "v1"]) (ctxS 0)); nt "responderID" (new "ResponderID"); nt "producedAt" (call0 (useful "GeneralizedTime")); nt "responses" (ECall (univ "SequenceOf") [] [("componentType", new "SingleResponse")]); ont "responseExtensions" (explicit (call0 (qual "rfc2459" "Extensions")) (ctxS 1))])]);
  (154%N, SClass "BasicOCSPResponse" (univ "Sequence") [set "componentType" (nts [nt "tbsResponseData" (new "ResponseData"); nt "signatureAlgorithm" (call0 (qual "rfc2459" "AlgorithmIdentifier")); nt "signature" (call0 (univ "BitString")); ont "certs" (explicit (ECall (univ "SequenceOf") [] [("componentType", call0 (qual "rfc2459" "Certificate"))]) (ctxS 0))])]);
  (164%N, SClass "ResponseBytes" (univ "Sequence") [set "componentType" (nts [nt "responseType" (call0 (univ "ObjectIdentifier")); nt "response" (call0 (univ "OctetString"))])]);
  (171%N, SClass "OCSPResponseStatus" (univ "Enumerated") [set "namedValues" (nvs [nv "successful" 0; nv "malformedRequest" 1; nv "internalError" 2; nv "tryLater" 3; nv "undefinedStatus" 4; nv "sigRequired" 5; nv "unauthorized" 6])]);
  (183%N, SClass "OCSPResponse" (univ "Sequence") [set "componentType" (nts [nt "responseStatus" (new "OCSPResponseStatus"); ont "responseBytes" (explicit (new "ResponseBytes") (ctxS 0))])]);
  (191%N, SClass "Request" (univ "Sequence") [set "componentType" (nts [nt "reqCert" (new "CertID"); ont "singleRequestExtensions" (explicit (call0 (qual "rfc2459" "Extensions")) (ctxS 0))])]);
  (199%N, SClass "Signature" (univ "Sequence") [set "componentType" (nts [nt "signatureAlgorithm" (call0 (qual "rfc2459" "AlgorithmIdentifier")); nt "signature" (call0 (univ "BitString")); ont "certs" (explicit (ECall (univ "SequenceOf") [] [("componentType", call0 (qual "rfc2459" "Certificate"))]) (ctxS 0))])]);
  (208%N, SClass "TBSRequest" (univ "Sequence") [set "componentType" (nts [dnt "version" (explicit (call (EName "Version") [EStr "v1"]) (ctxS 0)); ont "requestorName" (explicit (new "GeneralName") (ctxS 1)); nt "requestList" (ECall (univ "SequenceOf") [] [("componentType", new "Request")]); ont "requestExtensions" (explicit (call0 (qual "rfc2459" "Extensions")) (ctxS 2))])]);
  (220%N, SClass "OCSPRequest" (univ "Sequence") [set "componentType" (nts [nt "tbsRequest" (new "TBSRequest"); ont "optionalSignature" (explicit (new "Signature") (ctxS 0))])])
].
