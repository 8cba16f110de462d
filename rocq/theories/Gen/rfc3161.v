(** pyasn1_modules/rfc3161.py, printed by tools/py2coq.py.  Every statement is
    preceded by its line number in that file. *)
From Verif Require Import Py.Syntax.
From Coq Require Import List String ZArith NArith.
Import ListNotations.
Open Scope string_scope.
Open Scope Z_scope.

Definition src : module := [
  (15%N, SFrom "pyasn1.type" [("constraint", "constraint")]);
  (16%N, SFrom "pyasn1.type" [("namedtype", "namedtype")]);
  (17%N, SFrom "pyasn1.type" [("namedval", "namedval")]);
  (18%N, SFrom "pyasn1.type" [("tag", "tag")]);
  (19%N, SFrom "pyasn1.type" [("univ", "univ")]);
  (20%N, SFrom "pyasn1.type" [("useful", "useful")]);
  (22%N, SFrom "pyasn1_modules" [("rfc4210", "rfc4210")]);
  (23%N, SFrom "pyasn1_modules" [("rfc5280", "rfc5280")]);
  (24%N, SFrom "pyasn1_modules" [("rfc5652", "rfc5652")]);
  (27%N, set "Extensions" (qual "rfc5280" "Extensions"));
  (29%N, set "AlgorithmIdentifier" (qual "rfc5280" "AlgorithmIdentifier"));
  (31%N, set "GeneralName" (qual "rfc5280" "GeneralName"));
  (33%N, set "ContentInfo" (qual "rfc5652" "ContentInfo"));
  (35%N, set "PKIFreeText" (qual "rfc4210" "PKIFreeText"));
  (38%N, set "id_ct_TSTInfo" (call (univ "ObjectIdentifier") [EStr "1.2.840.113549.1.9.16.1.4"]));
  (41%N, SClass "Accuracy" (univ "Sequence") [SPass]);
  (44%N, seta "Accuracy" "componentType" (nts [ont "seconds" (call0 (univ "Integer")); ont "millis" (implicit (withspec (call0 (univ "Integer")) (rangec (EInt 1) (EInt 999))) (ctxS 0)); ont "micros" (implicit (withspec (call0 (univ "Integer")) (rangec (EInt 1) (EInt 999))) (ctxS 1))]));
  (51%N, SClass "MessageImprint" (univ "Sequence") [SPass]);
  (54%N, seta "MessageImprint" "componentType" (nts [nt "hashAlgorithm" (new "AlgorithmIdentifier"); nt "hashedMessage" (call0 (univ "OctetString"))]));
  (60%N, SClass "PKIFailureInfo" (univ "BitString") [SPass]);
  (63%N, seta "PKIFailureInfo" "namedValues" (nvs [nv "badAlg" 0; nv "badRequest" 2; nv "badDataFormat" 5; nv "timeNotAvailable" 14; nv "unacceptedPolicy" 15; nv "unacceptedExtension" 16; nv "addInfoNotAvailable" 17; nv "systemFailure" 25]));
  (75%N, SClass "PKIStatus" (univ "Integer") [SPass]);
  (78%N, seta "PKIStatus" "namedValues" (nvs [nv "granted" 0; nv "grantedWithMods" 1; nv "rejection" 2; nv "waiting" 3; nv "revocationWarning" 4; nv "revocationNotification" 5]));
  (88%N, SClass "PKIStatusInfo" (univ "Sequence") [SPass]);
  (91%N, seta "PKIStatusInfo" "componentType" (nts [nt "status" (new "PKIStatus"); ont "statusString" (new "PKIFreeText"); ont "failInfo" (new "PKIFailureInfo")]));
  (98%N, SClass "TSAPolicyId" (univ "ObjectIdentifier") [SPass]);
  (102%N, SClass "TSTInfo" (univ "Sequence") [SPass]);
  (105%N, seta "TSTInfo" "componentType" (nts [nt "version" (ECall (univ "Integer") [] [("namedValues", nvs [nv "v1" 1])]); nt "policy" (new "TSAPolicyId"); nt "messageImprint" (new "MessageImprint"); nt "serialNumber" (call0 (univ "Integer")); nt "genTime" (call0 (useful "GeneralizedTime")); ont "accuracy" (new "Accuracy"); dnt "ordering" (withvalue (call0 (univ "Boolean")) (EInt 0)); ont "nonce" (call0 (univ "Integer")); ont "tsa" (implicit (new "GeneralName") (ctxS 0)); ont "extensions" (implicit (new "Extensions") (ctxS 1))]));
  (119%N, SClass "TimeStampReq" (univ "Sequence") [SPass]);
  (122%N, seta "TimeStampReq" "componentType" (nts [nt "version" (ECall (univ "Integer") [] [("namedValues", nvs [nv "v1" 1])]); nt "messageImprint" (new "MessageImprint"); ont "reqPolicy" (new "TSAPolicyId"); ont "nonce" (call0 (univ "Integer")); dnt "certReq" (withvalue (call0 (univ "Boolean")) (EInt 0)); ont "extensions" (implicit (new "Extensions") (ctxS 0))]));
  (132%N, SClass "TimeStampToken" (EName "ContentInfo") [SPass]);
  (136%N, SClass "TimeStampResp" (univ "Sequence") [SPass]);
  (139%N, seta "TimeStampResp" "componentType" (nts [nt "status" (new "PKIStatusInfo"); ont "timeStampToken" (new "TimeStampToken")]))
].
