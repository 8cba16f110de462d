(** pyasn1_modules/rfc5940.py, printed by tools/py2coq.py.  Every statement is
    preceded by its line number in that file. *)
From Verif Require Import Py.Syntax.
From Coq Require Import List String ZArith NArith.
Import ListNotations.
Open Scope string_scope.
Open Scope Z_scope.

Definition src : module := [
  (16%N, SFrom "pyasn1.type" [("namedtype", "namedtype")]);
  (17%N, SFrom "pyasn1.type" [("tag", "tag")]);
  (18%N, SFrom "pyasn1.type" [("univ", "univ")]);
  (20%N, SFrom "pyasn1_modules" [("rfc2560", "rfc2560")]);
  (21%N, SFrom "pyasn1_modules" [("rfc5652", "rfc5652")]);
  (28%N, set "id_ri_ocsp_response" (call (univ "ObjectIdentifier") [EStr "1.3.6.1.5.5.7.16.2"]));
  (30%N, set "OCSPResponse" (qual "rfc2560" "OCSPResponse"));
  (37%N, set "id_ri_scvp" (call (univ "ObjectIdentifier") [EStr "1.3.6.1.5.5.7.16.4"]));
  (39%N, set "ContentInfo" (qual "rfc5652" "ContentInfo"));
  (41%N, SClass "SCVPReqRes" (univ "Sequence") [SPass]);
  (44%N, seta "SCVPReqRes" "componentType" (nts [ont "request" (explicit (new "ContentInfo") (ctxS 0)); nt "response" (new "ContentInfo")]));
  (54%N, set "_otherRevInfoFormatMapUpdate" (EDict [(EName "id_ri_ocsp_response", new "OCSPResponse"); (EName "id_ri_scvp", new "SCVPReqRes")]));
  (59%N, SExpr (call (EAttr (qual "rfc5652" "otherRevInfoFormatMap") "update") [EName "_otherRevInfoFormatMapUpdate"]))
].
