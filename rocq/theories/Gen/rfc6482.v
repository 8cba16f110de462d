(** pyasn1_modules/rfc6482.py, printed by tools/py2coq.py.  Every statement is
    preceded by its line number in that file. *)
From Verif Require Import Py.Syntax.
From Coq Require Import List String ZArith NArith.
Import ListNotations.
Open Scope string_scope.
Open Scope Z_scope.

Definition src : module := [
  (16%N, SFrom "pyasn1.type" [("constraint", "constraint")]);
  (17%N, SFrom "pyasn1.type" [("namedtype", "namedtype")]);
  (18%N, SFrom "pyasn1.type" [("tag", "tag")]);
  (19%N, SFrom "pyasn1.type" [("univ", "univ")]);
  (21%N, SFrom "pyasn1_modules" [("rfc5652", "rfc5652")]);
  (23%N, set "MAX" (call (EName "float") [EStr "inf"]));
  (26%N, set "id_ct_routeOriginAuthz" (call (univ "ObjectIdentifier") [EStr "1.2.840.113549.1.9.16.1.24"]));
  (29%N, SClass "ASID" (univ "Integer") [SPass]);
  (33%N, SClass "IPAddress" (univ "BitString") [SPass]);
  (37%N, SClass "ROAIPAddress" (univ "Sequence") [set "componentType" (nts [nt "address" (new "IPAddress"); ont "maxLength" (call0 (univ "Integer"))])]);
  (44%N, SClass "ROAIPAddressFamily" (univ "Sequence") [set "componentType" (nts [nt "addressFamily" (withspec (call0 (univ "OctetString")) (sizec (EInt 2) (EInt 3))); nt "addresses" (withspec (ECall (univ "SequenceOf") [] [("componentType", new "ROAIPAddress")]) (sizec (EInt 1) (EName "MAX")))])]);
  (55%N, SClass "RouteOriginAttestation" (univ "Sequence") [set "componentType" (nts [dnt "version" (withvalue (explicit (call0 (univ "Integer")) (ctxS 0)) (EInt 0)); nt "asID" (new "ASID"); nt "ipAddrBlocks" (withspec (ECall (univ "SequenceOf") [] [("componentType", new "ROAIPAddressFamily")]) (sizec (EInt 1) (EName "MAX")))])]);
  (70%N, set "_cmsContentTypesMapUpdate" (EDict [(EName "id_ct_routeOriginAuthz", new "RouteOriginAttestation")]));
  (74%N, SExpr (call (EAttr (qual "rfc5652" "cmsContentTypesMap") "update") [EName "_cmsContentTypesMapUpdate"]))
].
