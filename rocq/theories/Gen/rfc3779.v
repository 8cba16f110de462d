(** pyasn1_modules/rfc3779.py, printed by tools/py2coq.py.  Every statement is
    preceded by its line number in that file. *)
From Verif Require Import Py.Syntax.
From Coq Require Import List String ZArith NArith.
Import ListNotations.
Open Scope string_scope.
Open Scope Z_scope.

Definition src : module := [
  (16%N, SFrom "pyasn1.type" [("constraint", "constraint")]);
  (17%N, SFrom "pyasn1.type" [("namedtype", "namedtype")]);
  (18%N, SFrom "pyasn1.type" [("tag", "tag")]);
  (19%N, SFrom "pyasn1.type" [("univ", "univ")]);
  (21%N, SFrom "pyasn1_modules" [("rfc5280", "rfc5280")]);
  (26%N, set "id_pe_ipAddrBlocks" (call (univ "ObjectIdentifier") [EStr "1.3.6.1.5.5.7.1.7"]));
  (29%N, SClass "IPAddress" (univ "BitString") [SPass]);
  (33%N, SClass "IPAddressRange" (univ "Sequence") [SPass]);
  (36%N, seta "IPAddressRange" "componentType" (nts [nt "min" (new "IPAddress"); nt "max" (new "IPAddress")]));
  (42%N, SClass "IPAddressOrRange" (univ "Choice") [SPass]);
  (45%N, seta "IPAddressOrRange" "componentType" (nts [nt "addressPrefix" (new "IPAddress"); nt "addressRange" (new "IPAddressRange")]));
  (51%N, SClass "IPAddressChoice" (univ "Choice") [SPass]);
  (54%N, seta "IPAddressChoice" "componentType" (nts [nt "inherit" (call0 (univ "Null")); nt "addressesOrRanges" (ECall (univ "SequenceOf") [] [("componentType", new "IPAddressOrRange")])]));
  (62%N, SClass "IPAddressFamily" (univ "Sequence") [SPass]);
  (65%N, seta "IPAddressFamily" "componentType" (nts [nt "addressFamily" (withspec (call0 (univ "OctetString")) (sizec (EInt 2) (EInt 3))); nt "ipAddressChoice" (new "IPAddressChoice")]));
  (72%N, SClass "IPAddrBlocks" (univ "SequenceOf") [SPass]);
  (75%N, seta "IPAddrBlocks" "componentType" (new "IPAddressFamily"));
  (80%N, set "id_pe_autonomousSysIds" (call (univ "ObjectIdentifier") [EStr "1.3.6.1.5.5.7.1.8"]));
  (83%N, SClass "ASId" (univ "Integer") [SPass]);
  (87%N, SClass "ASRange" (univ "Sequence") [SPass]);
  (90%N, seta "ASRange" "componentType" (nts [nt "min" (new "ASId"); nt "max" (new "ASId")]));
  (96%N, SClass "ASIdOrRange" (univ "Choice") [SPass]);
  (99%N, seta "ASIdOrRange" "componentType" (nts [nt "id" (new "ASId"); nt "range" (new "ASRange")]));
  (105%N, SClass "ASIdentifierChoice" (univ "Choice") [SPass]);
  (108%N, seta "ASIdentifierChoice" "componentType" (nts [nt "inherit" (call0 (univ "Null")); nt "asIdsOrRanges" (ECall (univ "SequenceOf") [] [("componentType", new "ASIdOrRange")])]));
  (116%N, SClass "ASIdentifiers" (univ "Sequence") [SPass]);
  (119%N, seta "ASIdentifiers" "componentType" (nts [ont "asnum" (explicit (new "ASIdentifierChoice") (ctxC 0)); ont "rdi" (explicit (new "ASIdentifierChoice") (ctxC 1))]));
  (132%N, set "_certificateExtensionsMapUpdate" (EDict [(EName "id_pe_ipAddrBlocks", new "IPAddrBlocks"); (EName "id_pe_autonomousSysIds", new "ASIdentifiers")]));
  (137%N, SExpr (call (EAttr (qual "rfc5280" "certificateExtensionsMap") "update") [EName "_certificateExtensionsMapUpdate"]))
].
