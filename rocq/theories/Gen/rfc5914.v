(** pyasn1_modules/rfc5914.py, printed by tools/py2coq.py.  Every statement is
    preceded by its line number in that file. *)
From Verif Require Import Py.Syntax.
From Coq Require Import List String ZArith NArith.
Import ListNotations.
Open Scope string_scope.
Open Scope Z_scope.

Definition src : module := [
  (13%N, SFrom "pyasn1.type" [("char", "char")]);
  (14%N, SFrom "pyasn1.type" [("constraint", "constraint")]);
  (15%N, SFrom "pyasn1.type" [("namedtype", "namedtype")]);
  (16%N, SFrom "pyasn1.type" [("namedval", "namedval")]);
  (17%N, SFrom "pyasn1.type" [("tag", "tag")]);
  (18%N, SFrom "pyasn1.type" [("univ", "univ")]);
  (20%N, SFrom "pyasn1_modules" [("rfc5280", "rfc5280")]);
  (23%N, set "MAX" (call (EName "float") [EStr "inf"]));
  (25%N, set "Certificate" (qual "rfc5280" "Certificate"));
  (27%N, set "Name" (qual "rfc5280" "Name"));
  (29%N, set "Extensions" (qual "rfc5280" "Extensions"));
  (31%N, set "SubjectPublicKeyInfo" (qual "rfc5280" "SubjectPublicKeyInfo"));
  (33%N, set "TBSCertificate" (qual "rfc5280" "TBSCertificate"));
  (35%N, set "CertificatePolicies" (qual "rfc5280" "CertificatePolicies"));
  (37%N, set "KeyIdentifier" (qual "rfc5280" "KeyIdentifier"));
  (39%N, set "NameConstraints" (qual "rfc5280" "NameConstraints"));
  (42%N, SClass "CertPolicyFlags" (univ "BitString") [SPass]);
  (45%N, seta "CertPolicyFlags" "namedValues" (nvs [nv "inhibitPolicyMapping" 0; nv "requireExplicitPolicy" 1; nv "inhibitAnyPolicy" 2]));
  (52%N, SClass "CertPathControls" (univ "Sequence") [SPass]);
  (55%N, seta "CertPathControls" "componentType" (nts [nt "taName" (new "Name"); ont "certificate" (implicit (new "Certificate") (ctxS 0)); ont "policySet" (implicit (new "CertificatePolicies") (ctxS 1)); ont "policyFlags" (implicit (new "CertPolicyFlags") (ctxS 2)); ont "nameConstr" (implicit (new "NameConstraints") (ctxS 3)); ont "pathLenConstraint" (implicit (withspec (call0 (univ "Integer")) (rangec (EInt 0) (EName "MAX"))) (ctxS 4))]));
  (71%N, SClass "TrustAnchorTitle" (chr "UTF8String") [SPass]);
  (74%N, seta "TrustAnchorTitle" "subtypeSpec" (sizec (EInt 1) (EInt 64)));
  (77%N, SClass "TrustAnchorInfoVersion" (univ "Integer") [SPass]);
  (80%N, seta "TrustAnchorInfoVersion" "namedValues" (nvs [nv "v1" 1]));
  (85%N, SClass "TrustAnchorInfo" (univ "Sequence") [SPass]);
  (88%N, seta "TrustAnchorInfo" "componentType" (nts [dnt "version" (withvalue (new "TrustAnchorInfoVersion") (EStr "v1")); nt "pubKey" (new "SubjectPublicKeyInfo"); nt "keyId" (new "KeyIdentifier"); ont "taTitle" (new "TrustAnchorTitle"); ont "certPath" (new "CertPathControls"); ont "exts" (explicit (new "Extensions") (ctxS 1)); ont "taTitleLangTag" (implicit (call0 (chr "UTF8String")) (ctxS 2))]));
  (101%N, SClass "TrustAnchorChoice" (univ "Choice") [SPass]);
  (104%N, seta "TrustAnchorChoice" "componentType" (nts [nt "certificate" (new "Certificate"); nt "tbsCert" (explicit (new "TBSCertificate") (ctxS 1)); nt "taInfo" (explicit (new "TrustAnchorInfo") (ctxC 2))]));
  (113%N, set "id_ct_trustAnchorList" (call (univ "ObjectIdentifier") [EStr "1.2.840.113549.1.9.16.1.34"]));
  (115%N, SClass "TrustAnchorList" (univ "SequenceOf") [SPass]);
  (118%N, seta "TrustAnchorList" "componentType" (new "TrustAnchorChoice"));
  (119%N, seta "TrustAnchorList" "subtypeSpec" (sizec (EInt 1) (EName "MAX")))
].
