(** pyasn1_modules/rfc2986.py, printed by tools/py2coq.py.  Every statement is
    preceded by its line number in that file. *)
From Verif Require Import Py.Syntax.
From Coq Require Import List String ZArith NArith.
Import ListNotations.
Open Scope string_scope.
Open Scope Z_scope.

Definition src : module := [
  (17%N, SFrom "pyasn1.type" [("namedtype", "namedtype")]);
  (18%N, SFrom "pyasn1.type" [("tag", "tag")]);
  (19%N, SFrom "pyasn1.type" [("univ", "univ")]);
  (21%N, SFrom "pyasn1_modules" [("rfc5280", "rfc5280")]);
  (23%N, set "MAX" (call (EName "float") [EStr "inf"]));
  (26%N, set "AttributeType" (qual "rfc5280" "AttributeType"));
  (28%N, set "AttributeValue" (qual "rfc5280" "AttributeValue"));
  (30%N, set "AttributeTypeAndValue" (qual "rfc5280" "AttributeTypeAndValue"));
  (32%N, set "Attribute" (qual "rfc5280" "Attribute"));
  (34%N, set "RelativeDistinguishedName" (qual "rfc5280" "RelativeDistinguishedName"));
  (36%N, set "RDNSequence" (qual "rfc5280" "RDNSequence"));
  (38%N, set "Name" (qual "rfc5280" "Name"));
  (40%N, set "AlgorithmIdentifier" (qual "rfc5280" "AlgorithmIdentifier"));
  (42%N, set "SubjectPublicKeyInfo" (qual "rfc5280" "SubjectPublicKeyInfo"));
  (45%N, SClass "Attributes" (univ "SetOf") [SPass]);
  (49%N, seta "Attributes" "componentType" (new "Attribute"));
  (52%N, SClass "CertificationRequestInfo" (univ "Sequence") [SPass]);
  (56%N, seta "CertificationRequestInfo" "componentType" (nts [nt "version" (call0 (univ "Integer")); nt "subject" (new "Name"); nt "subjectPKInfo" (new "SubjectPublicKeyInfo"); nt "attributes" (implicit (new "Attributes") (ctxS 0))]));
  (67%N, SClass "CertificationRequest" (univ "Sequence") [SPass]);
  (71%N, seta "CertificationRequest" "componentType" (nts [nt "certificationRequestInfo" (new "CertificationRequestInfo"); nt "signatureAlgorithm" (new "AlgorithmIdentifier"); nt "signature" (call0 (univ "BitString"))]))
].
