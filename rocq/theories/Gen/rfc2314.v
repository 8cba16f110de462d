(** pyasn1_modules/rfc2314.py, printed by tools/py2coq.py.  Every statement is
    preceded by its line number in that file. *)
From Verif Require Import Py.Syntax.
From Coq Require Import List String ZArith NArith.
Import ListNotations.
Open Scope string_scope.
Open Scope Z_scope.

Definition src : module := [
  (14%N, SFromStar "pyasn1_modules.rfc2459");
  (17%N, SClass "Attributes" (univ "SetOf") [set "componentType" (new "Attribute")]);
  (21%N, SClass "Version" (univ "Integer") [SPass]);
  (25%N, SClass "CertificationRequestInfo" (univ "Sequence") [set "componentType" (nts [nt "version" (new "Version"); nt "subject" (new "Name"); nt "subjectPublicKeyInfo" (new "SubjectPublicKeyInfo"); nt "attributes" (implicit (new "Attributes") (ctxC 0))])]);
  (35%N, SClass "Signature" (univ "BitString") [SPass]);
  (39%N, SClass "SignatureAlgorithmIdentifier" (EName "AlgorithmIdentifier") [SPass]);
  (43%N, SClass "CertificationRequest" (univ "Sequence") [set "componentType" (nts [nt "certificationRequestInfo" (new "CertificationRequestInfo"); nt "signatureAlgorithm" (new "SignatureAlgorithmIdentifier"); nt "signature" (new "Signature")])])
].
