(** pyasn1_modules/rfc7296.py, printed by tools/py2coq.py.  Every statement is
    preceded by its line number in that file. *)
From Verif Require Import Py.Syntax.
From Coq Require Import List String ZArith NArith.
Import ListNotations.
Open Scope string_scope.
Open Scope Z_scope.

Definition src : module := [
  (13%N, SFrom "pyasn1.type" [("namedtype", "namedtype")]);
  (14%N, SFrom "pyasn1.type" [("tag", "tag")]);
  (15%N, SFrom "pyasn1.type" [("univ", "univ")]);
  (17%N, SFrom "pyasn1_modules" [("rfc5280", "rfc5280")]);
  (20%N, SClass "CertificateOrCRL" (univ "Choice") [SPass]);
  (23%N, seta "CertificateOrCRL" "componentType" (nts [nt "cert" (explicit (call0 (qual "rfc5280" "Certificate")) (ctxS 0)); nt "crl" (explicit (call0 (qual "rfc5280" "CertificateList")) (ctxS 1))]));
  (29%N, SClass "CertificateBundle" (univ "SequenceOf") [SPass]);
  (32%N, seta "CertificateBundle" "componentType" (new "CertificateOrCRL"))
].
