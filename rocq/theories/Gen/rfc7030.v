(** pyasn1_modules/rfc7030.py, printed by tools/py2coq.py.  Every statement is
    preceded by its line number in that file. *)
From Verif Require Import Py.Syntax.
From Coq Require Import List String ZArith NArith.
Import ListNotations.
Open Scope string_scope.
Open Scope Z_scope.

Definition src : module := [
  (15%N, SFrom "pyasn1.type" [("constraint", "constraint")]);
  (16%N, SFrom "pyasn1.type" [("namedtype", "namedtype")]);
  (17%N, SFrom "pyasn1.type" [("univ", "univ")]);
  (19%N, SFrom "pyasn1_modules" [("rfc5652", "rfc5652")]);
  (21%N, set "MAX" (call (EName "float") [EStr "inf"]));
  (26%N, set "Attribute" (qual "rfc5652" "Attribute"));
  (31%N, set "id_aa_asymmDecryptKeyID" (call (univ "ObjectIdentifier") [EStr "1.2.840.113549.1.9.16.2.54"]));
  (33%N, SClass "AsymmetricDecryptKeyIdentifier" (univ "OctetString") [SPass]);
  (37%N, set "aa_asymmDecryptKeyID" (new "Attribute"));
  (38%N, SAssign [ESub (EName "aa_asymmDecryptKeyID") (EStr "attrType")] (EName "id_aa_asymmDecryptKeyID"));
  (39%N, SAssign [ESub (ESub (EName "aa_asymmDecryptKeyID") (EStr "attrValues")) (EInt 0)] (new "AsymmetricDecryptKeyIdentifier"));
  (44%N, SClass "AttrOrOID" (univ "Choice") [SPass]);
  (47%N, seta "AttrOrOID" "componentType" (nts [nt "oid" (call0 (univ "ObjectIdentifier")); nt "attribute" (new "Attribute")]));
  (53%N, SClass "CsrAttrs" (univ "SequenceOf") [SPass]);
  (56%N, seta "CsrAttrs" "componentType" (new "AttrOrOID"));
  (57%N, seta "CsrAttrs" "subtypeSpec" (sizec (EInt 0) (EName "MAX")));
  (62%N, set "_cmsAttributesMapUpdate" (EDict [(EName "id_aa_asymmDecryptKeyID", new "AsymmetricDecryptKeyIdentifier")]));
  (66%N, SExpr (call (EAttr (qual "rfc5652" "cmsAttributesMap") "update") [EName "_cmsAttributesMapUpdate"]))
].
