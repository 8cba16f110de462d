(** pyasn1_modules/rfc5751.py, printed by tools/py2coq.py.  Every statement is
    preceded by its line number in that file. *)
From Verif Require Import Py.Syntax.
From Coq Require Import List String ZArith NArith.
Import ListNotations.
Open Scope string_scope.
Open Scope Z_scope.

Definition src : module := [
  (13%N, SFrom "pyasn1.type" [("namedtype", "namedtype")]);
  (14%N, SFrom "pyasn1.type" [("opentype", "opentype")]);
  (15%N, SFrom "pyasn1.type" [("tag", "tag")]);
  (16%N, SFrom "pyasn1.type" [("univ", "univ")]);
  (18%N, SFrom "pyasn1_modules" [("rfc5652", "rfc5652")]);
  (19%N, SFrom "pyasn1_modules" [("rfc8018", "rfc8018")]);
  (22%N, SDef "_OID" [] (Some "components") [set "output" (EList []); SFor "x" (call (EName "tuple") [EName "components"]) [SIf (call (EName "isinstance") [EName "x"; univ "ObjectIdentifier"]) [SExpr (call (qual "output" "extend") [call (EName "list") [EName "x"]])] [SExpr (call (qual "output" "append") [call (EName "int") [EName "x"]])]]; SReturn (call (univ "ObjectIdentifier") [EName "output"])]);
  (34%N, set "IssuerAndSerialNumber" (qual "rfc5652" "IssuerAndSerialNumber"));
  (36%N, set "RecipientKeyIdentifier" (qual "rfc5652" "RecipientKeyIdentifier"));
  (38%N, set "SubjectKeyIdentifier" (qual "rfc5652" "SubjectKeyIdentifier"));
  (40%N, set "rc2CBC" (qual "rfc8018" "rc2CBC"));
  (45%N, set "smimeCapabilities" (call (univ "ObjectIdentifier") [EStr "1.2.840.113549.1.9.15"]));
  (48%N, set "smimeCapabilityMap" (EDict []));
  (51%N, SClass "SMIMECapability" (univ "Sequence") [SPass]);
  (54%N, seta "SMIMECapability" "componentType" (nts [nt "capabilityID" (call0 (univ "ObjectIdentifier")); ECall (qual "namedtype" "OptionalNamedType") [EStr "parameters"; call0 (univ "Any")] [("openType", call (qual "opentype" "OpenType") [EStr "capabilityID"; EName "smimeCapabilityMap"])]]));
  (61%N, SClass "SMIMECapabilities" (univ "SequenceOf") [SPass]);
  (64%N, seta "SMIMECapabilities" "componentType" (new "SMIMECapability"));
  (67%N, SClass "SMIMECapabilitiesParametersForRC2CBC" (univ "Integer") [SPass]);
  (74%N, set "id_smime" (call (univ "ObjectIdentifier") [EStr "1.2.840.113549.1.9.16"]));
  (76%N, set "id_aa" (call (EName "_OID") [EName "id_smime"; EInt 2]));
  (78%N, set "id_aa_encrypKeyPref" (call (EName "_OID") [EName "id_aa"; EInt 11]));
  (81%N, SClass "SMIMEEncryptionKeyPreference" (univ "Choice") [SPass]);
  (84%N, seta "SMIMEEncryptionKeyPreference" "componentType" (nts [nt "issuerAndSerialNumber" (implicit (new "IssuerAndSerialNumber") (ctxS 0)); nt "receipentKeyId" (implicit (new "RecipientKeyIdentifier") (ctxS 1)); nt "subjectAltKeyIdentifier" (implicit (new "SubjectKeyIdentifier") (ctxS 2))]));
  (101%N, set "id_cap" (call (EName "_OID") [EName "id_smime"; EInt 11]));
  (103%N, set "id_cap_preferBinaryInside" (call (EName "_OID") [EName "id_cap"; EInt 1]));
  (108%N, set "_cmsAttributesMapUpdate" (EDict [(EName "smimeCapabilities", new "SMIMECapabilities"); (EName "id_aa_encrypKeyPref", new "SMIMEEncryptionKeyPreference")]));
  (113%N, SExpr (call (EAttr (qual "rfc5652" "cmsAttributesMap") "update") [EName "_cmsAttributesMapUpdate"]));
  (120%N, set "_smimeCapabilityMapUpdate" (EDict [(EName "rc2CBC", new "SMIMECapabilitiesParametersForRC2CBC")]));
  (124%N, SExpr (call (qual "smimeCapabilityMap" "update") [EName "_smimeCapabilityMapUpdate"]))
].
