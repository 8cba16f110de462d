(** pyasn1_modules/rfc3125.py, printed by tools/py2coq.py.  Every statement is
    preceded by its line number in that file. *)
From Verif Require Import Py.Syntax.
From Coq Require Import List String ZArith NArith.
Import ListNotations.
Open Scope string_scope.
Open Scope Z_scope.

Definition src : module := [
  (17%N, SFrom "pyasn1.type" [("constraint", "constraint")]);
  (18%N, SFrom "pyasn1.type" [("namedtype", "namedtype")]);
  (19%N, SFrom "pyasn1.type" [("namedval", "namedval")]);
  (20%N, SFrom "pyasn1.type" [("tag", "tag")]);
  (21%N, SFrom "pyasn1.type" [("useful", "useful")]);
  (22%N, SFrom "pyasn1.type" [("univ", "univ")]);
  (24%N, SFrom "pyasn1_modules" [("rfc5280", "rfc5280")]);
  (26%N, set "MAX" (call (EName "float") [EStr "inf"]));
  (31%N, set "AlgorithmIdentifier" (qual "rfc5280" "AlgorithmIdentifier"));
  (33%N, set "Attribute" (qual "rfc5280" "Attribute"));
  (35%N, set "AttributeType" (qual "rfc5280" "AttributeType"));
  (37%N, set "AttributeTypeAndValue" (qual "rfc5280" "AttributeTypeAndValue"));
  (39%N, set "AttributeValue" (qual "rfc5280" "AttributeValue"));
  (41%N, set "Certificate" (qual "rfc5280" "Certificate"));
  (43%N, set "CertificateList" (qual "rfc5280" "CertificateList"));
  (45%N, set "DirectoryString" (qual "rfc5280" "DirectoryString"));
  (47%N, set "GeneralName" (qual "rfc5280" "GeneralName"));
  (49%N, set "GeneralNames" (qual "rfc5280" "GeneralNames"));
  (51%N, set "Name" (qual "rfc5280" "Name"));
  (53%N, set "PolicyInformation" (qual "rfc5280" "PolicyInformation"));
  (58%N, SClass "CertPolicyId" (univ "ObjectIdentifier") [SPass]);
  (62%N, SClass "AcceptablePolicySet" (univ "SequenceOf") [set "componentType" (new "CertPolicyId")]);
  (66%N, SClass "SignPolExtn" (univ "Sequence") [set "componentType" (nts [nt "extnID" (call0 (univ "ObjectIdentifier")); nt "extnValue" (call0 (univ "OctetString"))])]);
  (73%N, SClass "SignPolExtensions" (univ "SequenceOf") [set "componentType" (new "SignPolExtn")]);
  (77%N, SClass "AlgAndLength" (univ "Sequence") [set "componentType" (nts [nt "algID" (call0 (univ "ObjectIdentifier")); ont "minKeyLength" (call0 (univ "Integer")); ont "other" (new "SignPolExtensions")])]);
  (85%N, SClass "AlgorithmConstraints" (univ "SequenceOf") [set "componentType" (new "AlgAndLength")]);
  (89%N, SClass "AlgorithmConstraintSet" (univ "Sequence") [set "componentType" (nts [ont "signerAlgorithmConstraints" (explicit (new "AlgorithmConstraints") (ctxS 0)); ont "eeCertAlgorithmConstraints" (explicit (new "AlgorithmConstraints") (ctxS 1)); ont "caCertAlgorithmConstraints" (explicit (new "AlgorithmConstraints") (ctxS 2)); ont "aaCertAlgorithmConstraints" (explicit (new "AlgorithmConstraints") (ctxS 3)); ont "tsaCertAlgorithmConstraints" (explicit (new "AlgorithmConstraints") (ctxS 4))])]);
  (109%N, SClass "AttributeValueConstraints" (univ "SequenceOf") [set "componentType" (new "AttributeTypeAndValue")]);
  (113%N, SClass "AttributeTypeConstraints" (univ "SequenceOf") [set "componentType" (new "AttributeType")]);
  (117%N, SClass "AttributeConstraints" (univ "Sequence") [set "componentType" (nts [ont "attributeTypeConstarints" (explicit (new "AttributeTypeConstraints") (ctxS 0)); ont "attributeValueConstarints" (explicit (new "AttributeValueConstraints") (ctxS 1))])]);
  (128%N, SClass "HowCertAttribute" (univ "Enumerated") [set "namedValues" (nvs [nv "claimedAttribute" 0; nv "certifiedAttribtes" 1; nv "either" 2])]);
  (136%N, SClass "SkipCerts" (univ "Integer") [set "subtypeSpec" (rangec (EInt 0) (EName "MAX"))]);
  (140%N, SClass "PolicyConstraints" (univ "Sequence") [set "componentType" (nts [ont "requireExplicitPolicy" (explicit (new "SkipCerts") (ctxS 0)); ont "inhibitPolicyMapping" (explicit (new "SkipCerts") (ctxS 1))])]);
  (151%N, SClass "BaseDistance" (univ "Integer") [set "subtypeSpec" (rangec (EInt 0) (EName "MAX"))]);
  (155%N, SClass "GeneralSubtree" (univ "Sequence") [set "componentType" (nts [nt "base" (new "GeneralName"); dnt "minimum" (withvalue (explicit (new "BaseDistance") (ctxS 0)) (EInt 0)); ont "maximum" (explicit (new "BaseDistance") (ctxS 1))])]);
  (168%N, SClass "GeneralSubtrees" (univ "SequenceOf") [set "componentType" (new "GeneralSubtree"); set "subtypeSpec" (sizec (EInt 1) (EName "MAX"))]);
  (173%N, SClass "NameConstraints" (univ "Sequence") [set "componentType" (nts [ont "permittedSubtrees" (explicit (new "GeneralSubtrees") (ctxS 0)); ont "excludedSubtrees" (explicit (new "GeneralSubtrees") (ctxS 1))])]);
  (184%N, SClass "PathLenConstraint" (univ "Integer") [set "subtypeSpec" (rangec (EInt 0) (EName "MAX"))]);
  (188%N, SClass "CertificateTrustPoint" (univ "Sequence") [set "componentType" (nts [nt "trustpoint" (new "Certificate"); ont "pathLenConstraint" (explicit (new "PathLenConstraint") (ctxS 0)); ont "acceptablePolicySet" (explicit (new "AcceptablePolicySet") (ctxS 1)); ont "nameConstraints" (explicit (new "NameConstraints") (ctxC 2)); ont "policyConstraints" (explicit (new "PolicyConstraints") (ctxC 3))])]);
  (206%N, SClass "CertificateTrustTrees" (univ "SequenceOf") [set "componentType" (new "CertificateTrustPoint")]);
  (210%N, SClass "EnuRevReq" (univ "Enumerated") [set "namedValues" (nvs [nv "clrCheck" 0; nv "ocspCheck" 1; nv "bothCheck" 2; nv "eitherCheck" 3; nv "noCheck" 4; nv "other" 5])]);
  (221%N, SClass "RevReq" (univ "Sequence") [set "componentType" (nts [nt "enuRevReq" (new "EnuRevReq"); ont "exRevReq" (new "SignPolExtensions")])]);
  (228%N, SClass "CertRevReq" (univ "Sequence") [set "componentType" (nts [nt "endCertRevReq" (new "RevReq"); nt "caCerts" (explicit (new "RevReq") (ctxC 0))])]);
  (237%N, SClass "AttributeTrustCondition" (univ "Sequence") [set "componentType" (nts [nt "attributeMandated" (call0 (univ "Boolean")); nt "howCertAttribute" (new "HowCertAttribute"); ont "attrCertificateTrustTrees" (explicit (new "CertificateTrustTrees") (ctxS 0)); ont "attrRevReq" (explicit (new "CertRevReq") (ctxC 1)); ont "attributeConstraints" (explicit (new "AttributeConstraints") (ctxC 2))])]);
  (253%N, SClass "CMSAttrs" (univ "SequenceOf") [set "componentType" (call0 (univ "ObjectIdentifier"))]);
  (257%N, SClass "CertInfoReq" (univ "Enumerated") [set "namedValues" (nvs [nv "none" 0; nv "signerOnly" 1; nv "fullPath" 2])]);
  (265%N, SClass "CertRefReq" (univ "Enumerated") [set "namedValues" (nvs [nv "signerOnly" 1; nv "fullPath" 2])]);
  (272%N, SClass "DeltaTime" (univ "Sequence") [set "componentType" (nts [nt "deltaSeconds" (call0 (univ "Integer")); nt "deltaMinutes" (call0 (univ "Integer")); nt "deltaHours" (call0 (univ "Integer")); nt "deltaDays" (call0 (univ "Integer"))])]);
  (281%N, SClass "TimestampTrustCondition" (univ "Sequence") [set "componentType" (nts [ont "ttsCertificateTrustTrees" (explicit (new "CertificateTrustTrees") (ctxS 0)); ont "ttsRevReq" (explicit (new "CertRevReq") (ctxC 1)); ont "ttsNameConstraints" (explicit (new "NameConstraints") (ctxC 2)); ont "cautionPeriod" (explicit (new "DeltaTime") (ctxC 3)); ont "signatureTimestampDelay" (explicit (new "DeltaTime") (ctxC 4))])]);
  (301%N, SClass "SignerRules" (univ "Sequence") [set "componentType" (nts [ont "externalSignedData" (call0 (univ "Boolean")); nt "mandatedSignedAttr" (new "CMSAttrs"); nt "mandatedUnsignedAttr" (new "CMSAttrs"); dnt "mandatedCertificateRef" (withvalue (explicit (new "CertRefReq") (ctxS 0)) (EStr "signerOnly")); dnt "mandatedCertificateInfo" (withvalue (explicit (new "CertInfoReq") (ctxS 1)) (EStr "none")); ont "signPolExtensions" (explicit (new "SignPolExtensions") (ctxS 2))])]);
  (320%N, SClass "MandatedUnsignedAttr" (EName "CMSAttrs") [SPass]);
  (324%N, SClass "VerifierRules" (univ "Sequence") [set "componentType" (nts [nt "mandatedUnsignedAttr" (new "MandatedUnsignedAttr"); ont "signPolExtensions" (new "SignPolExtensions")])]);
  (331%N, SClass "SignerAndVerifierRules" (univ "Sequence") [set "componentType" (nts [nt "signerRules" (new "SignerRules"); nt "verifierRules" (new "VerifierRules")])]);
  (338%N, SClass "SigningCertTrustCondition" (univ "Sequence") [set "componentType" (nts [nt "signerTrustTrees" (new "CertificateTrustTrees"); nt "signerRevReq" (new "CertRevReq")])]);
  (345%N, SClass "CommitmentTypeIdentifier" (univ "ObjectIdentifier") [SPass]);
  (349%N, SClass "FieldOfApplication" (EName "DirectoryString") [SPass]);
  (353%N, SClass "CommitmentType" (univ "Sequence") [set "componentType" (nts [nt "identifier" (new "CommitmentTypeIdentifier"); ont "fieldOfApplication" (explicit (new "FieldOfApplication") (ctxS 0)); ont "semantics" (explicit (new "DirectoryString") (ctxS 1))])]);
  (365%N, SClass "SelectedCommitmentTypes" (univ "SequenceOf") [set "componentType" (ECall (univ "Choice") [] [("componentType", nts [nt "empty" (call0 (univ "Null")); nt "recognizedCommitmentType" (new "CommitmentType")])])]);
  (372%N, SClass "CommitmentRule" (univ "Sequence") [set "componentType" (nts [nt "selCommitmentTypes" (new "SelectedCommitmentTypes"); ont "signerAndVeriferRules" (explicit (new "SignerAndVerifierRules") (ctxC 0)); ont "signingCertTrustCondition" (explicit (new "SigningCertTrustCondition") (ctxC 1)); ont "timeStampTrustCondition" (explicit (new "TimestampTrustCondition") (ctxC 2)); ont "attributeTrustCondition" (explicit (new "AttributeTrustCondition") (ctxC 3)); ont "algorithmConstraintSet" (explicit (new "AlgorithmConstraintSet") (ctxC 4)); ont "signPolExtensions" (explicit (new "SignPolExtensions") (ctxS 5))])]);
  (396%N, SClass "CommitmentRules" (univ "SequenceOf") [set "componentType" (new "CommitmentRule")]);
  (400%N, SClass "CommonRules" (univ "Sequence") [set "componentType" (nts [ont "signerAndVeriferRules" (explicit (new "SignerAndVerifierRules") (ctxC 0)); ont "signingCertTrustCondition" (explicit (new "SigningCertTrustCondition") (ctxC 1)); ont "timeStampTrustCondition" (explicit (new "TimestampTrustCondition") (ctxC 2)); ont "attributeTrustCondition" (explicit (new "AttributeTrustCondition") (ctxC 3)); ont "algorithmConstraintSet" (explicit (new "AlgorithmConstraintSet") (ctxC 4)); ont "signPolExtensions" (explicit (new "SignPolExtensions") (ctxS 5))])]);
  (423%N, SClass "PolicyIssuerName" (EName "GeneralNames") [SPass]);
  (427%N, SClass "SignPolicyHash" (univ "OctetString") [SPass]);
  (431%N, SClass "SignPolicyId" (univ "ObjectIdentifier") [SPass]);
  (435%N, SClass "SigningPeriod" (univ "Sequence") [set "componentType" (nts [nt "notBefore" (call0 (useful "GeneralizedTime")); ont "notAfter" (call0 (useful "GeneralizedTime"))])]);
  (442%N, SClass "SignatureValidationPolicy" (univ "Sequence") [set "componentType" (nts [nt "signingPeriod" (new "SigningPeriod"); nt "commonRules" (new "CommonRules"); nt "commitmentRules" (new "CommitmentRules"); ont "signPolExtensions" (new "SignPolExtensions")])]);
  (451%N, SClass "SignPolicyInfo" (univ "Sequence") [set "componentType" (nts [nt "signPolicyIdentifier" (new "SignPolicyId"); nt "dateOfIssue" (call0 (useful "GeneralizedTime")); nt "policyIssuerName" (new "PolicyIssuerName"); nt "fieldOfApplication" (new "FieldOfApplication"); nt "signatureValidationPolicy" (new "SignatureValidationPolicy"); ont "signPolExtensions" (new "SignPolExtensions")])]);
  (462%N, SClass "SignaturePolicy" (univ "Sequence") [set "componentType" (nts [nt "signPolicyHashAlg" (new "AlgorithmIdentifier"); nt "signPolicyInfo" (new "SignPolicyInfo"); ont "signPolicyHash" (new "SignPolicyHash")])])
].
