(** RFC 3125, appendix: ETS-ElectronicSignaturePolicies-88syntax (EXPLICIT TAGS). *)
From Coq Require Import List String ZArith NArith.
From Verif Require Import Asn1.Types Spec.X680.
From Verif Require Import Spec.Rfc5280.
Import ListNotations.
Open Scope string_scope.
Open Scope list_scope.

Definition SignPolExtn := SEQUENCE [req "extnID" OBJECT_IDENTIFIER; req "extnValue" OCTET_STRING].
Definition SignPolExtensions := SEQUENCE_OF SignPolExtn.
Definition CertPolicyId := OBJECT_IDENTIFIER.
Definition AcceptablePolicySet := SEQUENCE_OF CertPolicyId.
Definition PathLenConstraint := range_min 0 INTEGER.
Definition BaseDistance := range_min 0 INTEGER.
Definition GeneralSubtree := SEQUENCE [
  req "base" GeneralName; dft "minimum" (explicit 0 BaseDistance) (VInt 0); opt "maximum" (explicit 1 BaseDistance)].
Definition GeneralSubtrees := size_min 1 (SEQUENCE_OF GeneralSubtree).
Definition NameConstraints := SEQUENCE [
  opt "permittedSubtrees" (explicit 0 GeneralSubtrees); opt "excludedSubtrees" (explicit 1 GeneralSubtrees)].
Definition SkipCerts := range_min 0 INTEGER.
Definition PolicyConstraints := SEQUENCE [
  opt "requireExplicitPolicy" (explicit 0 SkipCerts); opt "inhibitPolicyMapping" (explicit 1 SkipCerts)].
Definition CertificateTrustPoint := SEQUENCE [
  req "trustpoint" Certificate;
  opt "pathLenConstraint" (explicit 0 PathLenConstraint);
  opt "acceptablePolicySet" (explicit 1 AcceptablePolicySet);
  opt "nameConstraints" (explicit 2 NameConstraints);
  opt "policyConstraints" (explicit 3 PolicyConstraints)].
Definition CertificateTrustTrees := SEQUENCE_OF CertificateTrustPoint.
Definition EnuRevReq := ENUMERATED [
  ("clrCheck", 0); ("ocspCheck", 1); ("bothCheck", 2); ("eitherCheck", 3); ("noCheck", 4); ("other", 5)]%Z.
Definition RevReq := SEQUENCE [req "enuRevReq" EnuRevReq; opt "exRevReq" SignPolExtensions].
Definition CertRevReq := SEQUENCE [req "endCertRevReq" RevReq; req "caCerts" (explicit 0 RevReq)].
Definition SigningCertTrustCondition := SEQUENCE [
  req "signerTrustTrees" CertificateTrustTrees; req "signerRevReq" CertRevReq].
Definition DeltaTime := SEQUENCE [
  req "deltaSeconds" INTEGER; req "deltaMinutes" INTEGER; req "deltaHours" INTEGER; req "deltaDays" INTEGER].
Definition TimestampTrustCondition := SEQUENCE [
  opt "ttsCertificateTrustTrees" (explicit 0 CertificateTrustTrees);
  opt "ttsRevReq" (explicit 1 CertRevReq);
  opt "ttsNameConstraints" (explicit 2 NameConstraints);
  opt "cautionPeriod" (explicit 3 DeltaTime);
  opt "signatureTimestampDelay" (explicit 4 DeltaTime)].
Definition HowCertAttribute := ENUMERATED [("claimedAttribute", 0); ("certifiedAttribtes", 1); ("either", 2)]%Z.
Definition AttributeTypeConstraints := SEQUENCE_OF AttributeType.
Definition AttributeValueConstraints := SEQUENCE_OF AttributeTypeAndValue.
Definition AttributeConstraints := SEQUENCE [
  opt "attributeTypeConstarints" (explicit 0 AttributeTypeConstraints);
  opt "attributeValueConstarints" (explicit 1 AttributeValueConstraints)].
Definition AttributeTrustCondition := SEQUENCE [
  req "attributeMandated" BOOLEAN;
  req "howCertAttribute" HowCertAttribute;
  opt "attrCertificateTrustTrees" (explicit 0 CertificateTrustTrees);
  opt "attrRevReq" (explicit 1 CertRevReq);
  opt "attributeConstraints" (explicit 2 AttributeConstraints)].
Definition AlgAndLength := SEQUENCE [
  req "algID" OBJECT_IDENTIFIER; opt "minKeyLength" INTEGER; opt "other" SignPolExtensions].
Definition AlgorithmConstraints := SEQUENCE_OF AlgAndLength.
Definition AlgorithmConstraintSet := SEQUENCE [
  opt "signerAlgorithmConstraints" (explicit 0 AlgorithmConstraints);
  opt "eeCertAlgorithmConstraints" (explicit 1 AlgorithmConstraints);
  opt "caCertAlgorithmConstraints" (explicit 2 AlgorithmConstraints);
  opt "aaCertAlgorithmConstraints" (explicit 3 AlgorithmConstraints);
  opt "tsaCertAlgorithmConstraints" (explicit 4 AlgorithmConstraints)].
Definition CMSAttrs := SEQUENCE_OF OBJECT_IDENTIFIER.
Definition CertInfoReq := ENUMERATED [("none", 0); ("signerOnly", 1); ("fullPath", 2)]%Z.
Definition CertRefReq := ENUMERATED [("signerOnly", 1); ("fullPath", 2)]%Z.
Definition SignerRules := SEQUENCE [
  opt "externalSignedData" BOOLEAN;
  req "mandatedSignedAttr" CMSAttrs;
  req "mandatedUnsignedAttr" CMSAttrs;
  dft "mandatedCertificateRef" (explicit 0 CertRefReq) (VInt 1);
  dft "mandatedCertificateInfo" (explicit 1 CertInfoReq) (VInt 0);
  opt "signPolExtensions" (explicit 2 SignPolExtensions)].
Definition MandatedUnsignedAttr := CMSAttrs.
Definition VerifierRules := SEQUENCE [
  req "mandatedUnsignedAttr" MandatedUnsignedAttr; opt "signPolExtensions" SignPolExtensions].
Definition SignerAndVerifierRules := SEQUENCE [req "signerRules" SignerRules; req "verifierRules" VerifierRules].
Definition FieldOfApplication := DirectoryString.
Definition CommitmentTypeIdentifier := OBJECT_IDENTIFIER.
Definition CommitmentType := SEQUENCE [
  req "identifier" CommitmentTypeIdentifier;
  opt "fieldOfApplication" (explicit 0 FieldOfApplication);
  opt "semantics" (explicit 1 DirectoryString)].
Definition SelectedCommitmentTypes := SEQUENCE_OF (CHOICE [
  req "empty" NULL; req "recognizedCommitmentType" CommitmentType]).
Definition rules : list sfield := [
  opt "signerAndVeriferRules" (explicit 0 SignerAndVerifierRules);
  opt "signingCertTrustCondition" (explicit 1 SigningCertTrustCondition);
  opt "timeStampTrustCondition" (explicit 2 TimestampTrustCondition);
  opt "attributeTrustCondition" (explicit 3 AttributeTrustCondition);
  opt "algorithmConstraintSet" (explicit 4 AlgorithmConstraintSet);
  opt "signPolExtensions" (explicit 5 SignPolExtensions)].
Definition CommitmentRule := SEQUENCE (req "selCommitmentTypes" SelectedCommitmentTypes :: rules).
Definition CommitmentRules := SEQUENCE_OF CommitmentRule.
Definition CommonRules := SEQUENCE rules.
Definition SigningPeriod := SEQUENCE [req "notBefore" GeneralizedTime; opt "notAfter" GeneralizedTime].
Definition SignatureValidationPolicy := SEQUENCE [
  req "signingPeriod" SigningPeriod;
  req "commonRules" CommonRules;
  req "commitmentRules" CommitmentRules;
  opt "signPolExtensions" SignPolExtensions].
Definition PolicyIssuerName := GeneralNames.
Definition SignPolicyId := OBJECT_IDENTIFIER.
Definition SignPolicyHash := OCTET_STRING.
Definition SignPolicyInfo := SEQUENCE [
  req "signPolicyIdentifier" SignPolicyId;
  req "dateOfIssue" GeneralizedTime;
  req "policyIssuerName" PolicyIssuerName;
  req "fieldOfApplication" FieldOfApplication;
  req "signatureValidationPolicy" SignatureValidationPolicy;
  opt "signPolExtensions" SignPolExtensions].
Definition SignaturePolicy := SEQUENCE [
  req "signPolicyHashAlg" AlgorithmIdentifier;
  req "signPolicyInfo" SignPolicyInfo;
  opt "signPolicyHash" SignPolicyHash].

Definition rfc3125 : list (string * sty) := [
  ("SignPolExtn", SignPolExtn); ("SignPolExtensions", SignPolExtensions); ("CertPolicyId", CertPolicyId);
  ("AcceptablePolicySet", AcceptablePolicySet); ("PathLenConstraint", PathLenConstraint);
  ("BaseDistance", BaseDistance); ("GeneralSubtree", GeneralSubtree); ("GeneralSubtrees", GeneralSubtrees);
  ("NameConstraints", NameConstraints); ("SkipCerts", SkipCerts); ("PolicyConstraints", PolicyConstraints);
  ("CertificateTrustPoint", CertificateTrustPoint); ("CertificateTrustTrees", CertificateTrustTrees);
  ("EnuRevReq", EnuRevReq); ("RevReq", RevReq); ("CertRevReq", CertRevReq);
  ("SigningCertTrustCondition", SigningCertTrustCondition); ("DeltaTime", DeltaTime);
  ("TimestampTrustCondition", TimestampTrustCondition); ("HowCertAttribute", HowCertAttribute);
  ("AttributeTypeConstraints", AttributeTypeConstraints); ("AttributeValueConstraints", AttributeValueConstraints);
  ("AttributeConstraints", AttributeConstraints); ("AttributeTrustCondition", AttributeTrustCondition);
  ("AlgAndLength", AlgAndLength); ("AlgorithmConstraints", AlgorithmConstraints);
  ("AlgorithmConstraintSet", AlgorithmConstraintSet); ("CMSAttrs", CMSAttrs); ("CertInfoReq", CertInfoReq);
  ("CertRefReq", CertRefReq); ("SignerRules", SignerRules); ("MandatedUnsignedAttr", MandatedUnsignedAttr);
  ("VerifierRules", VerifierRules); ("SignerAndVerifierRules", SignerAndVerifierRules);
  ("FieldOfApplication", FieldOfApplication); ("CommitmentTypeIdentifier", CommitmentTypeIdentifier);
  ("CommitmentType", CommitmentType); ("SelectedCommitmentTypes", SelectedCommitmentTypes);
  ("CommitmentRule", CommitmentRule); ("CommitmentRules", CommitmentRules); ("CommonRules", CommonRules);
  ("SigningPeriod", SigningPeriod); ("SignatureValidationPolicy", SignatureValidationPolicy);
  ("PolicyIssuerName", PolicyIssuerName); ("SignPolicyId", SignPolicyId); ("SignPolicyHash", SignPolicyHash);
  ("SignPolicyInfo", SignPolicyInfo); ("SignaturePolicy", SignaturePolicy);
  ("AlgorithmIdentifier", Rfc5280.AlgorithmIdentifier); ("Attribute", Rfc5280.Attribute);
  ("AttributeType", Rfc5280.AttributeType); ("AttributeTypeAndValue", Rfc5280.AttributeTypeAndValue);
  ("AttributeValue", Rfc5280.AttributeValue); ("Certificate", Rfc5280.Certificate);
  ("CertificateList", Rfc5280.CertificateList); ("DirectoryString", Rfc5280.DirectoryString);
  ("GeneralName", Rfc5280.GeneralName); ("GeneralNames", Rfc5280.GeneralNames); ("Name", Rfc5280.Name);
  ("PolicyInformation", Rfc5280.PolicyInformation)].
