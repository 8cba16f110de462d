(** pyasn1_modules/rfc2315.py, printed by tools/py2coq.py.  Every statement is
    preceded by its line number in that file. *)
From Verif Require Import Py.Syntax.
From Coq Require Import List String ZArith NArith.
Import ListNotations.
Open Scope string_scope.
Open Scope Z_scope.

Definition src : module := [
  (15%N, SFromStar "pyasn1_modules.rfc2459");
  (18%N, SClass "Attribute" (univ "Sequence") [set "componentType" (nts [nt "type" (new "AttributeType"); nt "values" (ECall (univ "SetOf") [] [("componentType", new "AttributeValue")])])]);
  (25%N, SClass "AttributeValueAssertion" (univ "Sequence") [set "componentType" (nts [nt "attributeType" (new "AttributeType"); ECall (qual "namedtype" "NamedType") [EStr "attributeValue"; new "AttributeValue"] [("openType", call (qual "opentype" "OpenType") [EStr "type"; EName "certificateAttributesMap"])]])]);
  (33%N, set "pkcs_7" (call (univ "ObjectIdentifier") [EStr "1.2.840.113549.1.7"]));
  (34%N, set "data" (call (univ "ObjectIdentifier") [EStr "1.2.840.113549.1.7.1"]));
  (35%N, set "signedData" (call (univ "ObjectIdentifier") [EStr "1.2.840.113549.1.7.2"]));
  (36%N, set "envelopedData" (call (univ "ObjectIdentifier") [EStr "1.2.840.113549.1.7.3"]));
  (37%N, set "signedAndEnvelopedData" (call (univ "ObjectIdentifier") [EStr "1.2.840.113549.1.7.4"]));
  (38%N, set "digestedData" (call (univ "ObjectIdentifier") [EStr "1.2.840.113549.1.7.5"]));
  (39%N, set "encryptedData" (call (univ "ObjectIdentifier") [EStr "1.2.840.113549.1.7.6"]));
  (42%N, SClass "ContentType" (univ "ObjectIdentifier") [SPass]);
  (46%N, SClass "ContentEncryptionAlgorithmIdentifier" (EName "AlgorithmIdentifier") [SPass]);
  (50%N, SClass "EncryptedContent" (univ "OctetString") [SPass]);
  (54%N, set "contentTypeMap" (EDict []));
  (57%N, SClass "EncryptedContentInfo" (univ "Sequence") [set "componentType" (nts [nt "contentType" (new "ContentType"); nt "contentEncryptionAlgorithm" (new "ContentEncryptionAlgorithmIdentifier"); ECall (qual "namedtype" "OptionalNamedType") [EStr "encryptedContent"; implicit (new "EncryptedContent") (ctxC 0)] [("openType", call (qual "opentype" "OpenType") [EStr "contentType"; EName "contentTypeMap"])]])]);
  (70%N, SClass "Version" (univ "Integer") [SPass]);
  (74%N, SClass "EncryptedData" (univ "Sequence") [set "componentType" (nts [nt "version" (new "Version"); nt "encryptedContentInfo" (new "EncryptedContentInfo")])]);
  (81%N, SClass "DigestAlgorithmIdentifier" (EName "AlgorithmIdentifier") [SPass]);
  (85%N, SClass "DigestAlgorithmIdentifiers" (univ "SetOf") [set "componentType" (new "DigestAlgorithmIdentifier")]);
  (89%N, SClass "Digest" (univ "OctetString") [SPass]);
  (93%N, SClass "ContentInfo" (univ "Sequence") [set "componentType" (nts [nt "contentType" (new "ContentType"); ECall (qual "namedtype" "OptionalNamedType") [EStr "content"; explicit (call0 (univ "Any")) (ctxC 0)] [("openType", call (qual "opentype" "OpenType") [EStr "contentType"; EName "contentTypeMap"])]])]);
  (104%N, SClass "DigestedData" (univ "Sequence") [set "componentType" (nts [nt "version" (new "Version"); nt "digestAlgorithm" (new "DigestAlgorithmIdentifier"); nt "contentInfo" (new "ContentInfo"); nt "digest" (new "Digest")])]);
  (113%N, SClass "IssuerAndSerialNumber" (univ "Sequence") [set "componentType" (nts [nt "issuer" (new "Name"); nt "serialNumber" (new "CertificateSerialNumber")])]);
  (120%N, SClass "KeyEncryptionAlgorithmIdentifier" (EName "AlgorithmIdentifier") [SPass]);
  (124%N, SClass "EncryptedKey" (univ "OctetString") [SPass]);
  (128%N, SClass "RecipientInfo" (univ "Sequence") [set "componentType" (nts [nt "version" (new "Version"); nt "issuerAndSerialNumber" (new "IssuerAndSerialNumber"); nt "keyEncryptionAlgorithm" (new "KeyEncryptionAlgorithmIdentifier"); nt "encryptedKey" (new "EncryptedKey")])]);
  (137%N, SClass "RecipientInfos" (univ "SetOf") [set "componentType" (new "RecipientInfo")]);
  (141%N, SClass "Attributes" (univ "SetOf") [set "componentType" (new "Attribute")]);
  (145%N, SClass "ExtendedCertificateInfo" (univ "Sequence") [set "componentType" (nts [nt "version" (new "Version"); nt "certificate" (new "Certificate"); nt "attributes" (new "Attributes")])]);
  (153%N, SClass "SignatureAlgorithmIdentifier" (EName "AlgorithmIdentifier") [SPass]);
  (157%N, SClass "Signature" (univ "BitString") [SPass]);
  (161%N, SClass "ExtendedCertificate" (univ "Sequence") [set "componentType" (nts [nt "extendedCertificateInfo" (new "ExtendedCertificateInfo"); nt "signatureAlgorithm" (new "SignatureAlgorithmIdentifier"); nt "signature" (new "Signature")])]);
  (169%N, SClass "ExtendedCertificateOrCertificate" (univ "Choice") [set "componentType" (nts [nt "certificate" (new "Certificate"); nt "extendedCertificate" (implicit (new "ExtendedCertificate") (ctxC 0))])]);
  (177%N, SClass "ExtendedCertificatesAndCertificates" (univ "SetOf") [set "componentType" (new "ExtendedCertificateOrCertificate")]);
  (181%N, SClass "SerialNumber" (univ "Integer") [SPass]);
  (185%N, SClass "CRLEntry" (univ "Sequence") [set "componentType" (nts [nt "userCertificate" (new "SerialNumber"); nt "revocationDate" (call0 (useful "UTCTime"))])]);
  (192%N, SClass "TBSCertificateRevocationList" (univ "Sequence") [set "componentType" (nts [nt "signature" (new "AlgorithmIdentifier"); nt "issuer" (new "Name"); nt "lastUpdate" (call0 (useful "UTCTime")); nt "nextUpdate" (call0 (useful "UTCTime")); ont "revokedCertificates" (ECall (univ "SequenceOf") [] [("componentType", new "CRLEntry")])])]);
  (202%N, SClass "CertificateRevocationList" (univ "Sequence") [set "componentType" (nts [nt "tbsCertificateRevocationList" (new "TBSCertificateRevocationList"); nt "signatureAlgorithm" (new "AlgorithmIdentifier"); nt "signature" (call0 (univ "BitString"))])]);
  (210%N, SClass "CertificateRevocationLists" (univ "SetOf") [set "componentType" (new "CertificateRevocationList")]);
  (214%N, SClass "DigestEncryptionAlgorithmIdentifier" (EName "AlgorithmIdentifier") [SPass]);
  (218%N, SClass "EncryptedDigest" (univ "OctetString") [SPass]);
  (222%N, SClass "SignerInfo" (univ "Sequence") [set "componentType" (nts [nt "version" (new "Version"); nt "issuerAndSerialNumber" (new "IssuerAndSerialNumber"); nt "digestAlgorithm" (new "DigestAlgorithmIdentifier"); ont "authenticatedAttributes" (implicit (new "Attributes") (ctxC 0)); nt "digestEncryptionAlgorithm" (new "DigestEncryptionAlgorithmIdentifier"); nt "encryptedDigest" (new "EncryptedDigest"); ont "unauthenticatedAttributes" (implicit (new "Attributes") (ctxC 1))])]);
  (236%N, SClass "SignerInfos" (univ "SetOf") [set "componentType" (new "SignerInfo")]);
  (240%N, SClass "SignedAndEnvelopedData" (univ "Sequence") [set "componentType" (nts [nt "version" (new "Version"); nt "recipientInfos" (new "RecipientInfos"); nt "digestAlgorithms" (new "DigestAlgorithmIdentifiers"); nt "encryptedContentInfo" (new "EncryptedContentInfo"); ont "certificates" (implicit (new "ExtendedCertificatesAndCertificates") (ctxC 0)); ont "crls" (implicit (new "CertificateRevocationLists") (ctxC 1)); nt "signerInfos" (new "SignerInfos")])]);
  (254%N, SClass "EnvelopedData" (univ "Sequence") [set "componentType" (nts [nt "version" (new "Version"); nt "recipientInfos" (new "RecipientInfos"); nt "encryptedContentInfo" (new "EncryptedContentInfo")])]);
  (262%N, SClass "DigestInfo" (univ "Sequence") [set "componentType" (nts [nt "digestAlgorithm" (new "DigestAlgorithmIdentifier"); nt "digest" (new "Digest")])]);
  (269%N, SClass "SignedData" (univ "Sequence") [set "componentType" (nts [nt "version" (new "Version"); ont "digestAlgorithms" (new "DigestAlgorithmIdentifiers"); nt "contentInfo" (new "ContentInfo"); ont "certificates" (implicit (new "ExtendedCertificatesAndCertificates") (ctxC 0)); ont "crls" (implicit (new "CertificateRevocationLists") (ctxC 1)); ont "signerInfos" (new "SignerInfos")])]);
  (282%N, SClass "Data" (univ "OctetString") [SPass]);
  (285%N, set "_contentTypeMapUpdate" (EDict [(EName "data", new "Data"); (EName "signedData", new "SignedData"); (EName "envelopedData", new "EnvelopedData"); (EName "signedAndEnvelopedData", new "SignedAndEnvelopedData"); (EName "digestedData", new "DigestedData"); (EName "encryptedData", new "EncryptedData")]));
  (294%N, SExpr (call (qual "contentTypeMap" "update") [EName "_contentTypeMapUpdate"]))
].
