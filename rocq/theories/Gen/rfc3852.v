(** pyasn1_modules/rfc3852.py, printed by tools/py2coq.py.  Every statement is
    preceded by its line number in that file. *)
From Verif Require Import Py.Syntax.
From Coq Require Import List String ZArith NArith.
Import ListNotations.
Open Scope string_scope.
Open Scope Z_scope.

Definition src : module := [
  (14%N, SFrom "pyasn1.type" [("constraint", "constraint")]);
  (15%N, SFrom "pyasn1.type" [("namedtype", "namedtype")]);
  (16%N, SFrom "pyasn1.type" [("namedval", "namedval")]);
  (17%N, SFrom "pyasn1.type" [("tag", "tag")]);
  (18%N, SFrom "pyasn1.type" [("univ", "univ")]);
  (19%N, SFrom "pyasn1.type" [("useful", "useful")]);
  (21%N, SFrom "pyasn1_modules" [("rfc3280", "rfc3280")]);
  (22%N, SFrom "pyasn1_modules" [("rfc3281", "rfc3281")]);
  (24%N, set "MAX" (call (EName "float") [EStr "inf"]));
  (27%N, SDef "_buildOid" [] (Some "components") [set "output" (EList []); SFor "x" (call (EName "tuple") [EName "components"]) [SIf (call (EName "isinstance") [EName "x"; univ "ObjectIdentifier"]) [SExpr (call (qual "output" "extend") [call (EName "list") [EName "x"]])] [SExpr (call (qual "output" "append") [call (EName "int") [EName "x"]])]]; SReturn (call (univ "ObjectIdentifier") [EName "output"])]);
  (38%N, SClass "AttributeValue" (univ "Any") [SPass]);
  (42%N, SClass "Attribute" (univ "Sequence") [SPass]);
  (46%N, seta "Attribute" "componentType" (nts [nt "attrType" (call0 (univ "ObjectIdentifier")); nt "attrValues" (ECall (univ "SetOf") [] [("componentType", new "AttributeValue")])]));
  (52%N, SClass "SignedAttributes" (univ "SetOf") [SPass]);
  (56%N, seta "SignedAttributes" "componentType" (new "Attribute"));
  (57%N, seta "SignedAttributes" "sizeSpec" (sizec (EInt 1) (EName "MAX")));
  (60%N, SClass "OtherRevocationInfoFormat" (univ "Sequence") [SPass]);
  (64%N, seta "OtherRevocationInfoFormat" "componentType" (nts [nt "otherRevInfoFormat" (call0 (univ "ObjectIdentifier")); nt "otherRevInfo" (call0 (univ "Any"))]));
  (70%N, SClass "RevocationInfoChoice" (univ "Choice") [SPass]);
  (74%N, seta "RevocationInfoChoice" "componentType" (nts [nt "crl" (call0 (qual "rfc3280" "CertificateList")); nt "other" (implicit (new "OtherRevocationInfoFormat") (ctxC 1))]));
  (81%N, SClass "RevocationInfoChoices" (univ "SetOf") [SPass]);
  (85%N, seta "RevocationInfoChoices" "componentType" (new "RevocationInfoChoice"));
  (88%N, SClass "OtherKeyAttribute" (univ "Sequence") [SPass]);
  (92%N, seta "OtherKeyAttribute" "componentType" (nts [nt "keyAttrId" (call0 (univ "ObjectIdentifier")); ont "keyAttr" (call0 (univ "Any"))]));
  (97%N, set "id_signedData" (call (EName "_buildOid") [EInt 1; EInt 2; EInt 840; EInt 113549; EInt 1; EInt 7; EInt 2]));
  (100%N, SClass "KeyEncryptionAlgorithmIdentifier" (qual "rfc3280" "AlgorithmIdentifier") [SPass]);
  (104%N, SClass "EncryptedKey" (univ "OctetString") [SPass]);
  (108%N, SClass "CMSVersion" (univ "Integer") [SPass]);
  (112%N, seta "CMSVersion" "namedValues" (nvs [nv "v0" 0; nv "v1" 1; nv "v2" 2; nv "v3" 3; nv "v4" 4; nv "v5" 5]));
  (122%N, SClass "KEKIdentifier" (univ "Sequence") [SPass]);
  (126%N, seta "KEKIdentifier" "componentType" (nts [nt "keyIdentifier" (call0 (univ "OctetString")); ont "date" (call0 (useful "GeneralizedTime")); ont "other" (new "OtherKeyAttribute")]));
  (133%N, SClass "KEKRecipientInfo" (univ "Sequence") [SPass]);
  (137%N, seta "KEKRecipientInfo" "componentType" (nts [nt "version" (new "CMSVersion"); nt "kekid" (new "KEKIdentifier"); nt "keyEncryptionAlgorithm" (new "KeyEncryptionAlgorithmIdentifier"); nt "encryptedKey" (new "EncryptedKey")]));
  (145%N, SClass "KeyDerivationAlgorithmIdentifier" (qual "rfc3280" "AlgorithmIdentifier") [SPass]);
  (149%N, SClass "PasswordRecipientInfo" (univ "Sequence") [SPass]);
  (153%N, seta "PasswordRecipientInfo" "componentType" (nts [nt "version" (new "CMSVersion"); ont "keyDerivationAlgorithm" (implicit (new "KeyDerivationAlgorithmIdentifier") (ctxS 0)); nt "keyEncryptionAlgorithm" (new "KeyEncryptionAlgorithmIdentifier"); nt "encryptedKey" (new "EncryptedKey")]));
  (162%N, SClass "OtherRecipientInfo" (univ "Sequence") [SPass]);
  (166%N, seta "OtherRecipientInfo" "componentType" (nts [nt "oriType" (call0 (univ "ObjectIdentifier")); nt "oriValue" (call0 (univ "Any"))]));
  (172%N, SClass "IssuerAndSerialNumber" (univ "Sequence") [SPass]);
  (176%N, seta "IssuerAndSerialNumber" "componentType" (nts [nt "issuer" (call0 (qual "rfc3280" "Name")); nt "serialNumber" (call0 (qual "rfc3280" "CertificateSerialNumber"))]));
  (182%N, SClass "SubjectKeyIdentifier" (univ "OctetString") [SPass]);
  (186%N, SClass "RecipientKeyIdentifier" (univ "Sequence") [SPass]);
  (190%N, seta "RecipientKeyIdentifier" "componentType" (nts [nt "subjectKeyIdentifier" (new "SubjectKeyIdentifier"); ont "date" (call0 (useful "GeneralizedTime")); ont "other" (new "OtherKeyAttribute")]));
  (197%N, SClass "KeyAgreeRecipientIdentifier" (univ "Choice") [SPass]);
  (201%N, seta "KeyAgreeRecipientIdentifier" "componentType" (nts [nt "issuerAndSerialNumber" (new "IssuerAndSerialNumber"); nt "rKeyId" (implicit (new "RecipientKeyIdentifier") (ctxC 0))]));
  (208%N, SClass "RecipientEncryptedKey" (univ "Sequence") [SPass]);
  (212%N, seta "RecipientEncryptedKey" "componentType" (nts [nt "rid" (new "KeyAgreeRecipientIdentifier"); nt "encryptedKey" (new "EncryptedKey")]));
  (218%N, SClass "RecipientEncryptedKeys" (univ "SequenceOf") [SPass]);
  (222%N, seta "RecipientEncryptedKeys" "componentType" (new "RecipientEncryptedKey"));
  (225%N, SClass "UserKeyingMaterial" (univ "OctetString") [SPass]);
  (229%N, SClass "OriginatorPublicKey" (univ "Sequence") [SPass]);
  (233%N, seta "OriginatorPublicKey" "componentType" (nts [nt "algorithm" (call0 (qual "rfc3280" "AlgorithmIdentifier")); nt "publicKey" (call0 (univ "BitString"))]));
  (239%N, SClass "OriginatorIdentifierOrKey" (univ "Choice") [SPass]);
  (243%N, seta "OriginatorIdentifierOrKey" "componentType" (nts [nt "issuerAndSerialNumber" (new "IssuerAndSerialNumber"); nt "subjectKeyIdentifier" (implicit (new "SubjectKeyIdentifier") (ctxS 0)); nt "originatorKey" (implicit (new "OriginatorPublicKey") (ctxC 1))]));
  (252%N, SClass "KeyAgreeRecipientInfo" (univ "Sequence") [SPass]);
  (256%N, seta "KeyAgreeRecipientInfo" "componentType" (nts [nt "version" (new "CMSVersion"); nt "originator" (explicit (new "OriginatorIdentifierOrKey") (ctxC 0)); ont "ukm" (explicit (new "UserKeyingMaterial") (ctxS 1)); nt "keyEncryptionAlgorithm" (new "KeyEncryptionAlgorithmIdentifier"); nt "recipientEncryptedKeys" (new "RecipientEncryptedKeys")]));
  (267%N, SClass "RecipientIdentifier" (univ "Choice") [SPass]);
  (271%N, seta "RecipientIdentifier" "componentType" (nts [nt "issuerAndSerialNumber" (new "IssuerAndSerialNumber"); nt "subjectKeyIdentifier" (implicit (new "SubjectKeyIdentifier") (ctxS 0))]));
  (278%N, SClass "KeyTransRecipientInfo" (univ "Sequence") [SPass]);
  (282%N, seta "KeyTransRecipientInfo" "componentType" (nts [nt "version" (new "CMSVersion"); nt "rid" (new "RecipientIdentifier"); nt "keyEncryptionAlgorithm" (new "KeyEncryptionAlgorithmIdentifier"); nt "encryptedKey" (new "EncryptedKey")]));
  (290%N, SClass "RecipientInfo" (univ "Choice") [SPass]);
  (294%N, seta "RecipientInfo" "componentType" (nts [nt "ktri" (new "KeyTransRecipientInfo"); nt "kari" (implicit (new "KeyAgreeRecipientInfo") (ctxC 1)); nt "kekri" (implicit (new "KEKRecipientInfo") (ctxC 2)); nt "pwri" (implicit (new "PasswordRecipientInfo") (ctxC 3)); nt "ori" (implicit (new "OtherRecipientInfo") (ctxC 4))]));
  (307%N, SClass "RecipientInfos" (univ "SetOf") [SPass]);
  (311%N, seta "RecipientInfos" "componentType" (new "RecipientInfo"));
  (312%N, seta "RecipientInfos" "sizeSpec" (sizec (EInt 1) (EName "MAX")));
  (315%N, SClass "DigestAlgorithmIdentifier" (qual "rfc3280" "AlgorithmIdentifier") [SPass]);
  (319%N, SClass "Signature" (univ "BitString") [SPass]);
  (323%N, SClass "SignerIdentifier" (univ "Choice") [SPass]);
  (327%N, seta "SignerIdentifier" "componentType" (nts [nt "issuerAndSerialNumber" (new "IssuerAndSerialNumber"); nt "subjectKeyIdentifier" (implicit (new "SubjectKeyIdentifier") (ctxS 0))]));
  (334%N, SClass "UnprotectedAttributes" (univ "SetOf") [SPass]);
  (338%N, seta "UnprotectedAttributes" "componentType" (new "Attribute"));
  (339%N, seta "UnprotectedAttributes" "sizeSpec" (sizec (EInt 1) (EName "MAX")));
  (342%N, SClass "ContentType" (univ "ObjectIdentifier") [SPass]);
  (346%N, SClass "EncryptedContent" (univ "OctetString") [SPass]);
  (350%N, SClass "ContentEncryptionAlgorithmIdentifier" (qual "rfc3280" "AlgorithmIdentifier") [SPass]);
  (354%N, SClass "EncryptedContentInfo" (univ "Sequence") [SPass]);
  (358%N, seta "EncryptedContentInfo" "componentType" (nts [nt "contentType" (new "ContentType"); nt "contentEncryptionAlgorithm" (new "ContentEncryptionAlgorithmIdentifier"); ont "encryptedContent" (implicit (new "EncryptedContent") (ctxS 0))]));
  (366%N, SClass "EncryptedData" (univ "Sequence") [SPass]);
  (370%N, seta "EncryptedData" "componentType" (nts [nt "version" (new "CMSVersion"); nt "encryptedContentInfo" (new "EncryptedContentInfo"); ont "unprotectedAttrs" (implicit (new "UnprotectedAttributes") (ctxS 1))]));
  (377%N, set "id_contentType" (call (EName "_buildOid") [EInt 1; EInt 2; EInt 840; EInt 113549; EInt 1; EInt 9; EInt 3]));
  (379%N, set "id_data" (call (EName "_buildOid") [EInt 1; EInt 2; EInt 840; EInt 113549; EInt 1; EInt 7; EInt 1]));
  (381%N, set "id_messageDigest" (call (EName "_buildOid") [EInt 1; EInt 2; EInt 840; EInt 113549; EInt 1; EInt 9; EInt 4]));
  (384%N, SClass "DigestAlgorithmIdentifiers" (univ "SetOf") [SPass]);
  (388%N, seta "DigestAlgorithmIdentifiers" "componentType" (new "DigestAlgorithmIdentifier"));
  (391%N, SClass "EncapsulatedContentInfo" (univ "Sequence") [SPass]);
  (395%N, seta "EncapsulatedContentInfo" "componentType" (nts [nt "eContentType" (new "ContentType"); ont "eContent" (explicit (call0 (univ "OctetString")) (ctxS 0))]));
  (402%N, SClass "Digest" (univ "OctetString") [SPass]);
  (406%N, SClass "DigestedData" (univ "Sequence") [SPass]);
  (410%N, seta "DigestedData" "componentType" (nts [nt "version" (new "CMSVersion"); nt "digestAlgorithm" (new "DigestAlgorithmIdentifier"); nt "encapContentInfo" (new "EncapsulatedContentInfo"); nt "digest" (new "Digest")]));
  (418%N, SClass "ContentInfo" (univ "Sequence") [SPass]);
  (422%N, seta "ContentInfo" "componentType" (nts [nt "contentType" (new "ContentType"); nt "content" (explicit (call0 (univ "Any")) (ctxS 0))]));
  (428%N, SClass "UnauthAttributes" (univ "SetOf") [SPass]);
  (432%N, seta "UnauthAttributes" "componentType" (new "Attribute"));
  (433%N, seta "UnauthAttributes" "sizeSpec" (sizec (EInt 1) (EName "MAX")));
  (436%N, SClass "ExtendedCertificateInfo" (univ "Sequence") [SPass]);
  (440%N, seta "ExtendedCertificateInfo" "componentType" (nts [nt "version" (new "CMSVersion"); nt "certificate" (call0 (qual "rfc3280" "Certificate")); nt "attributes" (new "UnauthAttributes")]));
  (447%N, SClass "SignatureAlgorithmIdentifier" (qual "rfc3280" "AlgorithmIdentifier") [SPass]);
  (451%N, SClass "ExtendedCertificate" (univ "Sequence") [SPass]);
  (455%N, seta "ExtendedCertificate" "componentType" (nts [nt "extendedCertificateInfo" (new "ExtendedCertificateInfo"); nt "signatureAlgorithm" (new "SignatureAlgorithmIdentifier"); nt "signature" (new "Signature")]));
  (462%N, SClass "OtherCertificateFormat" (univ "Sequence") [SPass]);
  (466%N, seta "OtherCertificateFormat" "componentType" (nts [nt "otherCertFormat" (call0 (univ "ObjectIdentifier")); nt "otherCert" (call0 (univ "Any"))]));
  (472%N, SClass "AttributeCertificateV2" (qual "rfc3281" "AttributeCertificate") [SPass]);
  (476%N, SClass "AttCertVersionV1" (univ "Integer") [SPass]);
  (480%N, seta "AttCertVersionV1" "namedValues" (nvs [nv "v1" 0]));
  (485%N, SClass "AttributeCertificateInfoV1" (univ "Sequence") [SPass]);
  (489%N, seta "AttributeCertificateInfoV1" "componentType" (nts [dnt "version" (withvalue (new "AttCertVersionV1") (EStr "v1")); nt "subject" (ECall (univ "Choice") [] [("componentType", nts [nt "baseCertificateID" (explicit (call0 (qual "rfc3281" "IssuerSerial")) (ctxS 0)); nt "subjectName" (explicit (call0 (qual "rfc3280" "GeneralNames")) (ctxS 1))])]); nt "issuer" (call0 (qual "rfc3280" "GeneralNames")); nt "signature" (call0 (qual "rfc3280" "AlgorithmIdentifier")); nt "serialNumber" (call0 (qual "rfc3280" "CertificateSerialNumber")); nt "attCertValidityPeriod" (call0 (qual "rfc3281" "AttCertValidityPeriod")); nt "attributes" (ECall (univ "SequenceOf") [] [("componentType", call0 (qual "rfc3280" "Attribute"))]); ont "issuerUniqueID" (call0 (qual "rfc3280" "UniqueIdentifier")); ont "extensions" (call0 (qual "rfc3280" "Extensions"))]));
  (509%N, SClass "AttributeCertificateV1" (univ "Sequence") [SPass]);
  (513%N, seta "AttributeCertificateV1" "componentType" (nts [nt "acInfo" (new "AttributeCertificateInfoV1"); nt "signatureAlgorithm" (call0 (qual "rfc3280" "AlgorithmIdentifier")); nt "signature" (call0 (univ "BitString"))]));
  (520%N, SClass "CertificateChoices" (univ "Choice") [SPass]);
  (524%N, seta "CertificateChoices" "componentType" (nts [nt "certificate" (call0 (qual "rfc3280" "Certificate")); nt "extendedCertificate" (implicit (new "ExtendedCertificate") (ctxC 0)); nt "v1AttrCert" (implicit (new "AttributeCertificateV1") (ctxS 1)); nt "v2AttrCert" (implicit (new "AttributeCertificateV2") (ctxS 2)); nt "other" (implicit (new "OtherCertificateFormat") (ctxC 3))]));
  (537%N, SClass "CertificateSet" (univ "SetOf") [SPass]);
  (541%N, seta "CertificateSet" "componentType" (new "CertificateChoices"));
  (544%N, SClass "MessageAuthenticationCode" (univ "OctetString") [SPass]);
  (548%N, SClass "UnsignedAttributes" (univ "SetOf") [SPass]);
  (552%N, seta "UnsignedAttributes" "componentType" (new "Attribute"));
  (553%N, seta "UnsignedAttributes" "sizeSpec" (sizec (EInt 1) (EName "MAX")));
  (556%N, SClass "SignatureValue" (univ "OctetString") [SPass]);
  (560%N, SClass "SignerInfo" (univ "Sequence") [SPass]);
  (564%N, seta "SignerInfo" "componentType" (nts [nt "version" (new "CMSVersion"); nt "sid" (new "SignerIdentifier"); nt "digestAlgorithm" (new "DigestAlgorithmIdentifier"); ont "signedAttrs" (implicit (new "SignedAttributes") (ctxS 0)); nt "signatureAlgorithm" (new "SignatureAlgorithmIdentifier"); nt "signature" (new "SignatureValue"); ont "unsignedAttrs" (implicit (new "UnsignedAttributes") (ctxS 1))]));
  (577%N, SClass "SignerInfos" (univ "SetOf") [SPass]);
  (581%N, seta "SignerInfos" "componentType" (new "SignerInfo"));
  (584%N, SClass "SignedData" (univ "Sequence") [SPass]);
  (588%N, seta "SignedData" "componentType" (nts [nt "version" (new "CMSVersion"); nt "digestAlgorithms" (new "DigestAlgorithmIdentifiers"); nt "encapContentInfo" (new "EncapsulatedContentInfo"); ont "certificates" (implicit (new "CertificateSet") (ctxS 0)); ont "crls" (implicit (new "RevocationInfoChoices") (ctxS 1)); nt "signerInfos" (new "SignerInfos")]));
  (600%N, SClass "MessageAuthenticationCodeAlgorithm" (qual "rfc3280" "AlgorithmIdentifier") [SPass]);
  (604%N, SClass "MessageDigest" (univ "OctetString") [SPass]);
  (608%N, SClass "Time" (univ "Choice") [SPass]);
  (612%N, seta "Time" "componentType" (nts [nt "utcTime" (call0 (useful "UTCTime")); nt "generalTime" (call0 (useful "GeneralizedTime"))]));
  (618%N, SClass "OriginatorInfo" (univ "Sequence") [SPass]);
  (622%N, seta "OriginatorInfo" "componentType" (nts [ont "certs" (implicit (new "CertificateSet") (ctxS 0)); ont "crls" (implicit (new "RevocationInfoChoices") (ctxS 1))]));
  (630%N, SClass "AuthAttributes" (univ "SetOf") [SPass]);
  (634%N, seta "AuthAttributes" "componentType" (new "Attribute"));
  (635%N, seta "AuthAttributes" "sizeSpec" (sizec (EInt 1) (EName "MAX")));
  (638%N, SClass "AuthenticatedData" (univ "Sequence") [SPass]);
  (642%N, seta "AuthenticatedData" "componentType" (nts [nt "version" (new "CMSVersion"); ont "originatorInfo" (implicit (new "OriginatorInfo") (ctxC 0)); nt "recipientInfos" (new "RecipientInfos"); nt "macAlgorithm" (new "MessageAuthenticationCodeAlgorithm"); ont "digestAlgorithm" (implicit (new "DigestAlgorithmIdentifier") (ctxS 1)); nt "encapContentInfo" (new "EncapsulatedContentInfo"); ont "authAttrs" (implicit (new "AuthAttributes") (ctxS 2)); nt "mac" (new "MessageAuthenticationCode"); ont "unauthAttrs" (implicit (new "UnauthAttributes") (ctxS 3))]));
  (658%N, set "id_ct_contentInfo" (call (EName "_buildOid") [EInt 1; EInt 2; EInt 840; EInt 113549; EInt 1; EInt 9; EInt 16; EInt 1; EInt 6]));
  (660%N, set "id_envelopedData" (call (EName "_buildOid") [EInt 1; EInt 2; EInt 840; EInt 113549; EInt 1; EInt 7; EInt 3]));
  (663%N, SClass "EnvelopedData" (univ "Sequence") [SPass]);
  (667%N, seta "EnvelopedData" "componentType" (nts [nt "version" (new "CMSVersion"); ont "originatorInfo" (implicit (new "OriginatorInfo") (ctxC 0)); nt "recipientInfos" (new "RecipientInfos"); nt "encryptedContentInfo" (new "EncryptedContentInfo"); ont "unprotectedAttrs" (implicit (new "UnprotectedAttributes") (ctxS 1))]));
  (678%N, SClass "Countersignature" (EName "SignerInfo") [SPass]);
  (682%N, set "id_digestedData" (call (EName "_buildOid") [EInt 1; EInt 2; EInt 840; EInt 113549; EInt 1; EInt 7; EInt 5]));
  (684%N, set "id_signingTime" (call (EName "_buildOid") [EInt 1; EInt 2; EInt 840; EInt 113549; EInt 1; EInt 9; EInt 5]));
  (687%N, SClass "ExtendedCertificateOrCertificate" (univ "Choice") [SPass]);
  (691%N, seta "ExtendedCertificateOrCertificate" "componentType" (nts [nt "certificate" (call0 (qual "rfc3280" "Certificate")); nt "extendedCertificate" (implicit (new "ExtendedCertificate") (ctxC 0))]));
  (697%N, set "id_encryptedData" (call (EName "_buildOid") [EInt 1; EInt 2; EInt 840; EInt 113549; EInt 1; EInt 7; EInt 6]));
  (699%N, set "id_ct_authData" (call (EName "_buildOid") [EInt 1; EInt 2; EInt 840; EInt 113549; EInt 1; EInt 9; EInt 16; EInt 1; EInt 2]));
  (702%N, SClass "SigningTime" (EName "Time") [SPass]);
  (706%N, set "id_countersignature" (call (EName "_buildOid") [EInt 1; EInt 2; EInt 840; EInt 113549; EInt 1; EInt 9; EInt 6]))
].
