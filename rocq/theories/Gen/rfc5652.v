(** pyasn1_modules/rfc5652.py, printed by tools/py2coq.py.  Every statement is
    preceded by its line number in that file. *)
From Verif Require Import Py.Syntax.
From Coq Require Import List String ZArith NArith.
Import ListNotations.
Open Scope string_scope.
Open Scope Z_scope.

Definition src : module := [
  (16%N, SFrom "pyasn1.type" [("constraint", "constraint")]);
  (17%N, SFrom "pyasn1.type" [("namedtype", "namedtype")]);
  (18%N, SFrom "pyasn1.type" [("namedval", "namedval")]);
  (19%N, SFrom "pyasn1.type" [("opentype", "opentype")]);
  (20%N, SFrom "pyasn1.type" [("tag", "tag")]);
  (21%N, SFrom "pyasn1.type" [("univ", "univ")]);
  (22%N, SFrom "pyasn1.type" [("useful", "useful")]);
  (24%N, SFrom "pyasn1_modules" [("rfc3281", "rfc3281")]);
  (25%N, SFrom "pyasn1_modules" [("rfc5280", "rfc5280")]);
  (27%N, set "MAX" (call (EName "float") [EStr "inf"]));
  (30%N, SDef "_buildOid" [] (Some "components") [set "output" (EList []); SFor "x" (call (EName "tuple") [EName "components"]) [SIf (call (EName "isinstance") [EName "x"; univ "ObjectIdentifier"]) [SExpr (call (qual "output" "extend") [call (EName "list") [EName "x"]])] [SExpr (call (qual "output" "append") [call (EName "int") [EName "x"]])]]; SReturn (call (univ "ObjectIdentifier") [EName "output"])]);
  (41%N, set "cmsContentTypesMap" (EDict []));
  (43%N, set "cmsAttributesMap" (EDict []));
  (45%N, set "otherKeyAttributesMap" (EDict []));
  (47%N, set "otherCertFormatMap" (EDict []));
  (49%N, set "otherRevInfoFormatMap" (EDict []));
  (51%N, set "otherRecipientInfoMap" (EDict []));
  (54%N, SClass "AttCertVersionV1" (univ "Integer") [SPass]);
  (58%N, seta "AttCertVersionV1" "namedValues" (nvs [nv "v1" 0]));
  (63%N, SClass "AttributeCertificateInfoV1" (univ "Sequence") [SPass]);
  (67%N, seta "AttributeCertificateInfoV1" "componentType" (nts [dnt "version" (withvalue (new "AttCertVersionV1") (EStr "v1")); nt "subject" (ECall (univ "Choice") [] [("componentType", nts [nt "baseCertificateID" (explicit (call0 (qual "rfc3281" "IssuerSerial")) (ctxS 0)); nt "subjectName" (explicit (call0 (qual "rfc5280" "GeneralNames")) (ctxS 1))])]); nt "issuer" (call0 (qual "rfc5280" "GeneralNames")); nt "signature" (call0 (qual "rfc5280" "AlgorithmIdentifier")); nt "serialNumber" (call0 (qual "rfc5280" "CertificateSerialNumber")); nt "attCertValidityPeriod" (call0 (qual "rfc3281" "AttCertValidityPeriod")); nt "attributes" (ECall (univ "SequenceOf") [] [("componentType", call0 (qual "rfc5280" "Attribute"))]); ont "issuerUniqueID" (call0 (qual "rfc5280" "UniqueIdentifier")); ont "extensions" (call0 (qual "rfc5280" "Extensions"))]));
  (87%N, SClass "AttributeCertificateV1" (univ "Sequence") [SPass]);
  (91%N, seta "AttributeCertificateV1" "componentType" (nts [nt "acInfo" (new "AttributeCertificateInfoV1"); nt "signatureAlgorithm" (call0 (qual "rfc5280" "AlgorithmIdentifier")); nt "signature" (call0 (univ "BitString"))]));
  (98%N, SClass "AttributeValue" (univ "Any") [SPass]);
  (102%N, SClass "Attribute" (univ "Sequence") [SPass]);
  (106%N, seta "Attribute" "componentType" (nts [nt "attrType" (call0 (univ "ObjectIdentifier")); ECall (qual "namedtype" "NamedType") [EStr "attrValues"; ECall (univ "SetOf") [] [("componentType", new "AttributeValue")]] [("openType", call (qual "opentype" "OpenType") [EStr "attrType"; EName "cmsAttributesMap"])]]));
  (114%N, SClass "SignedAttributes" (univ "SetOf") [SPass]);
  (118%N, seta "SignedAttributes" "componentType" (new "Attribute"));
  (119%N, seta "SignedAttributes" "sizeSpec" (sizec (EInt 1) (EName "MAX")));
  (122%N, SClass "AttributeCertificateV2" (qual "rfc3281" "AttributeCertificate") [SPass]);
  (126%N, SClass "OtherKeyAttribute" (univ "Sequence") [SPass]);
  (130%N, seta "OtherKeyAttribute" "componentType" (nts [nt "keyAttrId" (call0 (univ "ObjectIdentifier")); ECall (qual "namedtype" "OptionalNamedType") [EStr "keyAttr"; call0 (univ "Any")] [("openType", call (qual "opentype" "OpenType") [EStr "keyAttrId"; EName "otherKeyAttributesMap"])]]));
  (138%N, SClass "UnauthAttributes" (univ "SetOf") [SPass]);
  (142%N, seta "UnauthAttributes" "componentType" (new "Attribute"));
  (143%N, seta "UnauthAttributes" "sizeSpec" (sizec (EInt 1) (EName "MAX")));
  (145%N, set "id_encryptedData" (call (EName "_buildOid") [EInt 1; EInt 2; EInt 840; EInt 113549; EInt 1; EInt 7; EInt 6]));
  (148%N, SClass "SignatureValue" (univ "OctetString") [SPass]);
  (152%N, SClass "IssuerAndSerialNumber" (univ "Sequence") [SPass]);
  (156%N, seta "IssuerAndSerialNumber" "componentType" (nts [nt "issuer" (call0 (qual "rfc5280" "Name")); nt "serialNumber" (call0 (qual "rfc5280" "CertificateSerialNumber"))]));
  (162%N, SClass "SubjectKeyIdentifier" (univ "OctetString") [SPass]);
  (166%N, SClass "RecipientKeyIdentifier" (univ "Sequence") [SPass]);
  (170%N, seta "RecipientKeyIdentifier" "componentType" (nts [nt "subjectKeyIdentifier" (new "SubjectKeyIdentifier"); ont "date" (call0 (useful "GeneralizedTime")); ont "other" (new "OtherKeyAttribute")]));
  (177%N, SClass "KeyAgreeRecipientIdentifier" (univ "Choice") [SPass]);
  (181%N, seta "KeyAgreeRecipientIdentifier" "componentType" (nts [nt "issuerAndSerialNumber" (new "IssuerAndSerialNumber"); nt "rKeyId" (implicit (new "RecipientKeyIdentifier") (ctxC 0))]));
  (188%N, SClass "EncryptedKey" (univ "OctetString") [SPass]);
  (192%N, SClass "RecipientEncryptedKey" (univ "Sequence") [SPass]);
  (196%N, seta "RecipientEncryptedKey" "componentType" (nts [nt "rid" (new "KeyAgreeRecipientIdentifier"); nt "encryptedKey" (new "EncryptedKey")]));
  (202%N, SClass "RecipientEncryptedKeys" (univ "SequenceOf") [SPass]);
  (206%N, seta "RecipientEncryptedKeys" "componentType" (new "RecipientEncryptedKey"));
  (209%N, SClass "MessageAuthenticationCode" (univ "OctetString") [SPass]);
  (213%N, SClass "CMSVersion" (univ "Integer") [SPass]);
  (217%N, seta "CMSVersion" "namedValues" (nvs [nv "v0" 0; nv "v1" 1; nv "v2" 2; nv "v3" 3; nv "v4" 4; nv "v5" 5]));
  (227%N, SClass "OtherCertificateFormat" (univ "Sequence") [SPass]);
  (231%N, seta "OtherCertificateFormat" "componentType" (nts [nt "otherCertFormat" (call0 (univ "ObjectIdentifier")); ECall (qual "namedtype" "NamedType") [EStr "otherCert"; call0 (univ "Any")] [("openType", call (qual "opentype" "OpenType") [EStr "otherCertFormat"; EName "otherCertFormatMap"])]]));
  (239%N, SClass "ExtendedCertificateInfo" (univ "Sequence") [SPass]);
  (243%N, seta "ExtendedCertificateInfo" "componentType" (nts [nt "version" (new "CMSVersion"); nt "certificate" (call0 (qual "rfc5280" "Certificate")); nt "attributes" (new "UnauthAttributes")]));
  (250%N, SClass "Signature" (univ "BitString") [SPass]);
  (254%N, SClass "SignatureAlgorithmIdentifier" (qual "rfc5280" "AlgorithmIdentifier") [SPass]);
  (258%N, SClass "ExtendedCertificate" (univ "Sequence") [SPass]);
  (262%N, seta "ExtendedCertificate" "componentType" (nts [nt "extendedCertificateInfo" (new "ExtendedCertificateInfo"); nt "signatureAlgorithm" (new "SignatureAlgorithmIdentifier"); nt "signature" (new "Signature")]));
  (269%N, SClass "CertificateChoices" (univ "Choice") [SPass]);
  (273%N, seta "CertificateChoices" "componentType" (nts [nt "certificate" (call0 (qual "rfc5280" "Certificate")); nt "extendedCertificate" (implicit (new "ExtendedCertificate") (ctxC 0)); nt "v1AttrCert" (implicit (new "AttributeCertificateV1") (ctxS 1)); nt "v2AttrCert" (implicit (new "AttributeCertificateV2") (ctxS 2)); nt "other" (implicit (new "OtherCertificateFormat") (ctxC 3))]));
  (286%N, SClass "CertificateSet" (univ "SetOf") [SPass]);
  (290%N, seta "CertificateSet" "componentType" (new "CertificateChoices"));
  (293%N, SClass "OtherRevocationInfoFormat" (univ "Sequence") [SPass]);
  (297%N, seta "OtherRevocationInfoFormat" "componentType" (nts [nt "otherRevInfoFormat" (call0 (univ "ObjectIdentifier")); ECall (qual "namedtype" "NamedType") [EStr "otherRevInfo"; call0 (univ "Any")] [("openType", call (qual "opentype" "OpenType") [EStr "otherRevInfoFormat"; EName "otherRevInfoFormatMap"])]]));
  (305%N, SClass "RevocationInfoChoice" (univ "Choice") [SPass]);
  (309%N, seta "RevocationInfoChoice" "componentType" (nts [nt "crl" (call0 (qual "rfc5280" "CertificateList")); nt "other" (implicit (new "OtherRevocationInfoFormat") (ctxC 1))]));
  (316%N, SClass "RevocationInfoChoices" (univ "SetOf") [SPass]);
  (320%N, seta "RevocationInfoChoices" "componentType" (new "RevocationInfoChoice"));
  (323%N, SClass "OriginatorInfo" (univ "Sequence") [SPass]);
  (327%N, seta "OriginatorInfo" "componentType" (nts [ont "certs" (implicit (new "CertificateSet") (ctxS 0)); ont "crls" (implicit (new "RevocationInfoChoices") (ctxS 1))]));
  (335%N, SClass "ContentType" (univ "ObjectIdentifier") [SPass]);
  (339%N, SClass "EncryptedContent" (univ "OctetString") [SPass]);
  (343%N, SClass "ContentEncryptionAlgorithmIdentifier" (qual "rfc5280" "AlgorithmIdentifier") [SPass]);
  (347%N, SClass "EncryptedContentInfo" (univ "Sequence") [SPass]);
  (351%N, seta "EncryptedContentInfo" "componentType" (nts [nt "contentType" (new "ContentType"); nt "contentEncryptionAlgorithm" (new "ContentEncryptionAlgorithmIdentifier"); ont "encryptedContent" (implicit (new "EncryptedContent") (ctxS 0))]));
  (359%N, SClass "UnprotectedAttributes" (univ "SetOf") [SPass]);
  (363%N, seta "UnprotectedAttributes" "componentType" (new "Attribute"));
  (364%N, seta "UnprotectedAttributes" "sizeSpec" (sizec (EInt 1) (EName "MAX")));
  (367%N, SClass "KeyEncryptionAlgorithmIdentifier" (qual "rfc5280" "AlgorithmIdentifier") [SPass]);
  (371%N, SClass "KEKIdentifier" (univ "Sequence") [SPass]);
  (375%N, seta "KEKIdentifier" "componentType" (nts [nt "keyIdentifier" (call0 (univ "OctetString")); ont "date" (call0 (useful "GeneralizedTime")); ont "other" (new "OtherKeyAttribute")]));
  (382%N, SClass "KEKRecipientInfo" (univ "Sequence") [SPass]);
  (386%N, seta "KEKRecipientInfo" "componentType" (nts [nt "version" (new "CMSVersion"); nt "kekid" (new "KEKIdentifier"); nt "keyEncryptionAlgorithm" (new "KeyEncryptionAlgorithmIdentifier"); nt "encryptedKey" (new "EncryptedKey")]));
  (394%N, SClass "KeyDerivationAlgorithmIdentifier" (qual "rfc5280" "AlgorithmIdentifier") [SPass]);
  (398%N, SClass "PasswordRecipientInfo" (univ "Sequence") [SPass]);
  (402%N, seta "PasswordRecipientInfo" "componentType" (nts [nt "version" (new "CMSVersion"); ont "keyDerivationAlgorithm" (implicit (new "KeyDerivationAlgorithmIdentifier") (ctxS 0)); nt "keyEncryptionAlgorithm" (new "KeyEncryptionAlgorithmIdentifier"); nt "encryptedKey" (new "EncryptedKey")]));
  (411%N, SClass "RecipientIdentifier" (univ "Choice") [SPass]);
  (415%N, seta "RecipientIdentifier" "componentType" (nts [nt "issuerAndSerialNumber" (new "IssuerAndSerialNumber"); nt "subjectKeyIdentifier" (implicit (new "SubjectKeyIdentifier") (ctxS 0))]));
  (422%N, SClass "KeyTransRecipientInfo" (univ "Sequence") [SPass]);
  (426%N, seta "KeyTransRecipientInfo" "componentType" (nts [nt "version" (new "CMSVersion"); nt "rid" (new "RecipientIdentifier"); nt "keyEncryptionAlgorithm" (new "KeyEncryptionAlgorithmIdentifier"); nt "encryptedKey" (new "EncryptedKey")]));
  (434%N, SClass "UserKeyingMaterial" (univ "OctetString") [SPass]);
  (438%N, SClass "OriginatorPublicKey" (univ "Sequence") [SPass]);
  (442%N, seta "OriginatorPublicKey" "componentType" (nts [nt "algorithm" (call0 (qual "rfc5280" "AlgorithmIdentifier")); nt "publicKey" (call0 (univ "BitString"))]));
  (448%N, SClass "OriginatorIdentifierOrKey" (univ "Choice") [SPass]);
  (452%N, seta "OriginatorIdentifierOrKey" "componentType" (nts [nt "issuerAndSerialNumber" (new "IssuerAndSerialNumber"); nt "subjectKeyIdentifier" (implicit (new "SubjectKeyIdentifier") (ctxS 0)); nt "originatorKey" (implicit (new "OriginatorPublicKey") (ctxC 1))]));
  (461%N, SClass "KeyAgreeRecipientInfo" (univ "Sequence") [SPass]);
  (465%N, seta "KeyAgreeRecipientInfo" "componentType" (nts [nt "version" (new "CMSVersion"); nt "originator" (explicit (new "OriginatorIdentifierOrKey") (ctxC 0)); ont "ukm" (explicit (new "UserKeyingMaterial") (ctxS 1)); nt "keyEncryptionAlgorithm" (new "KeyEncryptionAlgorithmIdentifier"); nt "recipientEncryptedKeys" (new "RecipientEncryptedKeys")]));
  (476%N, SClass "OtherRecipientInfo" (univ "Sequence") [SPass]);
  (480%N, seta "OtherRecipientInfo" "componentType" (nts [nt "oriType" (call0 (univ "ObjectIdentifier")); ECall (qual "namedtype" "NamedType") [EStr "oriValue"; call0 (univ "Any")] [("openType", call (qual "opentype" "OpenType") [EStr "oriType"; EName "otherRecipientInfoMap"])]]));
  (488%N, SClass "RecipientInfo" (univ "Choice") [SPass]);
  (492%N, seta "RecipientInfo" "componentType" (nts [nt "ktri" (new "KeyTransRecipientInfo"); nt "kari" (implicit (new "KeyAgreeRecipientInfo") (ctxC 1)); nt "kekri" (implicit (new "KEKRecipientInfo") (ctxC 2)); nt "pwri" (implicit (new "PasswordRecipientInfo") (ctxC 3)); nt "ori" (implicit (new "OtherRecipientInfo") (ctxC 4))]));
  (505%N, SClass "RecipientInfos" (univ "SetOf") [SPass]);
  (509%N, seta "RecipientInfos" "componentType" (new "RecipientInfo"));
  (510%N, seta "RecipientInfos" "sizeSpec" (sizec (EInt 1) (EName "MAX")));
  (513%N, SClass "EnvelopedData" (univ "Sequence") [SPass]);
  (517%N, seta "EnvelopedData" "componentType" (nts [nt "version" (new "CMSVersion"); ont "originatorInfo" (implicit (new "OriginatorInfo") (ctxC 0)); nt "recipientInfos" (new "RecipientInfos"); nt "encryptedContentInfo" (new "EncryptedContentInfo"); ont "unprotectedAttrs" (implicit (new "UnprotectedAttributes") (ctxS 1))]));
  (528%N, SClass "DigestAlgorithmIdentifier" (qual "rfc5280" "AlgorithmIdentifier") [SPass]);
  (532%N, set "id_ct_contentInfo" (call (EName "_buildOid") [EInt 1; EInt 2; EInt 840; EInt 113549; EInt 1; EInt 9; EInt 16; EInt 1; EInt 6]));
  (534%N, set "id_digestedData" (call (EName "_buildOid") [EInt 1; EInt 2; EInt 840; EInt 113549; EInt 1; EInt 7; EInt 5]));
  (537%N, SClass "EncryptedData" (univ "Sequence") [SPass]);
  (541%N, seta "EncryptedData" "componentType" (nts [nt "version" (new "CMSVersion"); nt "encryptedContentInfo" (new "EncryptedContentInfo"); ont "unprotectedAttrs" (implicit (new "UnprotectedAttributes") (ctxS 1))]));
  (548%N, set "id_messageDigest" (call (EName "_buildOid") [EInt 1; EInt 2; EInt 840; EInt 113549; EInt 1; EInt 9; EInt 4]));
  (550%N, set "id_signedData" (call (EName "_buildOid") [EInt 1; EInt 2; EInt 840; EInt 113549; EInt 1; EInt 7; EInt 2]));
  (553%N, SClass "MessageAuthenticationCodeAlgorithm" (qual "rfc5280" "AlgorithmIdentifier") [SPass]);
  (557%N, SClass "UnsignedAttributes" (univ "SetOf") [SPass]);
  (561%N, seta "UnsignedAttributes" "componentType" (new "Attribute"));
  (562%N, seta "UnsignedAttributes" "sizeSpec" (sizec (EInt 1) (EName "MAX")));
  (565%N, SClass "SignerIdentifier" (univ "Choice") [SPass]);
  (569%N, seta "SignerIdentifier" "componentType" (nts [nt "issuerAndSerialNumber" (new "IssuerAndSerialNumber"); nt "subjectKeyIdentifier" (implicit (new "SubjectKeyIdentifier") (ctxS 0))]));
  (576%N, SClass "SignerInfo" (univ "Sequence") [SPass]);
  (580%N, seta "SignerInfo" "componentType" (nts [nt "version" (new "CMSVersion"); nt "sid" (new "SignerIdentifier"); nt "digestAlgorithm" (new "DigestAlgorithmIdentifier"); ont "signedAttrs" (implicit (new "SignedAttributes") (ctxS 0)); nt "signatureAlgorithm" (new "SignatureAlgorithmIdentifier"); nt "signature" (new "SignatureValue"); ont "unsignedAttrs" (implicit (new "UnsignedAttributes") (ctxS 1))]));
  (593%N, SClass "SignerInfos" (univ "SetOf") [SPass]);
  (597%N, seta "SignerInfos" "componentType" (new "SignerInfo"));
  (600%N, SClass "Countersignature" (EName "SignerInfo") [SPass]);
  (604%N, SClass "ContentInfo" (univ "Sequence") [SPass]);
  (608%N, seta "ContentInfo" "componentType" (nts [nt "contentType" (new "ContentType"); ECall (qual "namedtype" "NamedType") [EStr "content"; explicit (call0 (univ "Any")) (ctxS 0)] [("openType", call (qual "opentype" "OpenType") [EStr "contentType"; EName "cmsContentTypesMap"])]]));
  (616%N, SClass "EncapsulatedContentInfo" (univ "Sequence") [SPass]);
  (620%N, seta "EncapsulatedContentInfo" "componentType" (nts [nt "eContentType" (new "ContentType"); ont "eContent" (explicit (call0 (univ "OctetString")) (ctxS 0))]));
  (626%N, set "id_countersignature" (call (EName "_buildOid") [EInt 1; EInt 2; EInt 840; EInt 113549; EInt 1; EInt 9; EInt 6]));
  (628%N, set "id_data" (call (EName "_buildOid") [EInt 1; EInt 2; EInt 840; EInt 113549; EInt 1; EInt 7; EInt 1]));
  (631%N, SClass "MessageDigest" (univ "OctetString") [SPass]);
  (635%N, SClass "AuthAttributes" (univ "SetOf") [SPass]);
  (639%N, seta "AuthAttributes" "componentType" (new "Attribute"));
  (640%N, seta "AuthAttributes" "sizeSpec" (sizec (EInt 1) (EName "MAX")));
  (643%N, SClass "Time" (univ "Choice") [SPass]);
  (647%N, seta "Time" "componentType" (nts [nt "utcTime" (call0 (useful "UTCTime")); nt "generalTime" (call0 (useful "GeneralizedTime"))]));
  (653%N, SClass "AuthenticatedData" (univ "Sequence") [SPass]);
  (657%N, seta "AuthenticatedData" "componentType" (nts [nt "version" (new "CMSVersion"); ont "originatorInfo" (implicit (new "OriginatorInfo") (ctxC 0)); nt "recipientInfos" (new "RecipientInfos"); nt "macAlgorithm" (new "MessageAuthenticationCodeAlgorithm"); ont "digestAlgorithm" (implicit (new "DigestAlgorithmIdentifier") (ctxS 1)); nt "encapContentInfo" (new "EncapsulatedContentInfo"); ont "authAttrs" (implicit (new "AuthAttributes") (ctxS 2)); nt "mac" (new "MessageAuthenticationCode"); ont "unauthAttrs" (implicit (new "UnauthAttributes") (ctxS 3))]));
  (673%N, set "id_contentType" (call (EName "_buildOid") [EInt 1; EInt 2; EInt 840; EInt 113549; EInt 1; EInt 9; EInt 3]));
  (676%N, SClass "ExtendedCertificateOrCertificate" (univ "Choice") [SPass]);
  (680%N, seta "ExtendedCertificateOrCertificate" "componentType" (nts [nt "certificate" (call0 (qual "rfc5280" "Certificate")); nt "extendedCertificate" (implicit (new "ExtendedCertificate") (ctxC 0))]));
  (687%N, SClass "Digest" (univ "OctetString") [SPass]);
  (691%N, SClass "DigestedData" (univ "Sequence") [SPass]);
  (695%N, seta "DigestedData" "componentType" (nts [nt "version" (new "CMSVersion"); nt "digestAlgorithm" (new "DigestAlgorithmIdentifier"); nt "encapContentInfo" (new "EncapsulatedContentInfo"); nt "digest" (new "Digest")]));
  (702%N, set "id_envelopedData" (call (EName "_buildOid") [EInt 1; EInt 2; EInt 840; EInt 113549; EInt 1; EInt 7; EInt 3]));
  (705%N, SClass "DigestAlgorithmIdentifiers" (univ "SetOf") [SPass]);
  (709%N, seta "DigestAlgorithmIdentifiers" "componentType" (new "DigestAlgorithmIdentifier"));
  (712%N, SClass "SignedData" (univ "Sequence") [SPass]);
  (716%N, seta "SignedData" "componentType" (nts [nt "version" (new "CMSVersion"); nt "digestAlgorithms" (new "DigestAlgorithmIdentifiers"); nt "encapContentInfo" (new "EncapsulatedContentInfo"); ont "certificates" (implicit (new "CertificateSet") (ctxS 0)); ont "crls" (implicit (new "RevocationInfoChoices") (ctxS 1)); nt "signerInfos" (new "SignerInfos")]));
  (727%N, set "id_signingTime" (call (EName "_buildOid") [EInt 1; EInt 2; EInt 840; EInt 113549; EInt 1; EInt 9; EInt 5]));
  (730%N, SClass "SigningTime" (EName "Time") [SPass]);
  (734%N, set "id_ct_authData" (call (EName "_buildOid") [EInt 1; EInt 2; EInt 840; EInt 113549; EInt 1; EInt 9; EInt 16; EInt 1; EInt 2]));
  (739%N, set "_cmsContentTypesMapUpdate" (EDict [(EName "id_ct_contentInfo", new "ContentInfo"); (EName "id_data", call0 (univ "OctetString")); (EName "id_signedData", new "SignedData"); (EName "id_envelopedData", new "EnvelopedData"); (EName "id_digestedData", new "DigestedData"); (EName "id_encryptedData", new "EncryptedData"); (EName "id_ct_authData", new "AuthenticatedData")]));
  (749%N, SExpr (call (qual "cmsContentTypesMap" "update") [EName "_cmsContentTypesMapUpdate"]));
  (754%N, set "_cmsAttributesMapUpdate" (EDict [(EName "id_contentType", new "ContentType"); (EName "id_messageDigest", new "MessageDigest"); (EName "id_signingTime", new "SigningTime"); (EName "id_countersignature", new "Countersignature")]));
  (761%N, SExpr (call (qual "cmsAttributesMap" "update") [EName "_cmsAttributesMapUpdate"]))
].
