(** pyasn1_modules/rfc7191.py, printed by tools/py2coq.py.  Every statement is
    preceded by its line number in that file. *)
From Verif Require Import Py.Syntax.
From Coq Require Import List String ZArith NArith.
Import ListNotations.
Open Scope string_scope.
Open Scope Z_scope.

Definition src : module := [
  (14%N, SFrom "pyasn1.type" [("constraint", "constraint")]);
  (15%N, SFrom "pyasn1.type" [("namedtype", "namedtype")]);
  (16%N, SFrom "pyasn1.type" [("namedval", "namedval")]);
  (17%N, SFrom "pyasn1.type" [("opentype", "opentype")]);
  (18%N, SFrom "pyasn1.type" [("tag", "tag")]);
  (19%N, SFrom "pyasn1.type" [("univ", "univ")]);
  (21%N, SFrom "pyasn1_modules" [("rfc5280", "rfc5280")]);
  (22%N, SFrom "pyasn1_modules" [("rfc5652", "rfc5652")]);
  (24%N, set "MAX" (call (EName "float") [EStr "inf"]));
  (26%N, set "DistinguishedName" (qual "rfc5280" "DistinguishedName"));
  (32%N, SClass "AttributeValue" (univ "Any") [SPass]);
  (36%N, SClass "AttributeValues" (univ "SetOf") [SPass]);
  (39%N, seta "AttributeValues" "componentType" (new "AttributeValue"));
  (40%N, seta "AttributeValues" "sizeSpec" (EBin OAdd (EAttr (univ "Set") "sizeSpec") (sizec (EInt 1) (EInt 1))));
  (43%N, SClass "SingleAttribute" (univ "Sequence") [SPass]);
  (46%N, seta "SingleAttribute" "componentType" (nts [nt "attrType" (call0 (univ "ObjectIdentifier")); ECall (qual "namedtype" "NamedType") [EStr "attrValues"; new "AttributeValues"] [("openType", call (qual "opentype" "OpenType") [EStr "attrType"; qual "rfc5652" "cmsAttributesMap"])]]));
  (56%N, SClass "SIREntityNameType" (univ "ObjectIdentifier") [SPass]);
  (60%N, SClass "SIREntityNameValue" (univ "Any") [SPass]);
  (64%N, SClass "SIREntityName" (univ "Sequence") [SPass]);
  (67%N, seta "SIREntityName" "componentType" (nts [nt "sirenType" (new "SIREntityNameType"); nt "sirenValue" (call0 (univ "OctetString"))]));
  (74%N, SClass "SIREntityNames" (univ "SequenceOf") [SPass]);
  (77%N, seta "SIREntityNames" "componentType" (new "SIREntityName"));
  (78%N, seta "SIREntityNames" "sizeSpec" (sizec (EInt 1) (EName "MAX")));
  (81%N, set "id_dn" (call (univ "ObjectIdentifier") [EStr "2.16.840.1.101.2.1.16.0"]));
  (84%N, SClass "siren_dn" (EName "SIREntityName") [SDef "__init__" ["self"] None [SExpr (call (qual "SIREntityName" "__init__") [EName "self"]); SAssign [ESub (EName "self") (EStr "sirenType")] (EName "id_dn")]]);
  (92%N, SClass "EnumeratedErrorCode" (univ "Enumerated") [SPass]);
  (96%N, seta "EnumeratedErrorCode" "namedValues" (nvs [nv "decodeFailure" 1; nv "badContentInfo" 2; nv "badSignedData" 3; nv "badEncapContent" 4; nv "badCertificate" 5; nv "badSignerInfo" 6; nv "badSignedAttrs" 7; nv "badUnsignedAttrs" 8; nv "missingContent" 9; nv "noTrustAnchor" 10; nv "notAuthorized" 11; nv "badDigestAlgorithm" 12; nv "badSignatureAlgorithm" 13; nv "unsupportedKeySize" 14; nv "unsupportedParameters" 15; nv "signatureFailure" 16; nv "insufficientMemory" 17; nv "incorrectTarget" 23; nv "missingSignature" 29; nv "resourcesBusy" 30; nv "versionNumberMismatch" 31; nv "revokedCertificate" 33; nv "ambiguousDecrypt" 60; nv "noDecryptKey" 61; nv "badEncryptedData" 62; nv "badEnvelopedData" 63; nv "badAuthenticatedData" 64; nv "badAuthEnvelopedData" 65; nv "badKeyAgreeRecipientInfo" 66; nv "badKEKRecipientInfo" 67; nv "badEncryptContent" 68; nv "badEncryptAlgorithm" 69; nv "missingCiphertext" 70; nv "decryptFailure" 71; nv "badMACAlgorithm" 72; nv "badAuthAttrs" 73; nv "badUnauthAttrs" 74; nv "invalidMAC" 75; nv "mismatchedDigestAlg" 76; nv "missingCertificate" 77; nv "tooManySigners" 78; nv "missingSignedAttributes" 79; nv "derEncodingNotUsed" 80; nv "missingContentHints" 81; nv "invalidAttributeLocation" 82; nv "badMessageDigest" 83; nv "badKeyPackage" 84; nv "badAttributes" 85; nv "attributeComparisonFailure" 86; nv "unsupportedSymmetricKeyPackage" 87; nv "unsupportedAsymmetricKeyPackage" 88; nv "constraintViolation" 89; nv "ambiguousDefaultValue" 90; nv "noMatchingRecipientInfo" 91; nv "unsupportedKeyWrapAlgorithm" 92; nv "badKeyTransRecipientInfo" 93; nv "other" 127]));
  (157%N, SClass "ErrorCodeChoice" (univ "Choice") [SPass]);
  (160%N, seta "ErrorCodeChoice" "componentType" (nts [nt "enum" (new "EnumeratedErrorCode"); nt "oid" (call0 (univ "ObjectIdentifier"))]));
  (166%N, SClass "KeyPkgID" (univ "OctetString") [SPass]);
  (170%N, SClass "KeyPkgIdentifier" (univ "Choice") [SPass]);
  (173%N, seta "KeyPkgIdentifier" "componentType" (nts [nt "pkgID" (new "KeyPkgID"); nt "attribute" (new "SingleAttribute")]));
  (179%N, SClass "KeyPkgVersion" (univ "Integer") [SPass]);
  (183%N, seta "KeyPkgVersion" "namedValues" (nvs [nv "v1" 1; nv "v2" 2]));
  (188%N, seta "KeyPkgVersion" "subtypeSpec" (rangec (EInt 1) (EInt 65535)));
  (191%N, set "id_ct_KP_keyPackageError" (call (univ "ObjectIdentifier") [EStr "2.16.840.1.101.2.1.2.78.6"]));
  (193%N, SClass "KeyPackageError" (univ "Sequence") [SPass]);
  (196%N, seta "KeyPackageError" "componentType" (nts [dnt "version" (withvalue (new "KeyPkgVersion") (EStr "v2")); ont "errorOf" (implicit (new "KeyPkgIdentifier") (ctxC 0)); nt "errorBy" (new "SIREntityName"); nt "errorCode" (new "ErrorCodeChoice")]));
  (207%N, set "id_ct_KP_keyPackageReceipt" (call (univ "ObjectIdentifier") [EStr "2.16.840.1.101.2.1.2.78.3"]));
  (209%N, SClass "KeyPackageReceipt" (univ "Sequence") [SPass]);
  (212%N, seta "KeyPackageReceipt" "componentType" (nts [dnt "version" (withvalue (new "KeyPkgVersion") (EStr "v2")); nt "receiptOf" (new "KeyPkgIdentifier"); nt "receivedBy" (new "SIREntityName")]));
  (221%N, SClass "KeyPkgReceiptReq" (univ "Sequence") [SPass]);
  (224%N, seta "KeyPkgReceiptReq" "componentType" (nts [dnt "encryptReceipt" (withvalue (call0 (univ "Boolean")) (EInt 0)); ont "receiptsFrom" (implicit (new "SIREntityNames") (ctxS 0)); nt "receiptsTo" (new "SIREntityNames")]));
  (232%N, set "id_aa_KP_keyPkgIdAndReceiptReq" (call (univ "ObjectIdentifier") [EStr "2.16.840.1.101.2.1.5.65"]));
  (234%N, SClass "KeyPkgIdentifierAndReceiptReq" (univ "Sequence") [SPass]);
  (237%N, seta "KeyPkgIdentifierAndReceiptReq" "componentType" (nts [nt "pkgID" (new "KeyPkgID"); ont "receiptReq" (new "KeyPkgReceiptReq")]));
  (246%N, set "_cmsAttributesMapUpdate" (EDict [(EName "id_aa_KP_keyPkgIdAndReceiptReq", new "KeyPkgIdentifierAndReceiptReq")]));
  (250%N, SExpr (call (EAttr (qual "rfc5652" "cmsAttributesMap") "update") [EName "_cmsAttributesMapUpdate"]));
  (256%N, set "_cmsContentTypesMapUpdate" (EDict [(EName "id_ct_KP_keyPackageError", new "KeyPackageError"); (EName "id_ct_KP_keyPackageReceipt", new "KeyPackageReceipt")]));
  (261%N, SExpr (call (EAttr (qual "rfc5652" "cmsContentTypesMap") "update") [EName "_cmsContentTypesMapUpdate"]))
].
