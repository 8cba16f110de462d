(** pyasn1_modules/rfc6031.py, printed by tools/py2coq.py.  Every statement is
    preceded by its line number in that file. *)
From Verif Require Import Py.Syntax.
From Coq Require Import List String ZArith NArith.
Import ListNotations.
Open Scope string_scope.
Open Scope Z_scope.

Definition src : module := [
  (15%N, SFrom "pyasn1.type" [("char", "char")]);
  (16%N, SFrom "pyasn1.type" [("constraint", "constraint")]);
  (17%N, SFrom "pyasn1.type" [("namedtype", "namedtype")]);
  (18%N, SFrom "pyasn1.type" [("namedval", "namedval")]);
  (19%N, SFrom "pyasn1.type" [("opentype", "opentype")]);
  (20%N, SFrom "pyasn1.type" [("tag", "tag")]);
  (21%N, SFrom "pyasn1.type" [("univ", "univ")]);
  (22%N, SFrom "pyasn1.type" [("useful", "useful")]);
  (24%N, SFrom "pyasn1_modules" [("rfc5652", "rfc5652")]);
  (25%N, SFrom "pyasn1_modules" [("rfc6019", "rfc6019")]);
  (28%N, SDef "_OID" [] (Some "components") [set "output" (EList []); SFor "x" (call (EName "tuple") [EName "components"]) [SIf (call (EName "isinstance") [EName "x"; univ "ObjectIdentifier"]) [SExpr (call (qual "output" "extend") [call (EName "list") [EName "x"]])] [SExpr (call (qual "output" "append") [call (EName "int") [EName "x"]])]]; SReturn (call (univ "ObjectIdentifier") [EName "output"])]);
  (38%N, set "MAX" (call (EName "float") [EStr "inf"]));
  (40%N, set "id_pskc" (call (univ "ObjectIdentifier") [EStr "1.2.840.113549.1.9.16.12"]));
  (45%N, set "id_pskc_manufacturer" (call (EName "_OID") [EName "id_pskc"; EInt 1]));
  (47%N, SClass "at_pskc_manufacturer" (chr "UTF8String") [SPass]);
  (51%N, set "id_pskc_serialNo" (call (EName "_OID") [EName "id_pskc"; EInt 2]));
  (53%N, SClass "at_pskc_serialNo" (chr "UTF8String") [SPass]);
  (57%N, set "id_pskc_model" (call (EName "_OID") [EName "id_pskc"; EInt 3]));
  (59%N, SClass "at_pskc_model" (chr "UTF8String") [SPass]);
  (63%N, set "id_pskc_issueNo" (call (EName "_OID") [EName "id_pskc"; EInt 4]));
  (65%N, SClass "at_pskc_issueNo" (chr "UTF8String") [SPass]);
  (69%N, set "id_pskc_deviceBinding" (call (EName "_OID") [EName "id_pskc"; EInt 5]));
  (71%N, SClass "at_pskc_deviceBinding" (chr "UTF8String") [SPass]);
  (75%N, set "id_pskc_deviceStartDate" (call (EName "_OID") [EName "id_pskc"; EInt 6]));
  (77%N, SClass "at_pskc_deviceStartDate" (useful "GeneralizedTime") [SPass]);
  (81%N, set "id_pskc_deviceExpiryDate" (call (EName "_OID") [EName "id_pskc"; EInt 7]));
  (83%N, SClass "at_pskc_deviceExpiryDate" (useful "GeneralizedTime") [SPass]);
  (87%N, set "id_pskc_moduleId" (call (EName "_OID") [EName "id_pskc"; EInt 8]));
  (89%N, SClass "at_pskc_moduleId" (chr "UTF8String") [SPass]);
  (93%N, set "id_pskc_deviceUserId" (call (EName "_OID") [EName "id_pskc"; EInt 26]));
  (95%N, SClass "at_pskc_deviceUserId" (chr "UTF8String") [SPass]);
  (101%N, set "id_pskc_keyId" (call (EName "_OID") [EName "id_pskc"; EInt 9]));
  (103%N, SClass "at_pskc_keyUserId" (chr "UTF8String") [SPass]);
  (107%N, set "id_pskc_algorithm" (call (EName "_OID") [EName "id_pskc"; EInt 10]));
  (109%N, SClass "at_pskc_algorithm" (chr "UTF8String") [SPass]);
  (113%N, set "id_pskc_issuer" (call (EName "_OID") [EName "id_pskc"; EInt 11]));
  (115%N, SClass "at_pskc_issuer" (chr "UTF8String") [SPass]);
  (119%N, set "id_pskc_keyProfileId" (call (EName "_OID") [EName "id_pskc"; EInt 12]));
  (121%N, SClass "at_pskc_keyProfileId" (chr "UTF8String") [SPass]);
  (125%N, set "id_pskc_keyReference" (call (EName "_OID") [EName "id_pskc"; EInt 13]));
  (127%N, SClass "at_pskc_keyReference" (chr "UTF8String") [SPass]);
  (131%N, set "id_pskc_friendlyName" (call (EName "_OID") [EName "id_pskc"; EInt 14]));
  (133%N, SClass "FriendlyName" (univ "Sequence") [SPass]);
  (136%N, seta "FriendlyName" "componentType" (nts [nt "friendlyName" (call0 (chr "UTF8String")); ont "friendlyNameLangTag" (call0 (chr "UTF8String"))]));
  (141%N, SClass "at_pskc_friendlyName" (EName "FriendlyName") [SPass]);
  (145%N, set "id_pskc_algorithmParameters" (call (EName "_OID") [EName "id_pskc"; EInt 15]));
  (147%N, SClass "Encoding" (chr "UTF8String") [SPass]);
  (150%N, seta "Encoding" "namedValues" (nvs [ETuple [EStr "dec"; EStr "DECIMAL"]; ETuple [EStr "hex"; EStr "HEXADECIMAL"]; ETuple [EStr "alpha"; EStr "ALPHANUMERIC"]; ETuple [EStr "b64"; EStr "BASE64"]; ETuple [EStr "bin"; EStr "BINARY"]]));
  (158%N, seta "Encoding" "subtypeSpec" (call (qual "constraint" "SingleValueConstraint") [EStr "DECIMAL"; EStr "HEXADECIMAL"; EStr "ALPHANUMERIC"; EStr "BASE64"; EStr "BINARY"]));
  (161%N, SClass "ChallengeFormat" (univ "Sequence") [SPass]);
  (164%N, seta "ChallengeFormat" "componentType" (nts [nt "encoding" (new "Encoding"); dnt "checkDigit" (withvalue (call0 (univ "Boolean")) (EInt 0)); nt "min" (withspec (call0 (univ "Integer")) (rangec (EInt 0) (EName "MAX"))); nt "max" (withspec (call0 (univ "Integer")) (rangec (EInt 0) (EName "MAX")))]));
  (174%N, SClass "ResponseFormat" (univ "Sequence") [SPass]);
  (177%N, seta "ResponseFormat" "componentType" (nts [nt "encoding" (new "Encoding"); nt "length" (withspec (call0 (univ "Integer")) (rangec (EInt 0) (EName "MAX"))); dnt "checkDigit" (withvalue (call0 (univ "Boolean")) (EInt 0))]));
  (185%N, SClass "PSKCAlgorithmParameters" (univ "Choice") [SPass]);
  (188%N, seta "PSKCAlgorithmParameters" "componentType" (nts [nt "suite" (call0 (chr "UTF8String")); nt "challengeFormat" (implicit (new "ChallengeFormat") (ctxC 0)); nt "responseFormat" (implicit (new "ResponseFormat") (ctxC 1))]));
  (196%N, SClass "at_pskc_algorithmParameters" (EName "PSKCAlgorithmParameters") [SPass]);
  (200%N, set "id_pskc_counter" (call (EName "_OID") [EName "id_pskc"; EInt 16]));
  (202%N, SClass "at_pskc_counter" (univ "Integer") [SPass]);
  (205%N, seta "at_pskc_counter" "subtypeSpec" (rangec (EInt 0) (EName "MAX")));
  (208%N, set "id_pskc_time" (call (EName "_OID") [EName "id_pskc"; EInt 17]));
  (210%N, SClass "at_pskc_time" (qual "rfc6019" "BinaryTime") [SPass]);
  (214%N, set "id_pskc_timeInterval" (call (EName "_OID") [EName "id_pskc"; EInt 18]));
  (216%N, SClass "at_pskc_timeInterval" (univ "Integer") [SPass]);
  (219%N, seta "at_pskc_timeInterval" "subtypeSpec" (rangec (EInt 0) (EName "MAX")));
  (222%N, set "id_pskc_timeDrift" (call (EName "_OID") [EName "id_pskc"; EInt 19]));
  (224%N, SClass "at_pskc_timeDrift" (univ "Integer") [SPass]);
  (227%N, seta "at_pskc_timeDrift" "subtypeSpec" (rangec (EInt 0) (EName "MAX")));
  (230%N, set "id_pskc_valueMAC" (call (EName "_OID") [EName "id_pskc"; EInt 20]));
  (232%N, SClass "ValueMac" (univ "Sequence") [SPass]);
  (235%N, seta "ValueMac" "componentType" (nts [nt "macAlgorithm" (call0 (chr "UTF8String")); nt "mac" (call0 (chr "UTF8String"))]));
  (240%N, SClass "at_pskc_valueMAC" (EName "ValueMac") [SPass]);
  (244%N, set "id_pskc_keyUserId" (call (EName "_OID") [EName "id_pskc"; EInt 27]));
  (246%N, SClass "at_pskc_keyId" (chr "UTF8String") [SPass]);
  (250%N, set "id_pskc_keyStartDate" (call (EName "_OID") [EName "id_pskc"; EInt 21]));
  (252%N, SClass "at_pskc_keyStartDate" (useful "GeneralizedTime") [SPass]);
  (256%N, set "id_pskc_keyExpiryDate" (call (EName "_OID") [EName "id_pskc"; EInt 22]));
  (258%N, SClass "at_pskc_keyExpiryDate" (useful "GeneralizedTime") [SPass]);
  (262%N, set "id_pskc_numberOfTransactions" (call (EName "_OID") [EName "id_pskc"; EInt 23]));
  (264%N, SClass "at_pskc_numberOfTransactions" (univ "Integer") [SPass]);
  (267%N, seta "at_pskc_numberOfTransactions" "subtypeSpec" (rangec (EInt 0) (EName "MAX")));
  (270%N, set "id_pskc_keyUsages" (call (EName "_OID") [EName "id_pskc"; EInt 24]));
  (272%N, SClass "PSKCKeyUsage" (chr "UTF8String") [SPass]);
  (275%N, seta "PSKCKeyUsage" "namedValues" (nvs [ETuple [EStr "otp"; EStr "OTP"]; ETuple [EStr "cr"; EStr "CR"]; ETuple [EStr "encrypt"; EStr "Encrypt"]; ETuple [EStr "integrity"; EStr "Integrity"]; ETuple [EStr "verify"; EStr "Verify"]; ETuple [EStr "unlock"; EStr "Unlock"]; ETuple [EStr "decrypt"; EStr "Decrypt"]; ETuple [EStr "keywrap"; EStr "KeyWrap"]; ETuple [EStr "unwrap"; EStr "Unwrap"]; ETuple [EStr "derive"; EStr "Derive"]; ETuple [EStr "generate"; EStr "Generate"]]));
  (289%N, seta "PSKCKeyUsage" "subtypeSpec" (call (qual "constraint" "SingleValueConstraint") [EStr "OTP"; EStr "CR"; EStr "Encrypt"; EStr "Integrity"; EStr "Verify"; EStr "Unlock"; EStr "Decrypt"; EStr "KeyWrap"; EStr "Unwrap"; EStr "Derive"; EStr "Generate"]));
  (293%N, SClass "PSKCKeyUsages" (univ "SequenceOf") [SPass]);
  (296%N, seta "PSKCKeyUsages" "componentType" (new "PSKCKeyUsage"));
  (298%N, SClass "at_pskc_keyUsage" (EName "PSKCKeyUsages") [SPass]);
  (302%N, set "id_pskc_pinPolicy" (call (EName "_OID") [EName "id_pskc"; EInt 25]));
  (304%N, SClass "PINUsageMode" (chr "UTF8String") [SPass]);
  (307%N, seta "PINUsageMode" "namedValues" (nvs [ETuple [EStr "local"; EStr "Local"]; ETuple [EStr "prepend"; EStr "Prepend"]; ETuple [EStr "append"; EStr "Append"]; ETuple [EStr "algorithmic"; EStr "Algorithmic"]]));
  (314%N, seta "PINUsageMode" "subtypeSpec" (call (qual "constraint" "SingleValueConstraint") [EStr "Local"; EStr "Prepend"; EStr "Append"; EStr "Algorithmic"]));
  (317%N, SClass "PINPolicy" (univ "Sequence") [SPass]);
  (320%N, seta "PINPolicy" "componentType" (nts [ont "pinKeyId" (implicit (call0 (chr "UTF8String")) (ctxS 0)); nt "pinUsageMode" (implicit (new "PINUsageMode") (ctxS 1)); ont "maxFailedAttempts" (implicit (withspec (call0 (univ "Integer")) (rangec (EInt 0) (EName "MAX"))) (ctxS 2)); ont "minLength" (implicit (withspec (call0 (univ "Integer")) (rangec (EInt 0) (EName "MAX"))) (ctxS 3)); ont "maxLength" (implicit (withspec (call0 (univ "Integer")) (rangec (EInt 0) (EName "MAX"))) (ctxS 4)); ont "pinEncoding" (implicit (new "Encoding") (ctxS 5))]));
  (338%N, SClass "at_pskc_pinPolicy" (EName "PINPolicy") [SPass]);
  (344%N, set "sKeyPkgAttributesMap" (EDict [(EName "id_pskc_manufacturer", new "at_pskc_manufacturer"); (EName "id_pskc_serialNo", new "at_pskc_serialNo"); (EName "id_pskc_model", new "at_pskc_model"); (EName "id_pskc_issueNo", new "at_pskc_issueNo"); (EName "id_pskc_deviceBinding", new "at_pskc_deviceBinding"); (EName "id_pskc_deviceStartDate", new "at_pskc_deviceStartDate"); (EName "id_pskc_deviceExpiryDate", new "at_pskc_deviceExpiryDate"); (EName "id_pskc_moduleId", new "at_pskc_moduleId"); (EName "id_pskc_deviceUserId", new "at_pskc_deviceUserId")]));
  (359%N, set "sKeyAttributesMap" (EDict [(EName "id_pskc_keyId", new "at_pskc_keyId"); (EName "id_pskc_algorithm", new "at_pskc_algorithm"); (EName "id_pskc_issuer", new "at_pskc_issuer"); (EName "id_pskc_keyProfileId", new "at_pskc_keyProfileId"); (EName "id_pskc_keyReference", new "at_pskc_keyReference"); (EName "id_pskc_friendlyName", new "at_pskc_friendlyName"); (EName "id_pskc_algorithmParameters", new "at_pskc_algorithmParameters"); (EName "id_pskc_counter", new "at_pskc_counter"); (EName "id_pskc_time", new "at_pskc_time"); (EName "id_pskc_timeInterval", new "at_pskc_timeInterval"); (EName "id_pskc_timeDrift", new "at_pskc_timeDrift"); (EName "id_pskc_valueMAC", new "at_pskc_valueMAC"); (EName "id_pskc_keyUserId", new "at_pskc_keyUserId"); (EName "id_pskc_keyStartDate", new "at_pskc_keyStartDate"); (EName "id_pskc_keyExpiryDate", new "at_pskc_keyExpiryDate"); (EName "id_pskc_numberOfTransactions", new "at_pskc_numberOfTransactions"); (EName "id_pskc_keyUsages", new "at_pskc_keyUsage"); (EName "id_pskc_pinPolicy", new "at_pskc_pinPolicy")]));
  (384%N, SClass "AttributeType" (univ "ObjectIdentifier") [SPass]);
  (388%N, SClass "AttributeValue" (univ "Any") [SPass]);
  (392%N, SClass "SKeyAttribute" (univ "Sequence") [SPass]);
  (395%N, seta "SKeyAttribute" "componentType" (nts [nt "attrType" (new "AttributeType"); ECall (qual "namedtype" "NamedType") [EStr "attrValues"; ECall (univ "SetOf") [] [("componentType", new "AttributeValue")]] [("openType", call (qual "opentype" "OpenType") [EStr "attrType"; EName "sKeyAttributesMap"])]]));
  (404%N, SClass "SKeyPkgAttribute" (univ "Sequence") [SPass]);
  (407%N, seta "SKeyPkgAttribute" "componentType" (nts [nt "attrType" (new "AttributeType"); ECall (qual "namedtype" "NamedType") [EStr "attrValues"; ECall (univ "SetOf") [] [("componentType", new "AttributeValue")]] [("openType", call (qual "opentype" "OpenType") [EStr "attrType"; EName "sKeyPkgAttributesMap"])]]));
  (418%N, set "id_ct_KP_sKeyPackage" (call (univ "ObjectIdentifier") [EStr "1.2.840.113549.1.9.16.1.25"]));
  (421%N, SClass "KeyPkgVersion" (univ "Integer") [SPass]);
  (424%N, seta "KeyPkgVersion" "namedValues" (nvs [nv "v1" 1]));
  (429%N, SClass "OneSymmetricKey" (univ "Sequence") [SPass]);
  (432%N, seta "OneSymmetricKey" "componentType" (nts [ont "sKeyAttrs" (withspec (ECall (univ "SequenceOf") [] [("componentType", new "SKeyAttribute")]) (sizec (EInt 1) (EName "MAX"))); ont "sKey" (call0 (univ "OctetString"))]));
  (439%N, seta "OneSymmetricKey" "sizeSpec" (EBin OAdd (EAttr (univ "Sequence") "sizeSpec") (sizec (EInt 1) (EInt 2))));
  (442%N, SClass "SymmetricKeys" (univ "SequenceOf") [SPass]);
  (445%N, seta "SymmetricKeys" "componentType" (new "OneSymmetricKey"));
  (446%N, seta "SymmetricKeys" "subtypeSpec" (sizec (EInt 1) (EName "MAX")));
  (449%N, SClass "SymmetricKeyPackage" (univ "Sequence") [SPass]);
  (452%N, seta "SymmetricKeyPackage" "componentType" (nts [dnt "version" (withvalue (new "KeyPkgVersion") (EStr "v1")); ont "sKeyPkgAttrs" (ECall (EAttr (ECall (univ "SequenceOf") [] [("componentType", new "SKeyPkgAttribute")]) "subtype") [] [("subtypeSpec", sizec (EInt 1) (EName "MAX")); ("implicitTag", ctxS 0)]); nt "sKeys" (new "SymmetricKeys")]));
  (465%N, set "_cmsContentTypesMapUpdate" (EDict [(EName "id_ct_KP_sKeyPackage", new "SymmetricKeyPackage")]));
  (469%N, SExpr (call (EAttr (qual "rfc5652" "cmsContentTypesMap") "update") [EName "_cmsContentTypesMapUpdate"]))
].
