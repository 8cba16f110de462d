(** pyasn1_modules/rfc2985.py, printed by tools/py2coq.py.  Every statement is
    preceded by its line number in that file. *)
From Verif Require Import Py.Syntax.
From Coq Require Import List String ZArith NArith.
Import ListNotations.
Open Scope string_scope.
Open Scope Z_scope.

Definition src : module := [
  (15%N, SFrom "pyasn1.type" [("char", "char")]);
  (16%N, SFrom "pyasn1.type" [("constraint", "constraint")]);
  (17%N, SFrom "pyasn1.type" [("namedtype", "namedtype")]);
  (18%N, SFrom "pyasn1.type" [("namedval", "namedval")]);
  (19%N, SFrom "pyasn1.type" [("opentype", "opentype")]);
  (20%N, SFrom "pyasn1.type" [("tag", "tag")]);
  (21%N, SFrom "pyasn1.type" [("univ", "univ")]);
  (22%N, SFrom "pyasn1.type" [("useful", "useful")]);
  (24%N, SFrom "pyasn1_modules" [("rfc7292", "rfc7292")]);
  (25%N, SFrom "pyasn1_modules" [("rfc5958", "rfc5958")]);
  (26%N, SFrom "pyasn1_modules" [("rfc5652", "rfc5652")]);
  (27%N, SFrom "pyasn1_modules" [("rfc5280", "rfc5280")]);
  (30%N, SDef "_OID" [] (Some "components") [set "output" (EList []); SFor "x" (call (EName "tuple") [EName "components"]) [SIf (call (EName "isinstance") [EName "x"; univ "ObjectIdentifier"]) [SExpr (call (qual "output" "extend") [call (EName "list") [EName "x"]])] [SExpr (call (qual "output" "append") [call (EName "int") [EName "x"]])]]; SReturn (call (univ "ObjectIdentifier") [EName "output"])]);
  (41%N, set "MAX" (call (EName "float") [EStr "inf"]));
  (46%N, set "AlgorithmIdentifier" (qual "rfc5280" "AlgorithmIdentifier"));
  (48%N, set "Attribute" (qual "rfc5280" "Attribute"));
  (50%N, set "EmailAddress" (qual "rfc5280" "EmailAddress"));
  (52%N, set "Extensions" (qual "rfc5280" "Extensions"));
  (54%N, set "Time" (qual "rfc5280" "Time"));
  (56%N, set "X520countryName" (qual "rfc5280" "X520countryName"));
  (58%N, set "X520SerialNumber" (qual "rfc5280" "X520SerialNumber"));
  (63%N, set "ContentInfo" (qual "rfc5652" "ContentInfo"));
  (65%N, set "ContentType" (qual "rfc5652" "ContentType"));
  (67%N, set "Countersignature" (qual "rfc5652" "Countersignature"));
  (69%N, set "MessageDigest" (qual "rfc5652" "MessageDigest"));
  (71%N, set "SignerInfo" (qual "rfc5652" "SignerInfo"));
  (73%N, set "SigningTime" (qual "rfc5652" "SigningTime"));
  (78%N, set "EncryptedPrivateKeyInfo" (qual "rfc5958" "EncryptedPrivateKeyInfo"));
  (83%N, set "PFX" (qual "rfc7292" "PFX"));
  (93%N, SClass "AttributeType" (univ "ObjectIdentifier") [SPass]);
  (97%N, SClass "AttributeValue" (univ "Any") [SPass]);
  (101%N, SClass "AttributeValues" (univ "SetOf") [SPass]);
  (104%N, seta "AttributeValues" "componentType" (new "AttributeValue"));
  (107%N, SClass "SingleAttributeValues" (univ "SetOf") [SPass]);
  (110%N, seta "SingleAttributeValues" "componentType" (new "AttributeValue"));
  (113%N, SClass "SingleAttribute" (univ "Sequence") [SPass]);
  (116%N, seta "SingleAttribute" "componentType" (nts [nt "type" (new "AttributeType"); ECall (qual "namedtype" "NamedType") [EStr "values"; withsize (new "AttributeValues") (sizec (EInt 1) (EInt 1))] [("openType", call (qual "opentype" "OpenType") [EStr "type"; qual "rfc5280" "certificateAttributesMap"])]]));
  (128%N, set "CMSAttribute" (qual "rfc5652" "Attribute"));
  (131%N, SClass "CMSSingleAttribute" (univ "Sequence") [SPass]);
  (134%N, seta "CMSSingleAttribute" "componentType" (nts [nt "attrType" (new "AttributeType"); ECall (qual "namedtype" "NamedType") [EStr "attrValues"; withsize (new "AttributeValues") (sizec (EInt 1) (EInt 1))] [("openType", call (qual "opentype" "OpenType") [EStr "attrType"; qual "rfc5652" "cmsAttributesMap"])]]));
  (145%N, SClass "DirectoryString" (univ "Choice") [SPass]);
  (148%N, seta "DirectoryString" "componentType" (nts [nt "teletexString" (withspec (call0 (chr "TeletexString")) (sizec (EInt 1) (EInt 255))); nt "printableString" (withspec (call0 (chr "PrintableString")) (sizec (EInt 1) (EInt 255))); nt "universalString" (withspec (call0 (chr "UniversalString")) (sizec (EInt 1) (EInt 255))); nt "utf8String" (withspec (call0 (chr "UTF8String")) (sizec (EInt 1) (EInt 255))); nt "bmpString" (withspec (call0 (chr "BMPString")) (sizec (EInt 1) (EInt 255)))]));
  (165%N, SClass "PKCS9String" (univ "Choice") [SPass]);
  (168%N, seta "PKCS9String" "componentType" (nts [nt "ia5String" (withspec (call0 (chr "IA5String")) (sizec (EInt 1) (EInt 255))); nt "directoryString" (new "DirectoryString")]));
  (177%N, set "pkcs_9_ub_pkcs9String" (call (univ "Integer") [EInt 255]));
  (179%N, set "pkcs_9_ub_challengePassword" (call (univ "Integer") [EName "pkcs_9_ub_pkcs9String"]));
  (181%N, set "pkcs_9_ub_emailAddress" (call (univ "Integer") [EName "pkcs_9_ub_pkcs9String"]));
  (183%N, set "pkcs_9_ub_friendlyName" (call (univ "Integer") [EName "pkcs_9_ub_pkcs9String"]));
  (185%N, set "pkcs_9_ub_match" (call (univ "Integer") [EName "pkcs_9_ub_pkcs9String"]));
  (187%N, set "pkcs_9_ub_signingDescription" (call (univ "Integer") [EName "pkcs_9_ub_pkcs9String"]));
  (189%N, set "pkcs_9_ub_unstructuredAddress" (call (univ "Integer") [EName "pkcs_9_ub_pkcs9String"]));
  (191%N, set "pkcs_9_ub_unstructuredName" (call (univ "Integer") [EName "pkcs_9_ub_pkcs9String"]));
  (194%N, set "ub_name" (call (univ "Integer") [EInt 32768]));
  (196%N, set "pkcs_9_ub_placeOfBirth" (call (univ "Integer") [EName "ub_name"]));
  (198%N, set "pkcs_9_ub_pseudonym" (call (univ "Integer") [EName "ub_name"]));
  (203%N, set "ietf_at" (call (EName "_OID") [EInt 1; EInt 3; EInt 6; EInt 1; EInt 5; EInt 5; EInt 7; EInt 9]));
  (205%N, set "id_at" (call (EName "_OID") [EInt 2; EInt 5; EInt 4]));
  (207%N, set "pkcs_9" (call (EName "_OID") [EInt 1; EInt 2; EInt 840; EInt 113549; EInt 1; EInt 9]));
  (209%N, set "pkcs_9_mo" (call (EName "_OID") [EName "pkcs_9"; EInt 0]));
  (211%N, set "smime" (call (EName "_OID") [EName "pkcs_9"; EInt 16]));
  (213%N, set "certTypes" (call (EName "_OID") [EName "pkcs_9"; EInt 22]));
  (215%N, set "crlTypes" (call (EName "_OID") [EName "pkcs_9"; EInt 23]));
  (217%N, set "pkcs_9_oc" (call (EName "_OID") [EName "pkcs_9"; EInt 24]));
  (219%N, set "pkcs_9_at" (call (EName "_OID") [EName "pkcs_9"; EInt 25]));
  (221%N, set "pkcs_9_sx" (call (EName "_OID") [EName "pkcs_9"; EInt 26]));
  (223%N, set "pkcs_9_mr" (call (EName "_OID") [EName "pkcs_9"; EInt 27]));
  (228%N, set "pkcs_9_sx_pkcs9String" (call (EName "_OID") [EName "pkcs_9_sx"; EInt 1]));
  (230%N, set "pkcs_9_sx_signingTime" (call (EName "_OID") [EName "pkcs_9_sx"; EInt 2]));
  (235%N, set "pkcs_9_oc_pkcsEntity" (call (EName "_OID") [EName "pkcs_9_oc"; EInt 1]));
  (237%N, set "pkcs_9_oc_naturalPerson" (call (EName "_OID") [EName "pkcs_9_oc"; EInt 2]));
  (242%N, set "pkcs_9_mr_caseIgnoreMatch" (call (EName "_OID") [EName "pkcs_9_mr"; EInt 1]));
  (244%N, set "pkcs_9_mr_signingTimeMatch" (call (EName "_OID") [EName "pkcs_9_mr"; EInt 2]));
  (249%N, set "pkcs_9_at_pkcs7PDU" (call (EName "_OID") [EName "pkcs_9_at"; EInt 5]));
  (251%N, set "pKCS7PDU" (new "Attribute"));
  (252%N, SAssign [ESub (EName "pKCS7PDU") (EStr "type")] (EName "pkcs_9_at_pkcs7PDU"));
  (253%N, SAssign [ESub (ESub (EName "pKCS7PDU") (EStr "values")) (EInt 0)] (new "ContentInfo"));
  (258%N, set "pkcs_9_at_userPKCS12" (call (EName "_OID") [EInt 2; EInt 16; EInt 840; EInt 1; EInt 113730; EInt 3; EInt 1; EInt 216]));
  (260%N, set "userPKCS12" (new "Attribute"));
  (261%N, SAssign [ESub (EName "userPKCS12") (EStr "type")] (EName "pkcs_9_at_userPKCS12"));
  (262%N, SAssign [ESub (ESub (EName "userPKCS12") (EStr "values")) (EInt 0)] (new "PFX"));
  (267%N, set "pkcs_9_at_pkcs15Token" (call (EName "_OID") [EName "pkcs_9_at"; EInt 1]));
  (278%N, set "pkcs_9_at_encryptedPrivateKeyInfo" (call (EName "_OID") [EName "pkcs_9_at"; EInt 2]));
  (280%N, set "encryptedPrivateKeyInfo" (new "Attribute"));
  (281%N, SAssign [ESub (EName "encryptedPrivateKeyInfo") (EStr "type")] (EName "pkcs_9_at_encryptedPrivateKeyInfo"));
  (282%N, SAssign [ESub (ESub (EName "encryptedPrivateKeyInfo") (EStr "values")) (EInt 0)] (new "EncryptedPrivateKeyInfo"));
  (287%N, set "pkcs_9_at_emailAddress" (qual "rfc5280" "id_emailAddress"));
  (289%N, set "emailAddress" (new "Attribute"));
  (290%N, SAssign [ESub (EName "emailAddress") (EStr "type")] (EName "pkcs_9_at_emailAddress"));
  (291%N, SAssign [ESub (ESub (EName "emailAddress") (EStr "values")) (EInt 0)] (new "EmailAddress"));
  (296%N, set "pkcs_9_at_unstructuredName" (call (EName "_OID") [EName "pkcs_9"; EInt 2]));
  (298%N, set "unstructuredName" (new "Attribute"));
  (299%N, SAssign [ESub (EName "unstructuredName") (EStr "type")] (EName "pkcs_9_at_unstructuredName"));
  (300%N, SAssign [ESub (ESub (EName "unstructuredName") (EStr "values")) (EInt 0)] (new "PKCS9String"));
  (305%N, set "pkcs_9_at_unstructuredAddress" (call (EName "_OID") [EName "pkcs_9"; EInt 8]));
  (307%N, set "unstructuredAddress" (new "Attribute"));
  (308%N, SAssign [ESub (EName "unstructuredAddress") (EStr "type")] (EName "pkcs_9_at_unstructuredAddress"));
  (309%N, SAssign [ESub (ESub (EName "unstructuredAddress") (EStr "values")) (EInt 0)] (new "DirectoryString"));
  (314%N, set "pkcs_9_at_dateOfBirth" (call (EName "_OID") [EName "ietf_at"; EInt 1]));
  (316%N, set "dateOfBirth" (new "SingleAttribute"));
  (317%N, SAssign [ESub (EName "dateOfBirth") (EStr "type")] (EName "pkcs_9_at_dateOfBirth"));
  (318%N, SAssign [ESub (ESub (EName "dateOfBirth") (EStr "values")) (EInt 0)] (call0 (useful "GeneralizedTime")));
  (323%N, set "pkcs_9_at_placeOfBirth" (call (EName "_OID") [EName "ietf_at"; EInt 2]));
  (325%N, set "placeOfBirth" (new "SingleAttribute"));
  (326%N, SAssign [ESub (EName "placeOfBirth") (EStr "type")] (EName "pkcs_9_at_placeOfBirth"));
  (327%N, SAssign [ESub (ESub (EName "placeOfBirth") (EStr "values")) (EInt 0)] (new "DirectoryString"));
  (332%N, SClass "GenderString" (chr "PrintableString") [SPass]);
  (335%N, seta "GenderString" "subtypeSpec" (sizec (EInt 1) (EInt 1)));
  (336%N, seta "GenderString" "subtypeSpec" (call (qual "constraint" "SingleValueConstraint") [EStr "M"; EStr "F"; EStr "m"; EStr "f"]));
  (339%N, set "pkcs_9_at_gender" (call (EName "_OID") [EName "ietf_at"; EInt 3]));
  (341%N, set "gender" (new "SingleAttribute"));
  (342%N, SAssign [ESub (EName "gender") (EStr "type")] (EName "pkcs_9_at_gender"));
  (343%N, SAssign [ESub (ESub (EName "gender") (EStr "values")) (EInt 0)] (new "GenderString"));
  (348%N, set "pkcs_9_at_countryOfCitizenship" (call (EName "_OID") [EName "ietf_at"; EInt 4]));
  (350%N, set "countryOfCitizenship" (new "Attribute"));
  (351%N, SAssign [ESub (EName "countryOfCitizenship") (EStr "type")] (EName "pkcs_9_at_countryOfCitizenship"));
  (352%N, SAssign [ESub (ESub (EName "countryOfCitizenship") (EStr "values")) (EInt 0)] (new "X520countryName"));
  (357%N, set "pkcs_9_at_countryOfResidence" (call (EName "_OID") [EName "ietf_at"; EInt 5]));
  (359%N, set "countryOfResidence" (new "Attribute"));
  (360%N, SAssign [ESub (EName "countryOfResidence") (EStr "type")] (EName "pkcs_9_at_countryOfResidence"));
  (361%N, SAssign [ESub (ESub (EName "countryOfResidence") (EStr "values")) (EInt 0)] (new "X520countryName"));
  (366%N, set "id_at_pseudonym" (call (EName "_OID") [EInt 2; EInt 5; EInt 4; EInt 65]));
  (368%N, set "pseudonym" (new "Attribute"));
  (369%N, SAssign [ESub (EName "pseudonym") (EStr "type")] (EName "id_at_pseudonym"));
  (370%N, SAssign [ESub (ESub (EName "pseudonym") (EStr "values")) (EInt 0)] (new "DirectoryString"));
  (375%N, set "id_at_serialNumber" (qual "rfc5280" "id_at_serialNumber"));
  (377%N, set "serialNumber" (new "Attribute"));
  (378%N, SAssign [ESub (EName "serialNumber") (EStr "type")] (EName "id_at_serialNumber"));
  (379%N, SAssign [ESub (ESub (EName "serialNumber") (EStr "values")) (EInt 0)] (new "X520SerialNumber"));
  (384%N, set "pkcs_9_at_contentType" (qual "rfc5652" "id_contentType"));
  (386%N, set "contentType" (new "CMSSingleAttribute"));
  (387%N, SAssign [ESub (EName "contentType") (EStr "attrType")] (EName "pkcs_9_at_contentType"));
  (388%N, SAssign [ESub (ESub (EName "contentType") (EStr "attrValues")) (EInt 0)] (new "ContentType"));
  (393%N, set "pkcs_9_at_messageDigest" (qual "rfc5652" "id_messageDigest"));
  (395%N, set "messageDigest" (new "CMSSingleAttribute"));
  (396%N, SAssign [ESub (EName "messageDigest") (EStr "attrType")] (EName "pkcs_9_at_messageDigest"));
  (397%N, SAssign [ESub (ESub (EName "messageDigest") (EStr "attrValues")) (EInt 0)] (new "MessageDigest"));
  (402%N, set "pkcs_9_at_signingTime" (qual "rfc5652" "id_signingTime"));
  (404%N, set "signingTime" (new "CMSSingleAttribute"));
  (405%N, SAssign [ESub (EName "signingTime") (EStr "attrType")] (EName "pkcs_9_at_signingTime"));
  (406%N, SAssign [ESub (ESub (EName "signingTime") (EStr "attrValues")) (EInt 0)] (new "SigningTime"));
  (411%N, SClass "RandomNonce" (univ "OctetString") [SPass]);
  (414%N, seta "RandomNonce" "subtypeSpec" (sizec (EInt 4) (EName "MAX")));
  (417%N, set "pkcs_9_at_randomNonce" (call (EName "_OID") [EName "pkcs_9_at"; EInt 3]));
  (419%N, set "randomNonce" (new "CMSSingleAttribute"));
  (420%N, SAssign [ESub (EName "randomNonce") (EStr "attrType")] (EName "pkcs_9_at_randomNonce"));
  (421%N, SAssign [ESub (ESub (EName "randomNonce") (EStr "attrValues")) (EInt 0)] (new "RandomNonce"));
  (426%N, SClass "SequenceNumber" (univ "Integer") [SPass]);
  (429%N, seta "SequenceNumber" "subtypeSpec" (rangec (EInt 1) (EName "MAX")));
  (432%N, set "pkcs_9_at_sequenceNumber" (call (EName "_OID") [EName "pkcs_9_at"; EInt 4]));
  (434%N, set "sequenceNumber" (new "CMSSingleAttribute"));
  (435%N, SAssign [ESub (EName "sequenceNumber") (EStr "attrType")] (EName "pkcs_9_at_sequenceNumber"));
  (436%N, SAssign [ESub (ESub (EName "sequenceNumber") (EStr "attrValues")) (EInt 0)] (new "SequenceNumber"));
  (441%N, set "pkcs_9_at_counterSignature" (qual "rfc5652" "id_countersignature"));
  (443%N, set "counterSignature" (new "CMSAttribute"));
  (444%N, SAssign [ESub (EName "counterSignature") (EStr "attrType")] (EName "pkcs_9_at_counterSignature"));
  (445%N, SAssign [ESub (ESub (EName "counterSignature") (EStr "attrValues")) (EInt 0)] (new "Countersignature"));
  (450%N, set "pkcs_9_at_challengePassword" (call (EName "_OID") [EName "pkcs_9"; EInt 7]));
  (452%N, set "challengePassword" (new "SingleAttribute"));
  (453%N, SAssign [ESub (EName "challengePassword") (EStr "type")] (EName "pkcs_9_at_challengePassword"));
  (454%N, SAssign [ESub (ESub (EName "challengePassword") (EStr "values")) (EInt 0)] (new "DirectoryString"));
  (459%N, SClass "ExtensionRequest" (EName "Extensions") [SPass]);
  (463%N, set "pkcs_9_at_extensionRequest" (call (EName "_OID") [EName "pkcs_9"; EInt 14]));
  (465%N, set "extensionRequest" (new "SingleAttribute"));
  (466%N, SAssign [ESub (EName "extensionRequest") (EStr "type")] (EName "pkcs_9_at_extensionRequest"));
  (467%N, SAssign [ESub (ESub (EName "extensionRequest") (EStr "values")) (EInt 0)] (new "ExtensionRequest"));
  (472%N, SClass "AttributeSet" (univ "SetOf") [SPass]);
  (475%N, seta "AttributeSet" "componentType" (new "Attribute"));
  (478%N, set "pkcs_9_at_extendedCertificateAttributes" (call (EName "_OID") [EName "pkcs_9"; EInt 9]));
  (480%N, set "extendedCertificateAttributes" (new "SingleAttribute"));
  (481%N, SAssign [ESub (EName "extendedCertificateAttributes") (EStr "type")] (EName "pkcs_9_at_extendedCertificateAttributes"));
  (482%N, SAssign [ESub (ESub (EName "extendedCertificateAttributes") (EStr "values")) (EInt 0)] (new "AttributeSet"));
  (487%N, SClass "FriendlyName" (chr "BMPString") [SPass]);
  (490%N, seta "FriendlyName" "subtypeSpec" (sizec (EInt 1) (EName "pkcs_9_ub_friendlyName")));
  (493%N, set "pkcs_9_at_friendlyName" (call (EName "_OID") [EName "pkcs_9"; EInt 20]));
  (495%N, set "friendlyName" (new "SingleAttribute"));
  (496%N, SAssign [ESub (EName "friendlyName") (EStr "type")] (EName "pkcs_9_at_friendlyName"));
  (497%N, SAssign [ESub (ESub (EName "friendlyName") (EStr "values")) (EInt 0)] (new "FriendlyName"));
  (502%N, set "pkcs_9_at_localKeyId" (call (EName "_OID") [EName "pkcs_9"; EInt 21]));
  (504%N, set "localKeyId" (new "SingleAttribute"));
  (505%N, SAssign [ESub (EName "localKeyId") (EStr "type")] (EName "pkcs_9_at_localKeyId"));
  (506%N, SAssign [ESub (ESub (EName "localKeyId") (EStr "values")) (EInt 0)] (call0 (univ "OctetString")));
  (511%N, set "pkcs_9_at_signingDescription" (call (EName "_OID") [EName "pkcs_9"; EInt 13]));
  (513%N, set "signingDescription" (new "CMSSingleAttribute"));
  (514%N, SAssign [ESub (EName "signingDescription") (EStr "attrType")] (EName "pkcs_9_at_signingDescription"));
  (515%N, SAssign [ESub (ESub (EName "signingDescription") (EStr "attrValues")) (EInt 0)] (new "DirectoryString"));
  (520%N, SClass "SMIMECapability" (EName "AlgorithmIdentifier") [SPass]);
  (524%N, SClass "SMIMECapabilities" (univ "SequenceOf") [SPass]);
  (527%N, seta "SMIMECapabilities" "componentType" (new "SMIMECapability"));
  (530%N, set "pkcs_9_at_smimeCapabilities" (call (EName "_OID") [EName "pkcs_9"; EInt 15]));
  (532%N, set "smimeCapabilities" (new "CMSSingleAttribute"));
  (533%N, SAssign [ESub (EName "smimeCapabilities") (EStr "attrType")] (EName "pkcs_9_at_smimeCapabilities"));
  (534%N, SAssign [ESub (ESub (EName "smimeCapabilities") (EStr "attrValues")) (EInt 0)] (new "SMIMECapabilities"));
  (539%N, set "_certificateAttributesMapUpdate" (EDict [(EName "pkcs_9_at_pkcs7PDU", new "ContentInfo"); (EName "pkcs_9_at_userPKCS12", new "PFX"); (EName "pkcs_9_at_encryptedPrivateKeyInfo", new "EncryptedPrivateKeyInfo"); (EName "pkcs_9_at_emailAddress", new "EmailAddress"); (EName "pkcs_9_at_unstructuredName", new "PKCS9String"); (EName "pkcs_9_at_unstructuredAddress", new "DirectoryString"); (EName "pkcs_9_at_dateOfBirth", call0 (useful "GeneralizedTime")); (EName "pkcs_9_at_placeOfBirth", new "DirectoryString"); (EName "pkcs_9_at_gender", new "GenderString"); (EName "pkcs_9_at_countryOfCitizenship", new "X520countryName"); (EName "pkcs_9_at_countryOfResidence", new "X520countryName"); (EName "id_at_pseudonym", new "DirectoryString"); (EName "id_at_serialNumber", new "X520SerialNumber"); (EName "pkcs_9_at_challengePassword", new "DirectoryString"); (EName "pkcs_9_at_extensionRequest", new "ExtensionRequest"); (EName "pkcs_9_at_extendedCertificateAttributes", new "AttributeSet")]));
  (563%N, SExpr (call (EAttr (qual "rfc5280" "certificateAttributesMap") "update") [EName "_certificateAttributesMapUpdate"]));
  (573%N, set "_cmsAttributesMapUpdate" (EDict [(EName "pkcs_9_at_contentType", new "ContentType"); (EName "pkcs_9_at_messageDigest", new "MessageDigest"); (EName "pkcs_9_at_signingTime", new "SigningTime"); (EName "pkcs_9_at_randomNonce", new "RandomNonce"); (EName "pkcs_9_at_sequenceNumber", new "SequenceNumber"); (EName "pkcs_9_at_counterSignature", new "Countersignature"); (EName "pkcs_9_at_friendlyName", new "FriendlyName"); (EName "pkcs_9_at_localKeyId", call0 (univ "OctetString")); (EName "pkcs_9_at_signingDescription", new "DirectoryString")]));
  (588%N, SExpr (call (EAttr (qual "rfc5652" "cmsAttributesMap") "update") [EName "_cmsAttributesMapUpdate"]))
].
