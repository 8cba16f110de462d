(** pyasn1_modules/rfc7292.py, printed by tools/py2coq.py.  Every statement is
    preceded by its line number in that file. *)
From Verif Require Import Py.Syntax.
From Coq Require Import List String ZArith NArith.
Import ListNotations.
Open Scope string_scope.
Open Scope Z_scope.

Definition src : module := [
  (14%N, SFrom "pyasn1.type" [("char", "char")]);
  (15%N, SFrom "pyasn1.type" [("constraint", "constraint")]);
  (16%N, SFrom "pyasn1.type" [("namedtype", "namedtype")]);
  (17%N, SFrom "pyasn1.type" [("namedval", "namedval")]);
  (18%N, SFrom "pyasn1.type" [("opentype", "opentype")]);
  (19%N, SFrom "pyasn1.type" [("tag", "tag")]);
  (20%N, SFrom "pyasn1.type" [("univ", "univ")]);
  (22%N, SFrom "pyasn1_modules" [("rfc2315", "rfc2315")]);
  (23%N, SFrom "pyasn1_modules" [("rfc5652", "rfc5652")]);
  (24%N, SFrom "pyasn1_modules" [("rfc5280", "rfc5280")]);
  (25%N, SFrom "pyasn1_modules" [("rfc5958", "rfc5958")]);
  (28%N, SDef "_OID" [] (Some "components") [set "output" (EList []); SFor "x" (call (EName "tuple") [EName "components"]) [SIf (call (EName "isinstance") [EName "x"; univ "ObjectIdentifier"]) [SExpr (call (qual "output" "extend") [call (EName "list") [EName "x"]])] [SExpr (call (qual "output" "append") [call (EName "int") [EName "x"]])]]; SReturn (call (univ "ObjectIdentifier") [EName "output"])]);
  (41%N, set "pkcs12BagTypeMap" (EDict []));
  (43%N, set "pkcs12CertBagMap" (EDict []));
  (45%N, set "pkcs12CRLBagMap" (EDict []));
  (47%N, set "pkcs12SecretBagMap" (EDict []));
  (52%N, set "DigestInfo" (qual "rfc2315" "DigestInfo"));
  (55%N, set "ContentInfo" (qual "rfc5652" "ContentInfo"));
  (57%N, set "PKCS12Attribute" (qual "rfc5652" "Attribute"));
  (60%N, set "EncryptedPrivateKeyInfo" (qual "rfc5958" "EncryptedPrivateKeyInfo"));
  (62%N, set "PrivateKeyInfo" (qual "rfc5958" "PrivateKeyInfo"));
  (68%N, SClass "AttributeType" (univ "ObjectIdentifier") [SPass]);
  (72%N, SClass "AttributeValue" (univ "Any") [SPass]);
  (76%N, SClass "AttributeValues" (univ "SetOf") [SPass]);
  (79%N, seta "AttributeValues" "componentType" (new "AttributeValue"));
  (82%N, SClass "CMSSingleAttribute" (univ "Sequence") [SPass]);
  (85%N, seta "CMSSingleAttribute" "componentType" (nts [nt "attrType" (new "AttributeType"); ECall (qual "namedtype" "NamedType") [EStr "attrValues"; withsize (new "AttributeValues") (sizec (EInt 1) (EInt 1))] [("openType", call (qual "opentype" "OpenType") [EStr "attrType"; qual "rfc5652" "cmsAttributesMap"])]]));
  (96%N, set "rsadsi" (call (EName "_OID") [EInt 1; EInt 2; EInt 840; EInt 113549]));
  (98%N, set "pkcs" (call (EName "_OID") [EName "rsadsi"; EInt 1]));
  (100%N, set "pkcs_9" (call (EName "_OID") [EName "pkcs"; EInt 9]));
  (102%N, set "certTypes" (call (EName "_OID") [EName "pkcs_9"; EInt 22]));
  (104%N, set "crlTypes" (call (EName "_OID") [EName "pkcs_9"; EInt 23]));
  (106%N, set "pkcs_12" (call (EName "_OID") [EName "pkcs"; EInt 12]));
  (111%N, set "pkcs_12PbeIds" (call (EName "_OID") [EName "pkcs_12"; EInt 1]));
  (113%N, set "pbeWithSHAAnd128BitRC4" (call (EName "_OID") [EName "pkcs_12PbeIds"; EInt 1]));
  (115%N, set "pbeWithSHAAnd40BitRC4" (call (EName "_OID") [EName "pkcs_12PbeIds"; EInt 2]));
  (117%N, set "pbeWithSHAAnd3_KeyTripleDES_CBC" (call (EName "_OID") [EName "pkcs_12PbeIds"; EInt 3]));
  (119%N, set "pbeWithSHAAnd2_KeyTripleDES_CBC" (call (EName "_OID") [EName "pkcs_12PbeIds"; EInt 4]));
  (121%N, set "pbeWithSHAAnd128BitRC2_CBC" (call (EName "_OID") [EName "pkcs_12PbeIds"; EInt 5]));
  (123%N, set "pbeWithSHAAnd40BitRC2_CBC" (call (EName "_OID") [EName "pkcs_12PbeIds"; EInt 6]));
  (126%N, SClass "Pkcs_12PbeParams" (univ "Sequence") [SPass]);
  (129%N, seta "Pkcs_12PbeParams" "componentType" (nts [nt "salt" (call0 (univ "OctetString")); nt "iterations" (call0 (univ "Integer"))]));
  (137%N, set "bagtypes" (call (EName "_OID") [EName "pkcs_12"; EInt 10; EInt 1]));
  (139%N, SClass "BAG_TYPE" (univ "Sequence") [SPass]);
  (142%N, seta "BAG_TYPE" "componentType" (nts [nt "id" (call0 (univ "ObjectIdentifier")); ECall (qual "namedtype" "NamedType") [EStr "unnamed1"; call0 (univ "Any")] [("openType", call (qual "opentype" "OpenType") [EStr "attrType"; EName "pkcs12BagTypeMap"])]]));
  (150%N, set "id_keyBag" (call (EName "_OID") [EName "bagtypes"; EInt 1]));
  (152%N, SClass "KeyBag" (EName "PrivateKeyInfo") [SPass]);
  (156%N, set "id_pkcs8ShroudedKeyBag" (call (EName "_OID") [EName "bagtypes"; EInt 2]));
  (158%N, SClass "PKCS8ShroudedKeyBag" (EName "EncryptedPrivateKeyInfo") [SPass]);
  (162%N, set "id_certBag" (call (EName "_OID") [EName "bagtypes"; EInt 3]));
  (164%N, SClass "CertBag" (univ "Sequence") [SPass]);
  (167%N, seta "CertBag" "componentType" (nts [nt "certId" (call0 (univ "ObjectIdentifier")); ECall (qual "namedtype" "NamedType") [EStr "certValue"; explicit (call0 (univ "Any")) (ctxS 0)] [("openType", call (qual "opentype" "OpenType") [EStr "certId"; EName "pkcs12CertBagMap"])]]));
  (176%N, set "x509Certificate" (new "CertBag"));
  (177%N, SAssign [ESub (EName "x509Certificate") (EStr "certId")] (call (EName "_OID") [EName "certTypes"; EInt 1]));
  (178%N, SAssign [ESub (EName "x509Certificate") (EStr "certValue")] (call0 (univ "OctetString")));
  (182%N, set "sdsiCertificate" (new "CertBag"));
  (183%N, SAssign [ESub (EName "sdsiCertificate") (EStr "certId")] (call (EName "_OID") [EName "certTypes"; EInt 2]));
  (184%N, SAssign [ESub (EName "sdsiCertificate") (EStr "certValue")] (call0 (chr "IA5String")));
  (188%N, set "id_CRLBag" (call (EName "_OID") [EName "bagtypes"; EInt 4]));
  (190%N, SClass "CRLBag" (univ "Sequence") [SPass]);
  (193%N, seta "CRLBag" "componentType" (nts [nt "crlId" (call0 (univ "ObjectIdentifier")); ECall (qual "namedtype" "NamedType") [EStr "crlValue"; explicit (call0 (univ "Any")) (ctxS 0)] [("openType", call (qual "opentype" "OpenType") [EStr "crlId"; EName "pkcs12CRLBagMap"])]]));
  (202%N, set "x509CRL" (new "CRLBag"));
  (203%N, SAssign [ESub (EName "x509CRL") (EStr "crlId")] (call (EName "_OID") [EName "crlTypes"; EInt 1]));
  (204%N, SAssign [ESub (EName "x509CRL") (EStr "crlValue")] (call0 (univ "OctetString")));
  (208%N, set "id_secretBag" (call (EName "_OID") [EName "bagtypes"; EInt 5]));
  (210%N, SClass "SecretBag" (univ "Sequence") [SPass]);
  (213%N, seta "SecretBag" "componentType" (nts [nt "secretTypeId" (call0 (univ "ObjectIdentifier")); ECall (qual "namedtype" "NamedType") [EStr "secretValue"; explicit (call0 (univ "Any")) (ctxS 0)] [("openType", call (qual "opentype" "OpenType") [EStr "secretTypeId"; EName "pkcs12SecretBagMap"])]]));
  (222%N, set "id_safeContentsBag" (call (EName "_OID") [EName "bagtypes"; EInt 6]));
  (224%N, SClass "SafeBag" (univ "Sequence") [SPass]);
  (227%N, seta "SafeBag" "componentType" (nts [nt "bagId" (call0 (univ "ObjectIdentifier")); ECall (qual "namedtype" "NamedType") [EStr "bagValue"; explicit (call0 (univ "Any")) (ctxS 0)] [("openType", call (qual "opentype" "OpenType") [EStr "bagId"; EName "pkcs12BagTypeMap"])]; ont "bagAttributes" (ECall (univ "SetOf") [] [("componentType", new "PKCS12Attribute")])]));
  (239%N, SClass "SafeContents" (univ "SequenceOf") [SPass]);
  (242%N, seta "SafeContents" "componentType" (new "SafeBag"));
  (247%N, SClass "AuthenticatedSafe" (univ "SequenceOf") [SPass]);
  (250%N, seta "AuthenticatedSafe" "componentType" (new "ContentInfo"));
  (256%N, SClass "MacData" (univ "Sequence") [SPass]);
  (259%N, seta "MacData" "componentType" (nts [nt "mac" (new "DigestInfo"); nt "macSalt" (call0 (univ "OctetString")); dnt "iterations" (withvalue (call0 (univ "Integer")) (EInt 1))]));
  (267%N, SClass "PFX" (univ "Sequence") [SPass]);
  (270%N, seta "PFX" "componentType" (nts [nt "version" (ECall (univ "Integer") [] [("namedValues", nvs [nv "v3" 3])]); nt "authSafe" (new "ContentInfo"); ont "macData" (new "MacData")]));
  (281%N, set "pkcs_9_at_localKeyId" (call (EName "_OID") [EName "pkcs_9"; EInt 21]));
  (283%N, set "localKeyId" (new "CMSSingleAttribute"));
  (284%N, SAssign [ESub (EName "localKeyId") (EStr "attrType")] (EName "pkcs_9_at_localKeyId"));
  (285%N, SAssign [ESub (ESub (EName "localKeyId") (EStr "attrValues")) (EInt 0)] (call0 (univ "OctetString")));
  (290%N, set "pkcs_9_ub_pkcs9String" (call (univ "Integer") [EInt 255]));
  (292%N, set "pkcs_9_ub_friendlyName" (call (univ "Integer") [EName "pkcs_9_ub_pkcs9String"]));
  (294%N, set "pkcs_9_at_friendlyName" (call (EName "_OID") [EName "pkcs_9"; EInt 20]));
  (296%N, SClass "FriendlyName" (chr "BMPString") [SPass]);
  (299%N, seta "FriendlyName" "subtypeSpec" (sizec (EInt 1) (EName "pkcs_9_ub_friendlyName")));
  (302%N, set "friendlyName" (new "CMSSingleAttribute"));
  (303%N, SAssign [ESub (EName "friendlyName") (EStr "attrType")] (EName "pkcs_9_at_friendlyName"));
  (304%N, SAssign [ESub (ESub (EName "friendlyName") (EStr "attrValues")) (EInt 0)] (new "FriendlyName"));
  (309%N, set "_pkcs12BagTypeMap" (EDict [(EName "id_keyBag", new "KeyBag"); (EName "id_pkcs8ShroudedKeyBag", new "PKCS8ShroudedKeyBag"); (EName "id_certBag", new "CertBag"); (EName "id_CRLBag", new "CRLBag"); (EName "id_secretBag", new "SecretBag"); (EName "id_safeContentsBag", new "SafeBag")]));
  (318%N, SExpr (call (qual "pkcs12BagTypeMap" "update") [EName "_pkcs12BagTypeMap"]));
  (321%N, set "_pkcs12CertBagMap" (EDict [(call (EName "_OID") [EName "certTypes"; EInt 1], call0 (univ "OctetString")); (call (EName "_OID") [EName "certTypes"; EInt 2], call0 (chr "IA5String"))]));
  (326%N, SExpr (call (qual "pkcs12CertBagMap" "update") [EName "_pkcs12CertBagMap"]));
  (329%N, set "_pkcs12CRLBagMap" (EDict [(call (EName "_OID") [EName "crlTypes"; EInt 1], call0 (univ "OctetString"))]));
  (333%N, SExpr (call (qual "pkcs12CRLBagMap" "update") [EName "_pkcs12CRLBagMap"]));
  (338%N, set "_algorithmIdentifierMapUpdate" (EDict [(EName "pbeWithSHAAnd128BitRC4", new "Pkcs_12PbeParams"); (EName "pbeWithSHAAnd40BitRC4", new "Pkcs_12PbeParams"); (EName "pbeWithSHAAnd3_KeyTripleDES_CBC", new "Pkcs_12PbeParams"); (EName "pbeWithSHAAnd2_KeyTripleDES_CBC", new "Pkcs_12PbeParams"); (EName "pbeWithSHAAnd128BitRC2_CBC", new "Pkcs_12PbeParams"); (EName "pbeWithSHAAnd40BitRC2_CBC", new "Pkcs_12PbeParams")]));
  (347%N, SExpr (call (EAttr (qual "rfc5280" "algorithmIdentifierMap") "update") [EName "_algorithmIdentifierMapUpdate"]));
  (352%N, set "_cmsAttributesMapUpdate" (EDict [(EName "pkcs_9_at_friendlyName", new "FriendlyName"); (EName "pkcs_9_at_localKeyId", call0 (univ "OctetString"))]));
  (357%N, SExpr (call (EAttr (qual "rfc5652" "cmsAttributesMap") "update") [EName "_cmsAttributesMapUpdate"]))
].
