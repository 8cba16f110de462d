(** pyasn1_modules/rfc3279.py, printed by tools/py2coq.py.  Every statement is
    preceded by its line number in that file. *)
From Verif Require Import Py.Syntax.
From Coq Require Import List String ZArith NArith.
Import ListNotations.
Open Scope string_scope.
Open Scope Z_scope.

Definition src : module := [
  (14%N, SFrom "pyasn1.type" [("namedtype", "namedtype")]);
  (15%N, SFrom "pyasn1.type" [("namedval", "namedval")]);
  (16%N, SFrom "pyasn1.type" [("univ", "univ")]);
  (18%N, SFrom "pyasn1_modules" [("rfc5280", "rfc5280")]);
  (21%N, SDef "_OID" [] (Some "components") [set "output" (EList []); SFor "x" (call (EName "tuple") [EName "components"]) [SIf (call (EName "isinstance") [EName "x"; univ "ObjectIdentifier"]) [SExpr (call (qual "output" "extend") [call (EName "list") [EName "x"]])] [SExpr (call (qual "output" "append") [call (EName "int") [EName "x"]])]]; SReturn (call (univ "ObjectIdentifier") [EName "output"])]);
  (32%N, set "md2" (call (EName "_OID") [EInt 1; EInt 2; EInt 840; EInt 113549; EInt 2; EInt 2]));
  (33%N, set "md5" (call (EName "_OID") [EInt 1; EInt 2; EInt 840; EInt 113549; EInt 2; EInt 5]));
  (34%N, set "id_sha1" (call (EName "_OID") [EInt 1; EInt 3; EInt 14; EInt 3; EInt 2; EInt 26]));
  (35%N, set "id_dsa" (call (EName "_OID") [EInt 1; EInt 2; EInt 840; EInt 10040; EInt 4; EInt 1]));
  (38%N, SClass "DSAPublicKey" (univ "Integer") [SPass]);
  (42%N, SClass "Dss_Parms" (univ "Sequence") [set "componentType" (nts [nt "p" (call0 (univ "Integer")); nt "q" (call0 (univ "Integer")); nt "g" (call0 (univ "Integer"))])]);
  (50%N, set "id_dsa_with_sha1" (call (EName "_OID") [EInt 1; EInt 2; EInt 840; EInt 10040; EInt 4; EInt 3]));
  (53%N, SClass "Dss_Sig_Value" (univ "Sequence") [set "componentType" (nts [nt "r" (call0 (univ "Integer")); nt "s" (call0 (univ "Integer"))])]);
  (60%N, set "pkcs_1" (call (EName "_OID") [EInt 1; EInt 2; EInt 840; EInt 113549; EInt 1; EInt 1]));
  (61%N, set "rsaEncryption" (call (EName "_OID") [EName "pkcs_1"; EInt 1]));
  (62%N, set "md2WithRSAEncryption" (call (EName "_OID") [EName "pkcs_1"; EInt 2]));
  (63%N, set "md5WithRSAEncryption" (call (EName "_OID") [EName "pkcs_1"; EInt 4]));
  (64%N, set "sha1WithRSAEncryption" (call (EName "_OID") [EName "pkcs_1"; EInt 5]));
  (67%N, SClass "RSAPublicKey" (univ "Sequence") [set "componentType" (nts [nt "modulus" (call0 (univ "Integer")); nt "publicExponent" (call0 (univ "Integer"))])]);
  (74%N, set "dhpublicnumber" (call (EName "_OID") [EInt 1; EInt 2; EInt 840; EInt 10046; EInt 2; EInt 1]));
  (77%N, SClass "DHPublicKey" (univ "Integer") [SPass]);
  (81%N, SClass "ValidationParms" (univ "Sequence") [set "componentType" (nts [nt "seed" (call0 (univ "BitString")); nt "pgenCounter" (call0 (univ "Integer"))])]);
  (88%N, SClass "DomainParameters" (univ "Sequence") [set "componentType" (nts [nt "p" (call0 (univ "Integer")); nt "g" (call0 (univ "Integer")); nt "q" (call0 (univ "Integer")); ont "j" (call0 (univ "Integer")); ont "validationParms" (new "ValidationParms")])]);
  (98%N, set "id_keyExchangeAlgorithm" (call (EName "_OID") [EInt 2; EInt 16; EInt 840; EInt 1; EInt 101; EInt 2; EInt 1; EInt 1; EInt 22]));
  (101%N, SClass "KEA_Parms_Id" (univ "OctetString") [SPass]);
  (105%N, set "ansi_X9_62" (call (EName "_OID") [EInt 1; EInt 2; EInt 840; EInt 10045]));
  (108%N, SClass "FieldID" (univ "Sequence") [set "componentType" (nts [nt "fieldType" (call0 (univ "ObjectIdentifier")); nt "parameters" (call0 (univ "Any"))])]);
  (115%N, set "id_ecSigType" (call (EName "_OID") [EName "ansi_X9_62"; EInt 4]));
  (116%N, set "ecdsa_with_SHA1" (call (EName "_OID") [EName "id_ecSigType"; EInt 1]));
  (119%N, SClass "ECDSA_Sig_Value" (univ "Sequence") [set "componentType" (nts [nt "r" (call0 (univ "Integer")); nt "s" (call0 (univ "Integer"))])]);
  (126%N, set "id_fieldType" (call (EName "_OID") [EName "ansi_X9_62"; EInt 1]));
  (127%N, set "prime_field" (call (EName "_OID") [EName "id_fieldType"; EInt 1]));
  (130%N, SClass "Prime_p" (univ "Integer") [SPass]);
  (134%N, set "characteristic_two_field" (call (EName "_OID") [EName "id_fieldType"; EInt 2]));
  (137%N, SClass "Characteristic_two" (univ "Sequence") [set "componentType" (nts [nt "m" (call0 (univ "Integer")); nt "basis" (call0 (univ "ObjectIdentifier")); nt "parameters" (call0 (univ "Any"))])]);
  (145%N, set "id_characteristic_two_basis" (call (EName "_OID") [EName "characteristic_two_field"; EInt 3]));
  (146%N, set "gnBasis" (call (EName "_OID") [EName "id_characteristic_two_basis"; EInt 1]));
  (147%N, set "tpBasis" (call (EName "_OID") [EName "id_characteristic_two_basis"; EInt 2]));
  (150%N, SClass "Trinomial" (univ "Integer") [SPass]);
  (154%N, set "ppBasis" (call (EName "_OID") [EName "id_characteristic_two_basis"; EInt 3]));
  (157%N, SClass "Pentanomial" (univ "Sequence") [set "componentType" (nts [nt "k1" (call0 (univ "Integer")); nt "k2" (call0 (univ "Integer")); nt "k3" (call0 (univ "Integer"))])]);
  (165%N, SClass "FieldElement" (univ "OctetString") [SPass]);
  (169%N, SClass "ECPoint" (univ "OctetString") [SPass]);
  (173%N, SClass "Curve" (univ "Sequence") [set "componentType" (nts [nt "a" (new "FieldElement"); nt "b" (new "FieldElement"); ont "seed" (call0 (univ "BitString"))])]);
  (181%N, SClass "ECPVer" (univ "Integer") [set "namedValues" (nvs [nv "ecpVer1" 1])]);
  (187%N, SClass "ECParameters" (univ "Sequence") [set "componentType" (nts [nt "version" (new "ECPVer"); nt "fieldID" (new "FieldID"); nt "curve" (new "Curve"); nt "base" (new "ECPoint"); nt "order" (call0 (univ "Integer")); ont "cofactor" (call0 (univ "Integer"))])]);
  (198%N, SClass "EcpkParameters" (univ "Choice") [set "componentType" (nts [nt "ecParameters" (new "ECParameters"); nt "namedCurve" (call0 (univ "ObjectIdentifier")); nt "implicitlyCA" (call0 (univ "Null"))])]);
  (206%N, set "id_publicKeyType" (call (EName "_OID") [EName "ansi_X9_62"; EInt 2]));
  (207%N, set "id_ecPublicKey" (call (EName "_OID") [EName "id_publicKeyType"; EInt 1]));
  (209%N, set "ellipticCurve" (call (EName "_OID") [EName "ansi_X9_62"; EInt 3]));
  (211%N, set "c_TwoCurve" (call (EName "_OID") [EName "ellipticCurve"; EInt 0]));
  (212%N, set "c2pnb163v1" (call (EName "_OID") [EName "c_TwoCurve"; EInt 1]));
  (213%N, set "c2pnb163v2" (call (EName "_OID") [EName "c_TwoCurve"; EInt 2]));
  (214%N, set "c2pnb163v3" (call (EName "_OID") [EName "c_TwoCurve"; EInt 3]));
  (215%N, set "c2pnb176w1" (call (EName "_OID") [EName "c_TwoCurve"; EInt 4]));
  (216%N, set "c2tnb191v1" (call (EName "_OID") [EName "c_TwoCurve"; EInt 5]));
  (217%N, set "c2tnb191v2" (call (EName "_OID") [EName "c_TwoCurve"; EInt 6]));
  (218%N, set "c2tnb191v3" (call (EName "_OID") [EName "c_TwoCurve"; EInt 7]));
  (219%N, set "c2onb191v4" (call (EName "_OID") [EName "c_TwoCurve"; EInt 8]));
  (220%N, set "c2onb191v5" (call (EName "_OID") [EName "c_TwoCurve"; EInt 9]));
  (221%N, set "c2pnb208w1" (call (EName "_OID") [EName "c_TwoCurve"; EInt 10]));
  (222%N, set "c2tnb239v1" (call (EName "_OID") [EName "c_TwoCurve"; EInt 11]));
  (223%N, set "c2tnb239v2" (call (EName "_OID") [EName "c_TwoCurve"; EInt 12]));
  (224%N, set "c2tnb239v3" (call (EName "_OID") [EName "c_TwoCurve"; EInt 13]));
  (225%N, set "c2onb239v4" (call (EName "_OID") [EName "c_TwoCurve"; EInt 14]));
  (226%N, set "c2onb239v5" (call (EName "_OID") [EName "c_TwoCurve"; EInt 15]));
  (227%N, set "c2pnb272w1" (call (EName "_OID") [EName "c_TwoCurve"; EInt 16]));
  (228%N, set "c2pnb304w1" (call (EName "_OID") [EName "c_TwoCurve"; EInt 17]));
  (229%N, set "c2tnb359v1" (call (EName "_OID") [EName "c_TwoCurve"; EInt 18]));
  (230%N, set "c2pnb368w1" (call (EName "_OID") [EName "c_TwoCurve"; EInt 19]));
  (231%N, set "c2tnb431r1" (call (EName "_OID") [EName "c_TwoCurve"; EInt 20]));
  (233%N, set "primeCurve" (call (EName "_OID") [EName "ellipticCurve"; EInt 1]));
  (234%N, set "prime192v1" (call (EName "_OID") [EName "primeCurve"; EInt 1]));
  (235%N, set "prime192v2" (call (EName "_OID") [EName "primeCurve"; EInt 2]));
  (236%N, set "prime192v3" (call (EName "_OID") [EName "primeCurve"; EInt 3]));
  (237%N, set "prime239v1" (call (EName "_OID") [EName "primeCurve"; EInt 4]));
  (238%N, set "prime239v2" (call (EName "_OID") [EName "primeCurve"; EInt 5]));
  (239%N, set "prime239v3" (call (EName "_OID") [EName "primeCurve"; EInt 6]));
  (240%N, set "prime256v1" (call (EName "_OID") [EName "primeCurve"; EInt 7]));
  (246%N, set "_algorithmIdentifierMapUpdate" (EDict [(EName "md2", call (univ "Null") [EStr ""]); (EName "md5", call (univ "Null") [EStr ""]); (EName "id_sha1", call (univ "Null") [EStr ""]); (EName "id_dsa", new "Dss_Parms"); (EName "rsaEncryption", call (univ "Null") [EStr ""]); (EName "md2WithRSAEncryption", call (univ "Null") [EStr ""]); (EName "md5WithRSAEncryption", call (univ "Null") [EStr ""]); (EName "sha1WithRSAEncryption", call (univ "Null") [EStr ""]); (EName "dhpublicnumber", new "DomainParameters"); (EName "id_keyExchangeAlgorithm", new "KEA_Parms_Id"); (EName "id_ecPublicKey", new "EcpkParameters")]));
  (260%N, SExpr (call (EAttr (qual "rfc5280" "algorithmIdentifierMap") "update") [EName "_algorithmIdentifierMapUpdate"]))
].
