(** pyasn1_modules/rfc4357.py, printed by tools/py2coq.py.  Every statement is
    preceded by its line number in that file. *)
From Verif Require Import Py.Syntax.
From Coq Require Import List String ZArith NArith.
Import ListNotations.
Open Scope string_scope.
Open Scope Z_scope.

Definition src : module := [
  (18%N, SFrom "pyasn1.type" [("constraint", "constraint")]);
  (19%N, SFrom "pyasn1.type" [("namedtype", "namedtype")]);
  (20%N, SFrom "pyasn1.type" [("namedval", "namedval")]);
  (21%N, SFrom "pyasn1.type" [("tag", "tag")]);
  (22%N, SFrom "pyasn1.type" [("univ", "univ")]);
  (24%N, SFrom "pyasn1_modules" [("rfc5280", "rfc5280")]);
  (29%N, set "AlgorithmIdentifier" (qual "rfc5280" "AlgorithmIdentifier"));
  (34%N, set "id_CryptoPro" (call (univ "ObjectIdentifier") [ETuple [EInt 1; EInt 2; EInt 643; EInt 2; EInt 2]]));
  (37%N, set "id_CryptoPro_modules" (EBin OAdd (EName "id_CryptoPro") (ETuple [EInt 1; EInt 1])));
  (39%N, set "id_CryptoPro_extensions" (EBin OAdd (EName "id_CryptoPro") (ETuple [EInt 34])));
  (41%N, set "id_CryptoPro_policyIds" (EBin OAdd (EName "id_CryptoPro") (ETuple [EInt 38])));
  (43%N, set "id_CryptoPro_policyQt" (EBin OAdd (EName "id_CryptoPro") (ETuple [EInt 39])));
  (46%N, set "cryptographic_Gost_Useful_Definitions" (EBin OAdd (EName "id_CryptoPro_modules") (ETuple [EInt 0; EInt 1])));
  (48%N, set "gostR3411_94_DigestSyntax" (EBin OAdd (EName "id_CryptoPro_modules") (ETuple [EInt 1; EInt 1])));
  (50%N, set "gostR3410_94_PKISyntax" (EBin OAdd (EName "id_CryptoPro_modules") (ETuple [EInt 2; EInt 1])));
  (52%N, set "gostR3410_94_SignatureSyntax" (EBin OAdd (EName "id_CryptoPro_modules") (ETuple [EInt 3; EInt 1])));
  (54%N, set "gost28147_89_EncryptionSyntax" (EBin OAdd (EName "id_CryptoPro_modules") (ETuple [EInt 4; EInt 1])));
  (56%N, set "gostR3410_EncryptionSyntax" (EBin OAdd (EName "id_CryptoPro_modules") (ETuple [EInt 5; EInt 2])));
  (58%N, set "gost28147_89_ParamSetSyntax" (EBin OAdd (EName "id_CryptoPro_modules") (ETuple [EInt 6; EInt 1])));
  (60%N, set "gostR3411_94_ParamSetSyntax" (EBin OAdd (EName "id_CryptoPro_modules") (ETuple [EInt 7; EInt 1])));
  (62%N, set "gostR3410_94_ParamSetSyntax" (EBin OAdd (EName "id_CryptoPro_modules") (ETuple [EInt 8; EInt 1; EInt 1])));
  (64%N, set "gostR3410_2001_PKISyntax" (EBin OAdd (EName "id_CryptoPro_modules") (ETuple [EInt 9; EInt 1])));
  (66%N, set "gostR3410_2001_SignatureSyntax" (EBin OAdd (EName "id_CryptoPro_modules") (ETuple [EInt 10; EInt 1])));
  (68%N, set "gostR3410_2001_ParamSetSyntax" (EBin OAdd (EName "id_CryptoPro_modules") (ETuple [EInt 12; EInt 1])));
  (70%N, set "gost_CryptoPro_ExtendedKeyUsage" (EBin OAdd (EName "id_CryptoPro_modules") (ETuple [EInt 13; EInt 1])));
  (72%N, set "gost_CryptoPro_PrivateKey" (EBin OAdd (EName "id_CryptoPro_modules") (ETuple [EInt 14; EInt 1])));
  (74%N, set "gost_CryptoPro_PKIXCMP" (EBin OAdd (EName "id_CryptoPro_modules") (ETuple [EInt 15; EInt 1])));
  (76%N, set "gost_CryptoPro_TLS" (EBin OAdd (EName "id_CryptoPro_modules") (ETuple [EInt 16; EInt 1])));
  (78%N, set "gost_CryptoPro_Policy" (EBin OAdd (EName "id_CryptoPro_modules") (ETuple [EInt 17; EInt 1])));
  (80%N, set "gost_CryptoPro_Constants" (EBin OAdd (EName "id_CryptoPro_modules") (ETuple [EInt 18; EInt 1])));
  (83%N, set "id_CryptoPro_algorithms" (EName "id_CryptoPro"));
  (85%N, set "id_GostR3411_94_with_GostR3410_2001" (EBin OAdd (EName "id_CryptoPro_algorithms") (ETuple [EInt 3])));
  (87%N, set "id_GostR3411_94_with_GostR3410_94" (EBin OAdd (EName "id_CryptoPro_algorithms") (ETuple [EInt 4])));
  (89%N, set "id_GostR3411_94" (EBin OAdd (EName "id_CryptoPro_algorithms") (ETuple [EInt 9])));
  (91%N, set "id_Gost28147_89_None_KeyMeshing" (EBin OAdd (EName "id_CryptoPro_algorithms") (ETuple [EInt 14; EInt 0])));
  (93%N, set "id_Gost28147_89_CryptoPro_KeyMeshing" (EBin OAdd (EName "id_CryptoPro_algorithms") (ETuple [EInt 14; EInt 1])));
  (95%N, set "id_GostR3410_2001" (EBin OAdd (EName "id_CryptoPro_algorithms") (ETuple [EInt 19])));
  (97%N, set "id_GostR3410_94" (EBin OAdd (EName "id_CryptoPro_algorithms") (ETuple [EInt 20])));
  (99%N, set "id_Gost28147_89" (EBin OAdd (EName "id_CryptoPro_algorithms") (ETuple [EInt 21])));
  (101%N, set "id_Gost28147_89_MAC" (EBin OAdd (EName "id_CryptoPro_algorithms") (ETuple [EInt 22])));
  (103%N, set "id_CryptoPro_hashes" (EBin OAdd (EName "id_CryptoPro_algorithms") (ETuple [EInt 30])));
  (105%N, set "id_CryptoPro_encrypts" (EBin OAdd (EName "id_CryptoPro_algorithms") (ETuple [EInt 31])));
  (107%N, set "id_CryptoPro_signs" (EBin OAdd (EName "id_CryptoPro_algorithms") (ETuple [EInt 32])));
  (109%N, set "id_CryptoPro_exchanges" (EBin OAdd (EName "id_CryptoPro_algorithms") (ETuple [EInt 33])));
  (111%N, set "id_CryptoPro_ecc_signs" (EBin OAdd (EName "id_CryptoPro_algorithms") (ETuple [EInt 35])));
  (113%N, set "id_CryptoPro_ecc_exchanges" (EBin OAdd (EName "id_CryptoPro_algorithms") (ETuple [EInt 36])));
  (115%N, set "id_CryptoPro_private_keys" (EBin OAdd (EName "id_CryptoPro_algorithms") (ETuple [EInt 37])));
  (117%N, set "id_CryptoPro_pkixcmp_infos" (EBin OAdd (EName "id_CryptoPro_algorithms") (ETuple [EInt 41])));
  (119%N, set "id_CryptoPro_audit_service_types" (EBin OAdd (EName "id_CryptoPro_algorithms") (ETuple [EInt 42])));
  (121%N, set "id_CryptoPro_audit_record_types" (EBin OAdd (EName "id_CryptoPro_algorithms") (ETuple [EInt 43])));
  (123%N, set "id_CryptoPro_attributes" (EBin OAdd (EName "id_CryptoPro_algorithms") (ETuple [EInt 44])));
  (125%N, set "id_CryptoPro_name_service_types" (EBin OAdd (EName "id_CryptoPro_algorithms") (ETuple [EInt 45])));
  (127%N, set "id_GostR3410_2001DH" (EBin OAdd (EName "id_CryptoPro_algorithms") (ETuple [EInt 98])));
  (129%N, set "id_GostR3410_94DH" (EBin OAdd (EName "id_CryptoPro_algorithms") (ETuple [EInt 99])));
  (132%N, set "id_Gost28147_89_TestParamSet" (EBin OAdd (EName "id_CryptoPro_encrypts") (ETuple [EInt 0])));
  (134%N, set "id_Gost28147_89_CryptoPro_A_ParamSet" (EBin OAdd (EName "id_CryptoPro_encrypts") (ETuple [EInt 1])));
  (136%N, set "id_Gost28147_89_CryptoPro_B_ParamSet" (EBin OAdd (EName "id_CryptoPro_encrypts") (ETuple [EInt 2])));
  (138%N, set "id_Gost28147_89_CryptoPro_C_ParamSet" (EBin OAdd (EName "id_CryptoPro_encrypts") (ETuple [EInt 3])));
  (140%N, set "id_Gost28147_89_CryptoPro_D_ParamSet" (EBin OAdd (EName "id_CryptoPro_encrypts") (ETuple [EInt 4])));
  (142%N, set "id_Gost28147_89_CryptoPro_Oscar_1_1_ParamSet" (EBin OAdd (EName "id_CryptoPro_encrypts") (ETuple [EInt 5])));
  (144%N, set "id_Gost28147_89_CryptoPro_Oscar_1_0_ParamSet" (EBin OAdd (EName "id_CryptoPro_encrypts") (ETuple [EInt 6])));
  (146%N, set "id_Gost28147_89_CryptoPro_RIC_1_ParamSet" (EBin OAdd (EName "id_CryptoPro_encrypts") (ETuple [EInt 7])));
  (149%N, set "id_GostR3410_2001_TestParamSet" (EBin OAdd (EName "id_CryptoPro_ecc_signs") (ETuple [EInt 0])));
  (151%N, set "id_GostR3410_2001_CryptoPro_A_ParamSet" (EBin OAdd (EName "id_CryptoPro_ecc_signs") (ETuple [EInt 1])));
  (153%N, set "id_GostR3410_2001_CryptoPro_B_ParamSet" (EBin OAdd (EName "id_CryptoPro_ecc_signs") (ETuple [EInt 2])));
  (155%N, set "id_GostR3410_2001_CryptoPro_C_ParamSet" (EBin OAdd (EName "id_CryptoPro_ecc_signs") (ETuple [EInt 3])));
  (158%N, set "id_GostR3410_2001_CryptoPro_XchA_ParamSet" (EBin OAdd (EName "id_CryptoPro_ecc_exchanges") (ETuple [EInt 0])));
  (160%N, set "id_GostR3410_2001_CryptoPro_XchB_ParamSet" (EBin OAdd (EName "id_CryptoPro_ecc_exchanges") (ETuple [EInt 1])));
  (163%N, set "id_GostR3410_94_TestParamSet" (EBin OAdd (EName "id_CryptoPro_signs") (ETuple [EInt 0])));
  (165%N, set "id_GostR3410_94_CryptoPro_A_ParamSet" (EBin OAdd (EName "id_CryptoPro_signs") (ETuple [EInt 2])));
  (167%N, set "id_GostR3410_94_CryptoPro_B_ParamSet" (EBin OAdd (EName "id_CryptoPro_signs") (ETuple [EInt 3])));
  (169%N, set "id_GostR3410_94_CryptoPro_C_ParamSet" (EBin OAdd (EName "id_CryptoPro_signs") (ETuple [EInt 4])));
  (171%N, set "id_GostR3410_94_CryptoPro_D_ParamSet" (EBin OAdd (EName "id_CryptoPro_signs") (ETuple [EInt 5])));
  (174%N, set "id_GostR3410_94_CryptoPro_XchA_ParamSet" (EBin OAdd (EName "id_CryptoPro_exchanges") (ETuple [EInt 1])));
  (176%N, set "id_GostR3410_94_CryptoPro_XchB_ParamSet" (EBin OAdd (EName "id_CryptoPro_exchanges") (ETuple [EInt 2])));
  (178%N, set "id_GostR3410_94_CryptoPro_XchC_ParamSet" (EBin OAdd (EName "id_CryptoPro_exchanges") (ETuple [EInt 3])));
  (181%N, set "id_GostR3410_94_a" (EBin OAdd (EName "id_GostR3410_94") (ETuple [EInt 1])));
  (183%N, set "id_GostR3410_94_aBis" (EBin OAdd (EName "id_GostR3410_94") (ETuple [EInt 2])));
  (185%N, set "id_GostR3410_94_b" (EBin OAdd (EName "id_GostR3410_94") (ETuple [EInt 3])));
  (187%N, set "id_GostR3410_94_bBis" (EBin OAdd (EName "id_GostR3410_94") (ETuple [EInt 4])));
  (190%N, set "id_GostR3411_94_TestParamSet" (EBin OAdd (EName "id_CryptoPro_hashes") (ETuple [EInt 0])));
  (192%N, set "id_GostR3411_94_CryptoProParamSet" (EBin OAdd (EName "id_CryptoPro_hashes") (ETuple [EInt 1])));
  (197%N, SClass "Gost28147_89_ParamSet" (univ "ObjectIdentifier") [SPass]);
  (200%N, seta "Gost28147_89_ParamSet" "subtypeSpec" (call (qual "constraint" "SingleValueConstraint") [EName "id_Gost28147_89_TestParamSet"; EName "id_Gost28147_89_CryptoPro_A_ParamSet"; EName "id_Gost28147_89_CryptoPro_B_ParamSet"; EName "id_Gost28147_89_CryptoPro_C_ParamSet"; EName "id_Gost28147_89_CryptoPro_D_ParamSet"; EName "id_Gost28147_89_CryptoPro_Oscar_1_1_ParamSet"; EName "id_Gost28147_89_CryptoPro_Oscar_1_0_ParamSet"; EName "id_Gost28147_89_CryptoPro_RIC_1_ParamSet"]));
  (212%N, SClass "Gost28147_89_BlobParameters" (univ "Sequence") [SPass]);
  (215%N, seta "Gost28147_89_BlobParameters" "componentType" (nts [nt "encryptionParamSet" (new "Gost28147_89_ParamSet")]));
  (220%N, SClass "Gost28147_89_MAC" (univ "OctetString") [SPass]);
  (223%N, seta "Gost28147_89_MAC" "subtypeSpec" (sizec (EInt 1) (EInt 4)));
  (226%N, SClass "Gost28147_89_Key" (univ "OctetString") [SPass]);
  (229%N, seta "Gost28147_89_Key" "subtypeSpec" (sizec (EInt 32) (EInt 32)));
  (232%N, SClass "Gost28147_89_EncryptedKey" (univ "Sequence") [SPass]);
  (235%N, seta "Gost28147_89_EncryptedKey" "componentType" (nts [nt "encryptedKey" (new "Gost28147_89_Key"); ont "maskKey" (implicit (new "Gost28147_89_Key") (ctxS 0)); nt "macKey" (new "Gost28147_89_MAC")]));
  (243%N, SClass "Gost28147_89_IV" (univ "OctetString") [SPass]);
  (246%N, seta "Gost28147_89_IV" "subtypeSpec" (sizec (EInt 8) (EInt 8)));
  (249%N, SClass "Gost28147_89_UZ" (univ "OctetString") [SPass]);
  (252%N, seta "Gost28147_89_UZ" "subtypeSpec" (sizec (EInt 64) (EInt 64)));
  (255%N, SClass "Gost28147_89_ParamSetParameters" (univ "Sequence") [SPass]);
  (258%N, seta "Gost28147_89_ParamSetParameters" "componentType" (nts [nt "eUZ" (new "Gost28147_89_UZ"); nt "mode" (ECall (univ "Integer") [] [("namedValues", nvs [nv "gost28147-89-CNT" 0; nv "gost28147-89-CFB" 1; nv "cryptoPro-CBC" 2])]); nt "shiftBits" (ECall (univ "Integer") [] [("namedValues", nvs [nv "gost28147-89-block" 64])]); nt "keyMeshing" (new "AlgorithmIdentifier")]));
  (274%N, SClass "Gost28147_89_Parameters" (univ "Sequence") [SPass]);
  (277%N, seta "Gost28147_89_Parameters" "componentType" (nts [nt "iv" (new "Gost28147_89_IV"); nt "encryptionParamSet" (new "Gost28147_89_ParamSet")]));
  (283%N, SClass "GostR3410_2001_CertificateSignature" (univ "BitString") [SPass]);
  (286%N, seta "GostR3410_2001_CertificateSignature" "subtypeSpec" (sizec (EInt 256) (EInt 512)));
  (289%N, SClass "GostR3410_2001_ParamSetParameters" (univ "Sequence") [SPass]);
  (292%N, seta "GostR3410_2001_ParamSetParameters" "componentType" (nts [nt "a" (call0 (univ "Integer")); nt "b" (call0 (univ "Integer")); nt "p" (call0 (univ "Integer")); nt "q" (call0 (univ "Integer")); nt "x" (call0 (univ "Integer")); nt "y" (call0 (univ "Integer"))]));
  (302%N, SClass "GostR3410_2001_PublicKey" (univ "OctetString") [SPass]);
  (305%N, seta "GostR3410_2001_PublicKey" "subtypeSpec" (sizec (EInt 64) (EInt 64)));
  (308%N, SClass "GostR3410_2001_PublicKeyParameters" (univ "Sequence") [SPass]);
  (311%N, seta "GostR3410_2001_PublicKeyParameters" "componentType" (nts [nt "publicKeyParamSet" (withspec (call0 (univ "ObjectIdentifier")) (call (qual "constraint" "SingleValueConstraint") [EName "id_GostR3410_2001_TestParamSet"; EName "id_GostR3410_2001_CryptoPro_A_ParamSet"; EName "id_GostR3410_2001_CryptoPro_B_ParamSet"; EName "id_GostR3410_2001_CryptoPro_C_ParamSet"; EName "id_GostR3410_2001_CryptoPro_XchA_ParamSet"; EName "id_GostR3410_2001_CryptoPro_XchB_ParamSet"])); nt "digestParamSet" (withspec (call0 (univ "ObjectIdentifier")) (call (qual "constraint" "SingleValueConstraint") [EName "id_GostR3411_94_TestParamSet"; EName "id_GostR3411_94_CryptoProParamSet"])); dnt "encryptionParamSet" (withvalue (new "Gost28147_89_ParamSet") (EName "id_Gost28147_89_CryptoPro_A_ParamSet"))]));
  (332%N, SClass "GostR3410_94_CertificateSignature" (univ "BitString") [SPass]);
  (335%N, seta "GostR3410_94_CertificateSignature" "subtypeSpec" (sizec (EInt 256) (EInt 512)));
  (338%N, SClass "GostR3410_94_ParamSetParameters_t" (univ "Integer") [SPass]);
  (341%N, seta "GostR3410_94_ParamSetParameters_t" "subtypeSpec" (call (qual "constraint" "SingleValueConstraint") [EInt 512; EInt 1024]));
  (344%N, SClass "GostR3410_94_ParamSetParameters" (univ "Sequence") [SPass]);
  (347%N, seta "GostR3410_94_ParamSetParameters" "componentType" (nts [nt "t" (new "GostR3410_94_ParamSetParameters_t"); nt "p" (call0 (univ "Integer")); nt "q" (call0 (univ "Integer")); nt "a" (call0 (univ "Integer")); ont "validationAlgorithm" (new "AlgorithmIdentifier")]));
  (356%N, SClass "GostR3410_94_PublicKey" (univ "OctetString") [SPass]);
  (359%N, seta "GostR3410_94_PublicKey" "subtypeSpec" (call (qual "constraint" "ConstraintsUnion") [sizec (EInt 64) (EInt 64); sizec (EInt 128) (EInt 128)]));
  (365%N, SClass "GostR3410_94_PublicKeyParameters" (univ "Sequence") [SPass]);
  (368%N, seta "GostR3410_94_PublicKeyParameters" "componentType" (nts [nt "publicKeyParamSet" (withspec (call0 (univ "ObjectIdentifier")) (call (qual "constraint" "SingleValueConstraint") [EName "id_GostR3410_94_TestParamSet"; EName "id_GostR3410_94_CryptoPro_A_ParamSet"; EName "id_GostR3410_94_CryptoPro_B_ParamSet"; EName "id_GostR3410_94_CryptoPro_C_ParamSet"; EName "id_GostR3410_94_CryptoPro_D_ParamSet"; EName "id_GostR3410_94_CryptoPro_XchA_ParamSet"; EName "id_GostR3410_94_CryptoPro_XchB_ParamSet"; EName "id_GostR3410_94_CryptoPro_XchC_ParamSet"])); nt "digestParamSet" (withspec (call0 (univ "ObjectIdentifier")) (call (qual "constraint" "SingleValueConstraint") [EName "id_GostR3411_94_TestParamSet"; EName "id_GostR3411_94_CryptoProParamSet"])); dnt "encryptionParamSet" (withvalue (new "Gost28147_89_ParamSet") (EName "id_Gost28147_89_CryptoPro_A_ParamSet"))]));
  (391%N, SClass "GostR3410_94_ValidationBisParameters_c" (univ "Integer") [SPass]);
  (394%N, seta "GostR3410_94_ValidationBisParameters_c" "subtypeSpec" (rangec (EInt 0) (EInt 4294967295)));
  (397%N, SClass "GostR3410_94_ValidationBisParameters" (univ "Sequence") [SPass]);
  (400%N, seta "GostR3410_94_ValidationBisParameters" "componentType" (nts [nt "x0" (new "GostR3410_94_ValidationBisParameters_c"); nt "c" (new "GostR3410_94_ValidationBisParameters_c"); ont "d" (call0 (univ "Integer"))]));
  (407%N, SClass "GostR3410_94_ValidationParameters_c" (univ "Integer") [SPass]);
  (410%N, seta "GostR3410_94_ValidationParameters_c" "subtypeSpec" (rangec (EInt 0) (EInt 65535)));
  (413%N, SClass "GostR3410_94_ValidationParameters" (univ "Sequence") [SPass]);
  (416%N, seta "GostR3410_94_ValidationParameters" "componentType" (nts [nt "x0" (new "GostR3410_94_ValidationParameters_c"); nt "c" (new "GostR3410_94_ValidationParameters_c"); ont "d" (call0 (univ "Integer"))]));
  (423%N, SClass "GostR3411_94_Digest" (univ "OctetString") [SPass]);
  (426%N, seta "GostR3411_94_Digest" "subtypeSpec" (sizec (EInt 32) (EInt 32)));
  (429%N, SClass "GostR3411_94_DigestParameters" (univ "ObjectIdentifier") [SPass]);
  (432%N, seta "GostR3411_94_DigestParameters" "subtypeSpec" (call (qual "constraint" "ConstraintsUnion") [call (qual "constraint" "SingleValueConstraint") [EName "id_GostR3411_94_TestParamSet"]; call (qual "constraint" "SingleValueConstraint") [EName "id_GostR3411_94_CryptoProParamSet"]]));
  (438%N, SClass "GostR3411_94_ParamSetParameters" (univ "Sequence") [SPass]);
  (441%N, seta "GostR3411_94_ParamSetParameters" "componentType" (nts [nt "hUZ" (new "Gost28147_89_UZ"); nt "h0" (new "GostR3411_94_Digest")]));
  (449%N, set "_algorithmIdentifierMapUpdate" (EDict [(EName "id_Gost28147_89", new "Gost28147_89_Parameters"); (EName "id_Gost28147_89_TestParamSet", new "Gost28147_89_ParamSetParameters"); (EName "id_Gost28147_89_CryptoPro_A_ParamSet", new "Gost28147_89_ParamSetParameters"); (EName "id_Gost28147_89_CryptoPro_B_ParamSet", new "Gost28147_89_ParamSetParameters"); (EName "id_Gost28147_89_CryptoPro_C_ParamSet", new "Gost28147_89_ParamSetParameters"); (EName "id_Gost28147_89_CryptoPro_D_ParamSet", new "Gost28147_89_ParamSetParameters"); (EName "id_Gost28147_89_CryptoPro_KeyMeshing", call (univ "Null") [EStr ""]); (EName "id_Gost28147_89_None_KeyMeshing", call (univ "Null") [EStr ""]); (EName "id_GostR3410_94", new "GostR3410_94_PublicKeyParameters"); (EName "id_GostR3410_94_TestParamSet", new "GostR3410_94_ParamSetParameters"); (EName "id_GostR3410_94_CryptoPro_A_ParamSet", new "GostR3410_94_ParamSetParameters"); (EName "id_GostR3410_94_CryptoPro_B_ParamSet", new "GostR3410_94_ParamSetParameters"); (EName "id_GostR3410_94_CryptoPro_C_ParamSet", new "GostR3410_94_ParamSetParameters"); (EName "id_GostR3410_94_CryptoPro_D_ParamSet", new "GostR3410_94_ParamSetParameters"); (EName "id_GostR3410_94_CryptoPro_XchA_ParamSet", new "GostR3410_94_ParamSetParameters"); (EName "id_GostR3410_94_CryptoPro_XchB_ParamSet", new "GostR3410_94_ParamSetParameters"); (EName "id_GostR3410_94_CryptoPro_XchC_ParamSet", new "GostR3410_94_ParamSetParameters"); (EName "id_GostR3410_94_a", new "GostR3410_94_ValidationParameters"); (EName "id_GostR3410_94_aBis", new "GostR3410_94_ValidationBisParameters"); (EName "id_GostR3410_94_b", new "GostR3410_94_ValidationParameters"); (EName "id_GostR3410_94_bBis", new "GostR3410_94_ValidationBisParameters"); (EName "id_GostR3410_2001", call (univ "Null") [EStr ""]); (EName "id_GostR3411_94", call (univ "Null") [EStr ""]); (EName "id_GostR3411_94_TestParamSet", new "GostR3411_94_ParamSetParameters"); (EName "id_GostR3411_94_CryptoProParamSet", new "GostR3411_94_ParamSetParameters")]));
  (477%N, SExpr (call (EAttr (qual "rfc5280" "algorithmIdentifierMap") "update") [EName "_algorithmIdentifierMapUpdate"]))
].
