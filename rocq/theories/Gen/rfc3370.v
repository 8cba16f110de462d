(** pyasn1_modules/rfc3370.py, printed by tools/py2coq.py.  Every statement is
    preceded by its line number in that file. *)
From Verif Require Import Py.Syntax.
From Coq Require Import List String ZArith NArith.
Import ListNotations.
Open Scope string_scope.
Open Scope Z_scope.

Definition src : module := [
  (15%N, SFrom "pyasn1.type" [("univ", "univ")]);
  (17%N, SFrom "pyasn1_modules" [("rfc3279", "rfc3279")]);
  (18%N, SFrom "pyasn1_modules" [("rfc5280", "rfc5280")]);
  (19%N, SFrom "pyasn1_modules" [("rfc5751", "rfc5751")]);
  (20%N, SFrom "pyasn1_modules" [("rfc5753", "rfc5753")]);
  (21%N, SFrom "pyasn1_modules" [("rfc5990", "rfc5990")]);
  (22%N, SFrom "pyasn1_modules" [("rfc8018", "rfc8018")]);
  (27%N, set "AlgorithmIdentifier" (qual "rfc5280" "AlgorithmIdentifier"));
  (32%N, set "dhpublicnumber" (qual "rfc3279" "dhpublicnumber"));
  (34%N, set "dh_public_number" (EName "dhpublicnumber"));
  (36%N, set "DHPublicKey" (qual "rfc3279" "DHPublicKey"));
  (38%N, set "DomainParameters" (qual "rfc3279" "DomainParameters"));
  (40%N, set "DHDomainParameters" (EName "DomainParameters"));
  (42%N, set "Dss_Parms" (qual "rfc3279" "Dss_Parms"));
  (44%N, set "Dss_Sig_Value" (qual "rfc3279" "Dss_Sig_Value"));
  (46%N, set "md5" (qual "rfc3279" "md5"));
  (48%N, set "md5WithRSAEncryption" (qual "rfc3279" "md5WithRSAEncryption"));
  (50%N, set "RSAPublicKey" (qual "rfc3279" "RSAPublicKey"));
  (52%N, set "rsaEncryption" (qual "rfc3279" "rsaEncryption"));
  (54%N, set "ValidationParms" (qual "rfc3279" "ValidationParms"));
  (56%N, set "id_dsa" (qual "rfc3279" "id_dsa"));
  (58%N, set "id_dsa_with_sha1" (qual "rfc3279" "id_dsa_with_sha1"));
  (60%N, set "id_sha1" (qual "rfc3279" "id_sha1"));
  (62%N, set "sha_1" (EName "id_sha1"));
  (64%N, set "sha1WithRSAEncryption" (qual "rfc3279" "sha1WithRSAEncryption"));
  (69%N, set "CBCParameter" (qual "rfc5753" "CBCParameter"));
  (71%N, set "CBCParameter" (qual "rfc5753" "IV"));
  (73%N, set "KeyWrapAlgorithm" (qual "rfc5753" "KeyWrapAlgorithm"));
  (78%N, set "id_alg_CMS3DESwrap" (qual "rfc5990" "id_alg_CMS3DESwrap"));
  (83%N, set "des_EDE3_CBC" (qual "rfc8018" "des_EDE3_CBC"));
  (85%N, set "des_ede3_cbc" (EName "des_EDE3_CBC"));
  (87%N, set "rc2CBC" (qual "rfc8018" "rc2CBC"));
  (89%N, set "rc2_cbc" (EName "rc2CBC"));
  (91%N, set "RC2_CBC_Parameter" (qual "rfc8018" "RC2_CBC_Parameter"));
  (93%N, set "RC2CBCParameter" (EName "RC2_CBC_Parameter"));
  (95%N, set "PBKDF2_params" (qual "rfc8018" "PBKDF2_params"));
  (97%N, set "id_PBKDF2" (qual "rfc8018" "id_PBKDF2"));
  (102%N, set "hMAC_SHA1" (call (univ "ObjectIdentifier") [EStr "1.3.6.1.5.5.8.1.2"]));
  (105%N, set "id_alg_ESDH" (call (univ "ObjectIdentifier") [EStr "1.2.840.113549.1.9.16.3.5"]));
  (108%N, set "id_alg_SSDH" (call (univ "ObjectIdentifier") [EStr "1.2.840.113549.1.9.16.3.10"]));
  (111%N, set "id_alg_CMSRC2wrap" (call (univ "ObjectIdentifier") [EStr "1.2.840.113549.1.9.16.3.7"]));
  (114%N, SClass "RC2ParameterVersion" (univ "Integer") [SPass]);
  (118%N, SClass "RC2wrapParameter" (EName "RC2ParameterVersion") [SPass]);
  (122%N, SClass "Dss_Pub_Key" (univ "Integer") [SPass]);
  (128%N, set "_algorithmIdentifierMapUpdate" (EDict [(EName "hMAC_SHA1", call (univ "Null") [EStr ""]); (EName "id_alg_CMSRC2wrap", new "RC2wrapParameter"); (EName "id_alg_ESDH", new "KeyWrapAlgorithm"); (EName "id_alg_SSDH", new "KeyWrapAlgorithm")]));
  (135%N, SExpr (call (EAttr (qual "rfc5280" "algorithmIdentifierMap") "update") [EName "_algorithmIdentifierMapUpdate"]));
  (140%N, set "_smimeCapabilityMapUpdate" (EDict [(EName "id_alg_CMSRC2wrap", new "RC2wrapParameter"); (EName "id_alg_ESDH", new "KeyWrapAlgorithm"); (EName "id_alg_SSDH", new "KeyWrapAlgorithm")]));
  (146%N, SExpr (call (EAttr (qual "rfc5751" "smimeCapabilityMap") "update") [EName "_smimeCapabilityMapUpdate"]))
].
