(** pyasn1_modules/rfc5480.py, printed by tools/py2coq.py.  Every statement is
    preceded by its line number in that file. *)
From Verif Require Import Py.Syntax.
From Coq Require Import List String ZArith NArith.
Import ListNotations.
Open Scope string_scope.
Open Scope Z_scope.

Definition src : module := [
  (17%N, SFrom "pyasn1.type" [("namedtype", "namedtype")]);
  (18%N, SFrom "pyasn1.type" [("univ", "univ")]);
  (20%N, SFrom "pyasn1_modules" [("rfc3279", "rfc3279")]);
  (21%N, SFrom "pyasn1_modules" [("rfc5280", "rfc5280")]);
  (26%N, set "DHPublicKey" (qual "rfc3279" "DHPublicKey"));
  (28%N, set "DSAPublicKey" (qual "rfc3279" "DSAPublicKey"));
  (30%N, set "ValidationParms" (qual "rfc3279" "ValidationParms"));
  (32%N, set "DomainParameters" (qual "rfc3279" "DomainParameters"));
  (34%N, set "ECDSA_Sig_Value" (qual "rfc3279" "ECDSA_Sig_Value"));
  (36%N, set "ECPoint" (qual "rfc3279" "ECPoint"));
  (38%N, set "KEA_Parms_Id" (qual "rfc3279" "KEA_Parms_Id"));
  (40%N, set "RSAPublicKey" (qual "rfc3279" "RSAPublicKey"));
  (45%N, set "DSS_Parms" (qual "rfc3279" "Dss_Parms"));
  (47%N, set "DSA_Sig_Value" (qual "rfc3279" "Dss_Sig_Value"));
  (53%N, SClass "ECParameters" (univ "Choice") [SPass]);
  (56%N, seta "ECParameters" "componentType" (nts [nt "namedCurve" (call0 (univ "ObjectIdentifier"))]));
  (63%N, set "id_md2" (call (univ "ObjectIdentifier") [EStr "1.2.840.113549.2.2"]));
  (65%N, set "id_md5" (call (univ "ObjectIdentifier") [EStr "1.2.840.113549.2.5"]));
  (67%N, set "id_sha1" (call (univ "ObjectIdentifier") [EStr "1.3.14.3.2.26"]));
  (69%N, set "id_sha224" (call (univ "ObjectIdentifier") [EStr "2.16.840.1.101.3.4.2.4"]));
  (71%N, set "id_sha256" (call (univ "ObjectIdentifier") [EStr "2.16.840.1.101.3.4.2.1"]));
  (73%N, set "id_sha384" (call (univ "ObjectIdentifier") [EStr "2.16.840.1.101.3.4.2.2"]));
  (75%N, set "id_sha512" (call (univ "ObjectIdentifier") [EStr "2.16.840.1.101.3.4.2.3"]));
  (80%N, set "rsaEncryption" (call (univ "ObjectIdentifier") [EStr "1.2.840.113549.1.1.1"]));
  (85%N, set "id_dsa" (call (univ "ObjectIdentifier") [EStr "1.2.840.10040.4.1"]));
  (90%N, set "dhpublicnumber" (call (univ "ObjectIdentifier") [EStr "1.2.840.10046.2.1"]));
  (94%N, set "id_keyExchangeAlgorithm" (call (univ "ObjectIdentifier") [EStr "2.16.840.1.101.2.1.1.22"]));
  (100%N, set "id_ecPublicKey" (call (univ "ObjectIdentifier") [EStr "1.2.840.10045.2.1"]));
  (102%N, set "id_ecDH" (call (univ "ObjectIdentifier") [EStr "1.3.132.1.12"]));
  (104%N, set "id_ecMQV" (call (univ "ObjectIdentifier") [EStr "1.3.132.1.13"]));
  (109%N, set "md2WithRSAEncryption" (call (univ "ObjectIdentifier") [EStr "1.2.840.113549.1.1.2"]));
  (111%N, set "md5WithRSAEncryption" (call (univ "ObjectIdentifier") [EStr "1.2.840.113549.1.1.4"]));
  (113%N, set "sha1WithRSAEncryption" (call (univ "ObjectIdentifier") [EStr "1.2.840.113549.1.1.5"]));
  (118%N, set "id_dsa_with_sha1" (call (univ "ObjectIdentifier") [EStr "1.2.840.10040.4.3"]));
  (120%N, set "id_dsa_with_sha224" (call (univ "ObjectIdentifier") [EStr "2.16.840.1.101.3.4.3.1"]));
  (122%N, set "id_dsa_with_sha256" (call (univ "ObjectIdentifier") [EStr "2.16.840.1.101.3.4.3.2"]));
  (127%N, set "ecdsa_with_SHA1" (call (univ "ObjectIdentifier") [EStr "1.2.840.10045.4.1"]));
  (129%N, set "ecdsa_with_SHA224" (call (univ "ObjectIdentifier") [EStr "1.2.840.10045.4.3.1"]));
  (131%N, set "ecdsa_with_SHA256" (call (univ "ObjectIdentifier") [EStr "1.2.840.10045.4.3.2"]));
  (133%N, set "ecdsa_with_SHA384" (call (univ "ObjectIdentifier") [EStr "1.2.840.10045.4.3.3"]));
  (135%N, set "ecdsa_with_SHA512" (call (univ "ObjectIdentifier") [EStr "1.2.840.10045.4.3.4"]));
  (140%N, set "secp192r1" (call (univ "ObjectIdentifier") [EStr "1.2.840.10045.3.1.1"]));
  (142%N, set "sect163k1" (call (univ "ObjectIdentifier") [EStr "1.3.132.0.1"]));
  (144%N, set "sect163r2" (call (univ "ObjectIdentifier") [EStr "1.3.132.0.15"]));
  (146%N, set "secp224r1" (call (univ "ObjectIdentifier") [EStr "1.3.132.0.33"]));
  (148%N, set "sect233k1" (call (univ "ObjectIdentifier") [EStr "1.3.132.0.26"]));
  (150%N, set "sect233r1" (call (univ "ObjectIdentifier") [EStr "1.3.132.0.27"]));
  (152%N, set "secp256r1" (call (univ "ObjectIdentifier") [EStr "1.2.840.10045.3.1.7"]));
  (154%N, set "sect283k1" (call (univ "ObjectIdentifier") [EStr "1.3.132.0.16"]));
  (156%N, set "sect283r1" (call (univ "ObjectIdentifier") [EStr "1.3.132.0.17"]));
  (158%N, set "secp384r1" (call (univ "ObjectIdentifier") [EStr "1.3.132.0.34"]));
  (160%N, set "sect409k1" (call (univ "ObjectIdentifier") [EStr "1.3.132.0.36"]));
  (162%N, set "sect409r1" (call (univ "ObjectIdentifier") [EStr "1.3.132.0.37"]));
  (164%N, set "secp521r1" (call (univ "ObjectIdentifier") [EStr "1.3.132.0.35"]));
  (166%N, set "sect571k1" (call (univ "ObjectIdentifier") [EStr "1.3.132.0.38"]));
  (168%N, set "sect571r1" (call (univ "ObjectIdentifier") [EStr "1.3.132.0.39"]));
  (174%N, set "_algorithmIdentifierMapUpdate" (EDict [(EName "rsaEncryption", call0 (univ "Null")); (EName "md2WithRSAEncryption", call0 (univ "Null")); (EName "md5WithRSAEncryption", call0 (univ "Null")); (EName "sha1WithRSAEncryption", call0 (univ "Null")); (EName "id_dsa", new "DSS_Parms"); (EName "dhpublicnumber", new "DomainParameters"); (EName "id_keyExchangeAlgorithm", new "KEA_Parms_Id"); (EName "id_ecPublicKey", new "ECParameters"); (EName "id_ecDH", new "ECParameters"); (EName "id_ecMQV", new "ECParameters")]));
  (190%N, SExpr (call (EAttr (qual "rfc5280" "algorithmIdentifierMap") "update") [EName "_algorithmIdentifierMapUpdate"]))
].
