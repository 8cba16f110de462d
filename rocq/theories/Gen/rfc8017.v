(** pyasn1_modules/rfc8017.py, printed by tools/py2coq.py.  Every statement is
    preceded by its line number in that file. *)
From Verif Require Import Py.Syntax.
From Coq Require Import List String ZArith NArith.
Import ListNotations.
Open Scope string_scope.
Open Scope Z_scope.

Definition src : module := [
  (15%N, SFrom "pyasn1.type" [("constraint", "constraint")]);
  (16%N, SFrom "pyasn1.type" [("namedtype", "namedtype")]);
  (17%N, SFrom "pyasn1.type" [("namedval", "namedval")]);
  (18%N, SFrom "pyasn1.type" [("univ", "univ")]);
  (20%N, SFrom "pyasn1_modules" [("rfc2437", "rfc2437")]);
  (21%N, SFrom "pyasn1_modules" [("rfc3447", "rfc3447")]);
  (22%N, SFrom "pyasn1_modules" [("rfc4055", "rfc4055")]);
  (23%N, SFrom "pyasn1_modules" [("rfc5280", "rfc5280")]);
  (25%N, set "MAX" (call (EName "float") [EStr "inf"]));
  (30%N, set "AlgorithmIdentifier" (qual "rfc5280" "AlgorithmIdentifier"));
  (32%N, SClass "DigestAlgorithm" (EName "AlgorithmIdentifier") [SPass]);
  (35%N, SClass "HashAlgorithm" (EName "AlgorithmIdentifier") [SPass]);
  (38%N, SClass "MaskGenAlgorithm" (EName "AlgorithmIdentifier") [SPass]);
  (41%N, SClass "PSourceAlgorithm" (EName "AlgorithmIdentifier") [SPass]);
  (47%N, set "hashAlgs" (call (univ "ObjectIdentifier") [EStr "2.16.840.1.101.3.4.2"]));
  (48%N, set "id_sha256" (qual "rfc4055" "id_sha256"));
  (49%N, set "id_sha384" (qual "rfc4055" "id_sha384"));
  (50%N, set "id_sha512" (qual "rfc4055" "id_sha512"));
  (51%N, set "id_sha224" (qual "rfc4055" "id_sha224"));
  (52%N, set "id_sha512_224" (EBin OAdd (EName "hashAlgs") (ETuple [EInt 5])));
  (53%N, set "id_sha512_256" (EBin OAdd (EName "hashAlgs") (ETuple [EInt 6])));
  (58%N, set "pkcs_1" (call (univ "ObjectIdentifier") [EStr "1.2.840.113549.1.1"]));
  (59%N, set "rsaEncryption" (qual "rfc2437" "rsaEncryption"));
  (60%N, set "id_RSAES_OAEP" (qual "rfc2437" "id_RSAES_OAEP"));
  (61%N, set "id_pSpecified" (qual "rfc2437" "id_pSpecified"));
  (62%N, set "id_RSASSA_PSS" (qual "rfc4055" "id_RSASSA_PSS"));
  (63%N, set "md2WithRSAEncryption" (qual "rfc2437" "md2WithRSAEncryption"));
  (64%N, set "md5WithRSAEncryption" (qual "rfc2437" "md5WithRSAEncryption"));
  (65%N, set "sha1WithRSAEncryption" (qual "rfc2437" "sha1WithRSAEncryption"));
  (66%N, set "sha224WithRSAEncryption" (qual "rfc4055" "sha224WithRSAEncryption"));
  (67%N, set "sha256WithRSAEncryption" (qual "rfc4055" "sha256WithRSAEncryption"));
  (68%N, set "sha384WithRSAEncryption" (qual "rfc4055" "sha384WithRSAEncryption"));
  (69%N, set "sha512WithRSAEncryption" (qual "rfc4055" "sha512WithRSAEncryption"));
  (70%N, set "sha512_224WithRSAEncryption" (EBin OAdd (EName "pkcs_1") (ETuple [EInt 15])));
  (71%N, set "sha512_256WithRSAEncryption" (EBin OAdd (EName "pkcs_1") (ETuple [EInt 16])));
  (72%N, set "id_sha1" (qual "rfc2437" "id_sha1"));
  (73%N, set "id_md2" (call (univ "ObjectIdentifier") [EStr "1.2.840.113549.2.2"]));
  (74%N, set "id_md5" (call (univ "ObjectIdentifier") [EStr "1.2.840.113549.2.5"]));
  (75%N, set "id_mgf1" (qual "rfc2437" "id_mgf1"));
  (80%N, set "sha1" (qual "rfc4055" "sha1Identifier"));
  (81%N, set "SHA1Parameters" (call (univ "Null") [EStr ""]));
  (83%N, set "mgf1SHA1" (qual "rfc4055" "mgf1SHA1Identifier"));
  (85%N, SClass "EncodingParameters" (univ "OctetString") [set "subtypeSpec" (sizec (EInt 0) (EName "MAX"))]);
  (88%N, set "pSpecifiedEmpty" (qual "rfc4055" "pSpecifiedEmptyIdentifier"));
  (90%N, set "emptyString" (ECall (EName "EncodingParameters") [] [("value", EStr "")]));
  (95%N, SClass "Version" (univ "Integer") [set "namedValues" (nvs [nv "two-prime" 0; nv "multi" 1])]);
  (101%N, SClass "TrailerField" (univ "Integer") [set "namedValues" (nvs [nv "trailerFieldBC" 1])]);
  (106%N, set "RSAPublicKey" (qual "rfc2437" "RSAPublicKey"));
  (108%N, set "OtherPrimeInfo" (qual "rfc3447" "OtherPrimeInfo"));
  (109%N, set "OtherPrimeInfos" (qual "rfc3447" "OtherPrimeInfos"));
  (110%N, set "RSAPrivateKey" (qual "rfc3447" "RSAPrivateKey"));
  (112%N, set "RSAES_OAEP_params" (qual "rfc4055" "RSAES_OAEP_params"));
  (113%N, set "rSAES_OAEP_Default_Identifier" (qual "rfc4055" "rSAES_OAEP_Default_Identifier"));
  (115%N, set "RSASSA_PSS_params" (qual "rfc4055" "RSASSA_PSS_params"));
  (116%N, set "rSASSA_PSS_Default_Identifier" (qual "rfc4055" "rSASSA_PSS_Default_Identifier"));
  (121%N, SClass "DigestInfo" (univ "Sequence") [set "componentType" (nts [nt "digestAlgorithm" (new "DigestAlgorithm"); nt "digest" (call0 (univ "OctetString"))])]);
  (130%N, set "_algorithmIdentifierMapUpdate" (EDict [(EName "id_sha1", call0 (univ "Null")); (EName "id_sha224", call0 (univ "Null")); (EName "id_sha256", call0 (univ "Null")); (EName "id_sha384", call0 (univ "Null")); (EName "id_sha512", call0 (univ "Null")); (EName "id_sha512_224", call0 (univ "Null")); (EName "id_sha512_256", call0 (univ "Null")); (EName "id_mgf1", new "AlgorithmIdentifier"); (EName "id_pSpecified", call0 (univ "OctetString")); (EName "id_RSAES_OAEP", new "RSAES_OAEP_params"); (EName "id_RSASSA_PSS", new "RSASSA_PSS_params"); (EName "md2WithRSAEncryption", call0 (univ "Null")); (EName "md5WithRSAEncryption", call0 (univ "Null")); (EName "sha1WithRSAEncryption", call0 (univ "Null")); (EName "sha224WithRSAEncryption", call0 (univ "Null")); (EName "sha256WithRSAEncryption", call0 (univ "Null")); (EName "sha384WithRSAEncryption", call0 (univ "Null")); (EName "sha512WithRSAEncryption", call0 (univ "Null")); (EName "sha512_224WithRSAEncryption", call0 (univ "Null")); (EName "sha512_256WithRSAEncryption", call0 (univ "Null"))]));
  (153%N, SExpr (call (EAttr (qual "rfc5280" "algorithmIdentifierMap") "update") [EName "_algorithmIdentifierMapUpdate"]))
].
