(** pyasn1_modules/rfc2437.py, printed by tools/py2coq.py.  Every statement is
    preceded by its line number in that file. *)
From Verif Require Import Py.Syntax.
From Coq Require Import List String ZArith NArith.
Import ListNotations.
Open Scope string_scope.
Open Scope Z_scope.

Definition src : module := [
  (14%N, SFrom "pyasn1.type" [("namedtype", "namedtype")]);
  (15%N, SFrom "pyasn1.type" [("tag", "tag")]);
  (16%N, SFrom "pyasn1.type" [("univ", "univ")]);
  (18%N, SFrom "pyasn1_modules.rfc2459" [("AlgorithmIdentifier", "AlgorithmIdentifier")]);
  (20%N, set "pkcs_1" (call (univ "ObjectIdentifier") [EStr "1.2.840.113549.1.1"]));
  (21%N, set "rsaEncryption" (call (univ "ObjectIdentifier") [EStr "1.2.840.113549.1.1.1"]));
  (22%N, set "md2WithRSAEncryption" (call (univ "ObjectIdentifier") [EStr "1.2.840.113549.1.1.2"]));
  (23%N, set "md4WithRSAEncryption" (call (univ "ObjectIdentifier") [EStr "1.2.840.113549.1.1.3"]));
  (24%N, set "md5WithRSAEncryption" (call (univ "ObjectIdentifier") [EStr "1.2.840.113549.1.1.4"]));
  (25%N, set "sha1WithRSAEncryption" (call (univ "ObjectIdentifier") [EStr "1.2.840.113549.1.1.5"]));
  (26%N, set "rsaOAEPEncryptionSET" (call (univ "ObjectIdentifier") [EStr "1.2.840.113549.1.1.6"]));
  (27%N, set "id_RSAES_OAEP" (call (univ "ObjectIdentifier") [EStr "1.2.840.113549.1.1.7"]));
  (28%N, set "id_mgf1" (call (univ "ObjectIdentifier") [EStr "1.2.840.113549.1.1.8"]));
  (29%N, set "id_pSpecified" (call (univ "ObjectIdentifier") [EStr "1.2.840.113549.1.1.9"]));
  (30%N, set "id_sha1" (call (univ "ObjectIdentifier") [EStr "1.3.14.3.2.26"]));
  (32%N, set "MAX" (call (EName "float") [EStr "inf"]));
  (35%N, SClass "Version" (univ "Integer") [SPass]);
  (39%N, SClass "RSAPrivateKey" (univ "Sequence") [set "componentType" (nts [nt "version" (new "Version"); nt "modulus" (call0 (univ "Integer")); nt "publicExponent" (call0 (univ "Integer")); nt "privateExponent" (call0 (univ "Integer")); nt "prime1" (call0 (univ "Integer")); nt "prime2" (call0 (univ "Integer")); nt "exponent1" (call0 (univ "Integer")); nt "exponent2" (call0 (univ "Integer")); nt "coefficient" (call0 (univ "Integer"))])]);
  (53%N, SClass "RSAPublicKey" (univ "Sequence") [set "componentType" (nts [nt "modulus" (call0 (univ "Integer")); nt "publicExponent" (call0 (univ "Integer"))])]);
  (61%N, SClass "RSAES_OAEP_params" (univ "Sequence") [set "componentType" (nts [nt "hashFunc" (implicit (new "AlgorithmIdentifier") (ctxC 0)); nt "maskGenFunc" (implicit (new "AlgorithmIdentifier") (ctxC 1)); nt "pSourceFunc" (implicit (new "AlgorithmIdentifier") (ctxC 2))])])
].
