(** pyasn1_modules/rfc6955.py, printed by tools/py2coq.py.  Every statement is
    preceded by its line number in that file. *)
From Verif Require Import Py.Syntax.
From Coq Require Import List String ZArith NArith.
Import ListNotations.
Open Scope string_scope.
Open Scope Z_scope.

Definition src : module := [
  (15%N, SFrom "pyasn1.type" [("namedtype", "namedtype")]);
  (16%N, SFrom "pyasn1.type" [("univ", "univ")]);
  (18%N, SFrom "pyasn1_modules" [("rfc3279", "rfc3279")]);
  (19%N, SFrom "pyasn1_modules" [("rfc5280", "rfc5280")]);
  (20%N, SFrom "pyasn1_modules" [("rfc5652", "rfc5652")]);
  (25%N, set "MessageDigest" (qual "rfc5652" "MessageDigest"));
  (27%N, set "IssuerAndSerialNumber" (qual "rfc5652" "IssuerAndSerialNumber"));
  (32%N, set "id_pkix" (qual "rfc5280" "id_pkix"));
  (37%N, set "Dss_Sig_Value" (qual "rfc3279" "Dss_Sig_Value"));
  (39%N, set "DomainParameters" (qual "rfc3279" "DomainParameters"));
  (44%N, SClass "DhSigStatic" (univ "Sequence") [set "componentType" (nts [ont "issuerAndSerial" (new "IssuerAndSerialNumber"); nt "hashValue" (new "MessageDigest")])]);
  (53%N, set "id_dh_sig_hmac_sha1" (EBin OAdd (EName "id_pkix") (ETuple [EInt 6; EInt 3])));
  (55%N, set "id_dhPop_static_sha1_hmac_sha1" (call (univ "ObjectIdentifier") [EName "id_dh_sig_hmac_sha1"]));
  (58%N, set "id_alg_dh_pop" (EBin OAdd (EName "id_pkix") (ETuple [EInt 6; EInt 4])));
  (60%N, set "id_alg_dhPop_sha1" (call (univ "ObjectIdentifier") [EName "id_alg_dh_pop"]));
  (62%N, set "id_alg_dhPop_sha224" (EBin OAdd (EName "id_pkix") (ETuple [EInt 6; EInt 5])));
  (64%N, set "id_alg_dhPop_sha256" (EBin OAdd (EName "id_pkix") (ETuple [EInt 6; EInt 6])));
  (66%N, set "id_alg_dhPop_sha384" (EBin OAdd (EName "id_pkix") (ETuple [EInt 6; EInt 7])));
  (68%N, set "id_alg_dhPop_sha512" (EBin OAdd (EName "id_pkix") (ETuple [EInt 6; EInt 8])));
  (71%N, set "id_alg_dhPop_static_sha224_hmac_sha224" (EBin OAdd (EName "id_pkix") (ETuple [EInt 6; EInt 15])));
  (73%N, set "id_alg_dhPop_static_sha256_hmac_sha256" (EBin OAdd (EName "id_pkix") (ETuple [EInt 6; EInt 16])));
  (75%N, set "id_alg_dhPop_static_sha384_hmac_sha384" (EBin OAdd (EName "id_pkix") (ETuple [EInt 6; EInt 17])));
  (77%N, set "id_alg_dhPop_static_sha512_hmac_sha512" (EBin OAdd (EName "id_pkix") (ETuple [EInt 6; EInt 18])));
  (80%N, set "id_alg_ecdhPop_static_sha224_hmac_sha224" (EBin OAdd (EName "id_pkix") (ETuple [EInt 6; EInt 25])));
  (82%N, set "id_alg_ecdhPop_static_sha256_hmac_sha256" (EBin OAdd (EName "id_pkix") (ETuple [EInt 6; EInt 26])));
  (84%N, set "id_alg_ecdhPop_static_sha384_hmac_sha384" (EBin OAdd (EName "id_pkix") (ETuple [EInt 6; EInt 27])));
  (86%N, set "id_alg_ecdhPop_static_sha512_hmac_sha512" (EBin OAdd (EName "id_pkix") (ETuple [EInt 6; EInt 28])));
  (91%N, set "_algorithmIdentifierMapUpdate" (EDict [(EName "id_alg_dh_pop", new "DomainParameters"); (EName "id_alg_dhPop_sha224", new "DomainParameters"); (EName "id_alg_dhPop_sha256", new "DomainParameters"); (EName "id_alg_dhPop_sha384", new "DomainParameters"); (EName "id_alg_dhPop_sha512", new "DomainParameters"); (EName "id_dh_sig_hmac_sha1", call (univ "Null") [EStr ""]); (EName "id_alg_dhPop_static_sha224_hmac_sha224", call (univ "Null") [EStr ""]); (EName "id_alg_dhPop_static_sha256_hmac_sha256", call (univ "Null") [EStr ""]); (EName "id_alg_dhPop_static_sha384_hmac_sha384", call (univ "Null") [EStr ""]); (EName "id_alg_dhPop_static_sha512_hmac_sha512", call (univ "Null") [EStr ""]); (EName "id_alg_ecdhPop_static_sha224_hmac_sha224", call (univ "Null") [EStr ""]); (EName "id_alg_ecdhPop_static_sha256_hmac_sha256", call (univ "Null") [EStr ""]); (EName "id_alg_ecdhPop_static_sha384_hmac_sha384", call (univ "Null") [EStr ""]); (EName "id_alg_ecdhPop_static_sha512_hmac_sha512", call (univ "Null") [EStr ""])]));
  (108%N, SExpr (call (EAttr (qual "rfc5280" "algorithmIdentifierMap") "update") [EName "_algorithmIdentifierMapUpdate"]))
].
