(** pyasn1_modules/rfc4490.py, printed by tools/py2coq.py.  Every statement is
    preceded by its line number in that file. *)
From Verif Require Import Py.Syntax.
From Coq Require Import List String ZArith NArith.
Import ListNotations.
Open Scope string_scope.
Open Scope Z_scope.

Definition src : module := [
  (17%N, SFrom "pyasn1.type" [("univ", "univ"); ("char", "char"); ("namedtype", "namedtype"); ("namedval", "namedval"); ("tag", "tag"); ("constraint", "constraint"); ("useful", "useful")]);
  (19%N, SFrom "pyasn1_modules" [("rfc4357", "rfc4357")]);
  (20%N, SFrom "pyasn1_modules" [("rfc5280", "rfc5280")]);
  (25%N, set "id_CryptoPro_algorithms" (qual "rfc4357" "id_CryptoPro_algorithms"));
  (27%N, set "id_GostR3410_94" (qual "rfc4357" "id_GostR3410_94"));
  (29%N, set "id_GostR3410_2001" (qual "rfc4357" "id_GostR3410_2001"));
  (31%N, set "Gost28147_89_ParamSet" (qual "rfc4357" "Gost28147_89_ParamSet"));
  (33%N, set "Gost28147_89_EncryptedKey" (qual "rfc4357" "Gost28147_89_EncryptedKey"));
  (35%N, set "GostR3410_94_PublicKeyParameters" (qual "rfc4357" "GostR3410_94_PublicKeyParameters"));
  (37%N, set "GostR3410_2001_PublicKeyParameters" (qual "rfc4357" "GostR3410_2001_PublicKeyParameters"));
  (42%N, set "SubjectPublicKeyInfo" (qual "rfc5280" "SubjectPublicKeyInfo"));
  (47%N, SClass "Gost28147_89_KeyWrapParameters" (univ "Sequence") [set "componentType" (nts [nt "encryptionParamSet" (new "Gost28147_89_ParamSet"); ont "ukm" (withspec (call0 (univ "OctetString")) (sizec (EInt 8) (EInt 8)))])]);
  (55%N, set "id_Gost28147_89_CryptoPro_KeyWrap" (EBin OAdd (EName "id_CryptoPro_algorithms") (ETuple [EInt 13; EInt 1])));
  (58%N, set "id_Gost28147_89_None_KeyWrap" (EBin OAdd (EName "id_CryptoPro_algorithms") (ETuple [EInt 13; EInt 0])));
  (61%N, set "id_GostR3410_2001_CryptoPro_ESDH" (EBin OAdd (EName "id_CryptoPro_algorithms") (ETuple [EInt 96])));
  (64%N, set "id_GostR3410_94_CryptoPro_ESDH" (EBin OAdd (EName "id_CryptoPro_algorithms") (ETuple [EInt 97])));
  (69%N, set "id_GostR3410_2001_KeyTransportSMIMECapability" (EName "id_GostR3410_2001"));
  (72%N, set "id_GostR3410_94_KeyTransportSMIMECapability" (EName "id_GostR3410_94"));
  (75%N, SClass "GostR3410_TransportParameters" (univ "Sequence") [set "componentType" (nts [nt "encryptionParamSet" (new "Gost28147_89_ParamSet"); ont "ephemeralPublicKey" (implicit (new "SubjectPublicKeyInfo") (ctxS 0)); nt "ukm" (withspec (call0 (univ "OctetString")) (sizec (EInt 8) (EInt 8)))])]);
  (85%N, SClass "GostR3410_KeyTransport" (univ "Sequence") [set "componentType" (nts [nt "sessionEncryptedKey" (new "Gost28147_89_EncryptedKey"); ont "transportParameters" (implicit (new "GostR3410_TransportParameters") (ctxC 0))])]);
  (96%N, SClass "GostR3410_94_Signature" (univ "OctetString") [set "subtypeSpec" (sizec (EInt 64) (EInt 64))]);
  (102%N, SClass "GostR3410_2001_Signature" (univ "OctetString") [set "subtypeSpec" (sizec (EInt 64) (EInt 64))]);
  (108%N, set "_algorithmIdentifierMapUpdate" (EDict [(EName "id_Gost28147_89_CryptoPro_KeyWrap", new "Gost28147_89_KeyWrapParameters"); (EName "id_Gost28147_89_None_KeyWrap", new "Gost28147_89_KeyWrapParameters")]));
  (113%N, SExpr (call (EAttr (qual "rfc5280" "algorithmIdentifierMap") "update") [EName "_algorithmIdentifierMapUpdate"]))
].
