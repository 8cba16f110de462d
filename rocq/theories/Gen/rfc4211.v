(** pyasn1_modules/rfc4211.py, printed by tools/py2coq.py.  Every statement is
    preceded by its line number in that file. *)
From Verif Require Import Py.Syntax.
From Coq Require Import List String ZArith NArith.
Import ListNotations.
Open Scope string_scope.
Open Scope Z_scope.

Definition src : module := [
  (15%N, SFrom "pyasn1.type" [("char", "char")]);
  (16%N, SFrom "pyasn1.type" [("constraint", "constraint")]);
  (17%N, SFrom "pyasn1.type" [("namedtype", "namedtype")]);
  (18%N, SFrom "pyasn1.type" [("namedval", "namedval")]);
  (19%N, SFrom "pyasn1.type" [("tag", "tag")]);
  (20%N, SFrom "pyasn1.type" [("univ", "univ")]);
  (22%N, SFrom "pyasn1_modules" [("rfc3280", "rfc3280")]);
  (23%N, SFrom "pyasn1_modules" [("rfc3852", "rfc3852")]);
  (25%N, set "MAX" (call (EName "float") [EStr "inf"]));
  (28%N, SDef "_buildOid" [] (Some "components") [set "output" (EList []); SFor "x" (call (EName "tuple") [EName "components"]) [SIf (call (EName "isinstance") [EName "x"; univ "ObjectIdentifier"]) [SExpr (call (qual "output" "extend") [call (EName "list") [EName "x"]])] [SExpr (call (qual "output" "append") [call (EName "int") [EName "x"]])]]; SReturn (call (univ "ObjectIdentifier") [EName "output"])]);
  (39%N, set "id_pkix" (call (EName "_buildOid") [EInt 1; EInt 3; EInt 6; EInt 1; EInt 5; EInt 5; EInt 7]));
  (41%N, set "id_pkip" (call (EName "_buildOid") [EName "id_pkix"; EInt 5]));
  (43%N, set "id_regCtrl" (call (EName "_buildOid") [EName "id_pkip"; EInt 1]));
  (46%N, SClass "SinglePubInfo" (univ "Sequence") [SPass]);
  (50%N, seta "SinglePubInfo" "componentType" (nts [nt "pubMethod" (ECall (univ "Integer") [] [("namedValues", nvs [nv "dontCare" 0; nv "x500" 1; nv "web" 2; nv "ldap" 3])]); ont "pubLocation" (call0 (qual "rfc3280" "GeneralName"))]));
  (57%N, SClass "UTF8Pairs" (chr "UTF8String") [SPass]);
  (61%N, SClass "PKMACValue" (univ "Sequence") [SPass]);
  (65%N, seta "PKMACValue" "componentType" (nts [nt "algId" (call0 (qual "rfc3280" "AlgorithmIdentifier")); nt "value" (call0 (univ "BitString"))]));
  (71%N, SClass "POPOSigningKeyInput" (univ "Sequence") [SPass]);
  (75%N, seta "POPOSigningKeyInput" "componentType" (nts [nt "authInfo" (ECall (univ "Choice") [] [("componentType", nts [nt "sender" (implicit (call0 (qual "rfc3280" "GeneralName")) (ctxC 0)); nt "publicKeyMAC" (new "PKMACValue")])]); nt "publicKey" (call0 (qual "rfc3280" "SubjectPublicKeyInfo"))]));
  (92%N, SClass "POPOSigningKey" (univ "Sequence") [SPass]);
  (96%N, seta "POPOSigningKey" "componentType" (nts [ont "poposkInput" (implicit (new "POPOSigningKeyInput") (ctxC 0)); nt "algorithmIdentifier" (call0 (qual "rfc3280" "AlgorithmIdentifier")); nt "signature" (call0 (univ "BitString"))]));
  (104%N, SClass "Attributes" (univ "SetOf") [SPass]);
  (108%N, seta "Attributes" "componentType" (call0 (qual "rfc3280" "Attribute")));
  (111%N, SClass "PrivateKeyInfo" (univ "Sequence") [SPass]);
  (115%N, seta "PrivateKeyInfo" "componentType" (nts [nt "version" (call0 (univ "Integer")); nt "privateKeyAlgorithm" (call0 (qual "rfc3280" "AlgorithmIdentifier")); nt "privateKey" (call0 (univ "OctetString")); ont "attributes" (implicit (new "Attributes") (ctxS 0))]));
  (124%N, SClass "EncryptedValue" (univ "Sequence") [SPass]);
  (128%N, seta "EncryptedValue" "componentType" (nts [ont "intendedAlg" (implicit (call0 (qual "rfc3280" "AlgorithmIdentifier")) (ctxS 0)); ont "symmAlg" (implicit (call0 (qual "rfc3280" "AlgorithmIdentifier")) (ctxS 1)); ont "encSymmKey" (implicit (call0 (univ "BitString")) (ctxS 2)); ont "keyAlg" (implicit (call0 (qual "rfc3280" "AlgorithmIdentifier")) (ctxS 3)); ont "valueHint" (implicit (call0 (univ "OctetString")) (ctxS 4)); nt "encValue" (call0 (univ "BitString"))]));
  (143%N, SClass "EncryptedKey" (univ "Choice") [SPass]);
  (147%N, seta "EncryptedKey" "componentType" (nts [nt "encryptedValue" (new "EncryptedValue"); nt "envelopedData" (implicit (call0 (qual "rfc3852" "EnvelopedData")) (ctxS 0))]));
  (154%N, SClass "KeyGenParameters" (univ "OctetString") [SPass]);
  (158%N, SClass "PKIArchiveOptions" (univ "Choice") [SPass]);
  (162%N, seta "PKIArchiveOptions" "componentType" (nts [nt "encryptedPrivKey" (implicit (new "EncryptedKey") (ctxC 0)); nt "keyGenParameters" (implicit (new "KeyGenParameters") (ctxS 1)); nt "archiveRemGenPrivKey" (implicit (call0 (univ "Boolean")) (ctxS 2))]));
  (171%N, set "id_regCtrl_authenticator" (call (EName "_buildOid") [EName "id_regCtrl"; EInt 2]));
  (173%N, set "id_regInfo" (call (EName "_buildOid") [EName "id_pkip"; EInt 2]));
  (175%N, set "id_regInfo_certReq" (call (EName "_buildOid") [EName "id_regInfo"; EInt 2]));
  (178%N, SClass "ProtocolEncrKey" (qual "rfc3280" "SubjectPublicKeyInfo") [SPass]);
  (182%N, SClass "Authenticator" (chr "UTF8String") [SPass]);
  (186%N, SClass "SubsequentMessage" (univ "Integer") [SPass]);
  (190%N, seta "SubsequentMessage" "namedValues" (nvs [nv "encrCert" 0; nv "challengeResp" 1]));
  (196%N, SClass "AttributeTypeAndValue" (univ "Sequence") [SPass]);
  (200%N, seta "AttributeTypeAndValue" "componentType" (nts [nt "type" (call0 (univ "ObjectIdentifier")); nt "value" (call0 (univ "Any"))]));
  (206%N, SClass "POPOPrivKey" (univ "Choice") [SPass]);
  (210%N, seta "POPOPrivKey" "componentType" (nts [nt "thisMessage" (implicit (call0 (univ "BitString")) (ctxS 0)); nt "subsequentMessage" (implicit (new "SubsequentMessage") (ctxS 1)); nt "dhMAC" (implicit (call0 (univ "BitString")) (ctxS 2)); nt "agreeMAC" (implicit (new "PKMACValue") (ctxC 3)); nt "encryptedKey" (implicit (call0 (qual "rfc3852" "EnvelopedData")) (ctxS 4))]));
  (224%N, SClass "ProofOfPossession" (univ "Choice") [SPass]);
  (228%N, seta "ProofOfPossession" "componentType" (nts [nt "raVerified" (implicit (call0 (univ "Null")) (ctxS 0)); nt "signature" (implicit (new "POPOSigningKey") (ctxC 1)); nt "keyEncipherment" (implicit (new "POPOPrivKey") (ctxC 2)); nt "keyAgreement" (implicit (new "POPOPrivKey") (ctxC 3))]));
  (240%N, SClass "OptionalValidity" (univ "Sequence") [SPass]);
  (244%N, seta "OptionalValidity" "componentType" (nts [ont "notBefore" (implicit (call0 (qual "rfc3280" "Time")) (ctxC 0)); ont "notAfter" (implicit (call0 (qual "rfc3280" "Time")) (ctxC 1))]));
  (252%N, SClass "CertTemplate" (univ "Sequence") [SPass]);
  (256%N, seta "CertTemplate" "componentType" (nts [ont "version" (implicit (call0 (qual "rfc3280" "Version")) (ctxS 0)); ont "serialNumber" (implicit (call0 (univ "Integer")) (ctxS 1)); ont "signingAlg" (implicit (call0 (qual "rfc3280" "AlgorithmIdentifier")) (ctxS 2)); ont "issuer" (implicit (call0 (qual "rfc3280" "Name")) (ctxC 3)); ont "validity" (implicit (new "OptionalValidity") (ctxC 4)); ont "subject" (implicit (call0 (qual "rfc3280" "Name")) (ctxC 5)); ont "publicKey" (implicit (call0 (qual "rfc3280" "SubjectPublicKeyInfo")) (ctxS 6)); ont "issuerUID" (implicit (call0 (qual "rfc3280" "UniqueIdentifier")) (ctxS 7)); ont "subjectUID" (implicit (call0 (qual "rfc3280" "UniqueIdentifier")) (ctxS 8)); ont "extensions" (implicit (call0 (qual "rfc3280" "Extensions")) (ctxS 9))]));
  (280%N, SClass "Controls" (univ "SequenceOf") [SPass]);
  (284%N, seta "Controls" "componentType" (new "AttributeTypeAndValue"));
  (285%N, seta "Controls" "sizeSpec" (sizec (EInt 1) (EName "MAX")));
  (288%N, SClass "CertRequest" (univ "Sequence") [SPass]);
  (292%N, seta "CertRequest" "componentType" (nts [nt "certReqId" (call0 (univ "Integer")); nt "certTemplate" (new "CertTemplate"); ont "controls" (new "Controls")]));
  (299%N, SClass "CertReqMsg" (univ "Sequence") [SPass]);
  (303%N, seta "CertReqMsg" "componentType" (nts [nt "certReq" (new "CertRequest"); ont "popo" (new "ProofOfPossession"); ont "regInfo" (ECall (univ "SequenceOf") [] [("componentType", new "AttributeTypeAndValue")])]));
  (310%N, SClass "CertReqMessages" (univ "SequenceOf") [SPass]);
  (314%N, seta "CertReqMessages" "componentType" (new "CertReqMsg"));
  (315%N, seta "CertReqMessages" "sizeSpec" (sizec (EInt 1) (EName "MAX")));
  (318%N, SClass "CertReq" (EName "CertRequest") [SPass]);
  (322%N, set "id_regCtrl_pkiPublicationInfo" (call (EName "_buildOid") [EName "id_regCtrl"; EInt 3]));
  (325%N, SClass "CertId" (univ "Sequence") [SPass]);
  (329%N, seta "CertId" "componentType" (nts [nt "issuer" (call0 (qual "rfc3280" "GeneralName")); nt "serialNumber" (call0 (univ "Integer"))]));
  (335%N, SClass "OldCertId" (EName "CertId") [SPass]);
  (339%N, SClass "PKIPublicationInfo" (univ "Sequence") [SPass]);
  (343%N, seta "PKIPublicationInfo" "componentType" (nts [nt "action" (ECall (univ "Integer") [] [("namedValues", nvs [nv "dontPublish" 0; nv "pleasePublish" 1])]); ont "pubInfos" (ECall (univ "SequenceOf") [] [("componentType", new "SinglePubInfo")])]));
  (350%N, SClass "EncKeyWithID" (univ "Sequence") [SPass]);
  (354%N, seta "EncKeyWithID" "componentType" (nts [nt "privateKey" (new "PrivateKeyInfo"); ont "identifier" (ECall (univ "Choice") [] [("componentType", nts [nt "string" (call0 (chr "UTF8String")); nt "generalName" (call0 (qual "rfc3280" "GeneralName"))])])]));
  (366%N, set "id_regCtrl_protocolEncrKey" (call (EName "_buildOid") [EName "id_regCtrl"; EInt 6]));
  (368%N, set "id_regCtrl_oldCertID" (call (EName "_buildOid") [EName "id_regCtrl"; EInt 5]));
  (370%N, set "id_smime" (call (EName "_buildOid") [EInt 1; EInt 2; EInt 840; EInt 113549; EInt 1; EInt 9; EInt 16]));
  (373%N, SClass "PBMParameter" (univ "Sequence") [SPass]);
  (377%N, seta "PBMParameter" "componentType" (nts [nt "salt" (call0 (univ "OctetString")); nt "owf" (call0 (qual "rfc3280" "AlgorithmIdentifier")); nt "iterationCount" (call0 (univ "Integer")); nt "mac" (call0 (qual "rfc3280" "AlgorithmIdentifier"))]));
  (384%N, set "id_regCtrl_regToken" (call (EName "_buildOid") [EName "id_regCtrl"; EInt 1]));
  (386%N, set "id_regCtrl_pkiArchiveOptions" (call (EName "_buildOid") [EName "id_regCtrl"; EInt 4]));
  (388%N, set "id_regInfo_utf8Pairs" (call (EName "_buildOid") [EName "id_regInfo"; EInt 1]));
  (390%N, set "id_ct" (call (EName "_buildOid") [EName "id_smime"; EInt 1]));
  (392%N, set "id_ct_encKeyWithID" (call (EName "_buildOid") [EName "id_ct"; EInt 21]));
  (395%N, SClass "RegToken" (chr "UTF8String") [SPass])
].
