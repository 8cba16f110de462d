(** pyasn1_modules/rfc2511.py, printed by tools/py2coq.py.  Every statement is
    preceded by its line number in that file. *)
From Verif Require Import Py.Syntax.
From Coq Require Import List String ZArith NArith.
Import ListNotations.
Open Scope string_scope.
Open Scope Z_scope.

Definition src : module := [
  (14%N, SFrom "pyasn1_modules" [("rfc2315", "rfc2315")]);
  (15%N, SFromStar "pyasn1_modules.rfc2459");
  (17%N, set "MAX" (call (EName "float") [EStr "inf"]));
  (19%N, set "id_pkix" (call (univ "ObjectIdentifier") [EStr "1.3.6.1.5.5.7"]));
  (20%N, set "id_pkip" (call (univ "ObjectIdentifier") [EStr "1.3.6.1.5.5.7.5"]));
  (21%N, set "id_regCtrl" (call (univ "ObjectIdentifier") [EStr "1.3.6.1.5.5.7.5.1"]));
  (22%N, set "id_regCtrl_regToken" (call (univ "ObjectIdentifier") [EStr "1.3.6.1.5.5.7.5.1.1"]));
  (23%N, set "id_regCtrl_authenticator" (call (univ "ObjectIdentifier") [EStr "1.3.6.1.5.5.7.5.1.2"]));
  (24%N, set "id_regCtrl_pkiPublicationInfo" (call (univ "ObjectIdentifier") [EStr "1.3.6.1.5.5.7.5.1.3"]));
  (25%N, set "id_regCtrl_pkiArchiveOptions" (call (univ "ObjectIdentifier") [EStr "1.3.6.1.5.5.7.5.1.4"]));
  (26%N, set "id_regCtrl_oldCertID" (call (univ "ObjectIdentifier") [EStr "1.3.6.1.5.5.7.5.1.5"]));
  (27%N, set "id_regCtrl_protocolEncrKey" (call (univ "ObjectIdentifier") [EStr "1.3.6.1.5.5.7.5.1.6"]));
  (28%N, set "id_regInfo" (call (univ "ObjectIdentifier") [EStr "1.3.6.1.5.5.7.5.2"]));
  (29%N, set "id_regInfo_utf8Pairs" (call (univ "ObjectIdentifier") [EStr "1.3.6.1.5.5.7.5.2.1"]));
  (30%N, set "id_regInfo_certReq" (call (univ "ObjectIdentifier") [EStr "1.3.6.1.5.5.7.5.2.2"]));
  (35%N, SClass "GeneralName" (univ "OctetString") [SPass]);
  (41%N, SClass "UTF8Pairs" (chr "UTF8String") [SPass]);
  (45%N, SClass "ProtocolEncrKey" (EName "SubjectPublicKeyInfo") [SPass]);
  (49%N, SClass "CertId" (univ "Sequence") [set "componentType" (nts [nt "issuer" (new "GeneralName"); nt "serialNumber" (call0 (univ "Integer"))])]);
  (56%N, SClass "OldCertId" (EName "CertId") [SPass]);
  (60%N, SClass "KeyGenParameters" (univ "OctetString") [SPass]);
  (64%N, SClass "EncryptedValue" (univ "Sequence") [set "componentType" (nts [ont "intendedAlg" (implicit (new "AlgorithmIdentifier") (ctxC 0)); ont "symmAlg" (implicit (new "AlgorithmIdentifier") (ctxC 1)); ont "encSymmKey" (implicit (call0 (univ "BitString")) (ctxC 2)); ont "keyAlg" (implicit (new "AlgorithmIdentifier") (ctxC 3)); ont "valueHint" (implicit (call0 (univ "OctetString")) (ctxC 4)); nt "encValue" (call0 (univ "BitString"))])]);
  (80%N, SClass "EncryptedKey" (univ "Choice") [set "componentType" (nts [nt "encryptedValue" (new "EncryptedValue"); nt "envelopedData" (implicit (call0 (qual "rfc2315" "EnvelopedData")) (ctxC 0))])]);
  (88%N, SClass "PKIArchiveOptions" (univ "Choice") [set "componentType" (nts [nt "encryptedPrivKey" (implicit (new "EncryptedKey") (ctxC 0)); nt "keyGenParameters" (implicit (new "KeyGenParameters") (ctxS 1)); nt "archiveRemGenPrivKey" (implicit (call0 (univ "Boolean")) (ctxS 2))])]);
  (99%N, SClass "SinglePubInfo" (univ "Sequence") [set "componentType" (nts [nt "pubMethod" (ECall (univ "Integer") [] [("namedValues", nvs [nv "dontCare" 0; nv "x500" 1; nv "web" 2; nv "ldap" 3])]); ont "pubLocation" (new "GeneralName")])]);
  (107%N, SClass "PKIPublicationInfo" (univ "Sequence") [set "componentType" (nts [nt "action" (ECall (univ "Integer") [] [("namedValues", nvs [nv "dontPublish" 0; nv "pleasePublish" 1])]); ont "pubInfos" (withsize (ECall (univ "SequenceOf") [] [("componentType", new "SinglePubInfo")]) (sizec (EInt 1) (EName "MAX")))])]);
  (116%N, SClass "Authenticator" (chr "UTF8String") [SPass]);
  (120%N, SClass "RegToken" (chr "UTF8String") [SPass]);
  (124%N, SClass "SubsequentMessage" (univ "Integer") [set "namedValues" (nvs [nv "encrCert" 0; nv "challengeResp" 1])]);
  (131%N, SClass "POPOPrivKey" (univ "Choice") [set "componentType" (nts [nt "thisMessage" (implicit (call0 (univ "BitString")) (ctxS 0)); nt "subsequentMessage" (implicit (new "SubsequentMessage") (ctxS 1)); nt "dhMAC" (implicit (call0 (univ "BitString")) (ctxS 2))])]);
  (142%N, SClass "PBMParameter" (univ "Sequence") [set "componentType" (nts [nt "salt" (call0 (univ "OctetString")); nt "owf" (new "AlgorithmIdentifier"); nt "iterationCount" (call0 (univ "Integer")); nt "mac" (new "AlgorithmIdentifier")])]);
  (151%N, SClass "PKMACValue" (univ "Sequence") [set "componentType" (nts [nt "algId" (new "AlgorithmIdentifier"); nt "value" (call0 (univ "BitString"))])]);
  (158%N, SClass "POPOSigningKeyInput" (univ "Sequence") [set "componentType" (nts [nt "authInfo" (ECall (univ "Choice") [] [("componentType", nts [nt "sender" (implicit (new "GeneralName") (ctxS 0)); nt "publicKeyMAC" (new "PKMACValue")])]); nt "publicKey" (new "SubjectPublicKeyInfo")])]);
  (174%N, SClass "POPOSigningKey" (univ "Sequence") [set "componentType" (nts [ont "poposkInput" (implicit (new "POPOSigningKeyInput") (ctxC 0)); nt "algorithmIdentifier" (new "AlgorithmIdentifier"); nt "signature" (call0 (univ "BitString"))])]);
  (183%N, SClass "ProofOfPossession" (univ "Choice") [set "componentType" (nts [nt "raVerified" (implicit (call0 (univ "Null")) (ctxS 0)); nt "signature" (implicit (new "POPOSigningKey") (ctxC 1)); nt "keyEncipherment" (implicit (new "POPOPrivKey") (ctxC 2)); nt "keyAgreement" (implicit (new "POPOPrivKey") (ctxC 3))])]);
  (196%N, SClass "Controls" (univ "SequenceOf") [set "componentType" (new "AttributeTypeAndValue"); set "sizeSpec" (EBin OAdd (EAttr (univ "SequenceOf") "sizeSpec") (sizec (EInt 1) (EName "MAX")))]);
  (201%N, SClass "OptionalValidity" (univ "Sequence") [set "componentType" (nts [ont "notBefore" (implicit (new "Time") (ctxS 0)); ont "notAfter" (implicit (new "Time") (ctxS 1))])]);
  (210%N, SClass "CertTemplate" (univ "Sequence") [set "componentType" (nts [ont "version" (implicit (new "Version") (ctxS 0)); ont "serialNumber" (implicit (call0 (univ "Integer")) (ctxS 1)); ont "signingAlg" (implicit (new "AlgorithmIdentifier") (ctxC 2)); ont "issuer" (implicit (new "Name") (ctxC 3)); ont "validity" (implicit (new "OptionalValidity") (ctxC 4)); ont "subject" (implicit (new "Name") (ctxC 5)); ont "publicKey" (implicit (new "SubjectPublicKeyInfo") (ctxC 6)); ont "issuerUID" (implicit (new "UniqueIdentifier") (ctxS 7)); ont "subjectUID" (implicit (new "UniqueIdentifier") (ctxS 8)); ont "extensions" (implicit (new "Extensions") (ctxC 9))])]);
  (235%N, SClass "CertRequest" (univ "Sequence") [set "componentType" (nts [nt "certReqId" (call0 (univ "Integer")); nt "certTemplate" (new "CertTemplate"); ont "controls" (new "Controls")])]);
  (243%N, SClass "CertReq" (EName "CertRequest") [SPass]);
  (247%N, SClass "CertReqMsg" (univ "Sequence") [set "componentType" (nts [nt "certReq" (new "CertRequest"); ont "pop" (new "ProofOfPossession"); ont "regInfo" (withsize (ECall (univ "SequenceOf") [] [("componentType", new "AttributeTypeAndValue")]) (sizec (EInt 1) (EName "MAX")))])]);
  (256%N, SClass "CertReqMessages" (univ "SequenceOf") [set "componentType" (new "CertReqMsg"); set "sizeSpec" (EBin OAdd (EAttr (univ "SequenceOf") "sizeSpec") (sizec (EInt 1) (EName "MAX")))])
].
