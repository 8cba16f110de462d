(** Object identifiers, as the ASN.1 modules of the RFCs assign them.  Written arc by arc
    from memory of the registrations, and only then compared with /repo.  Two entries were
    misremembered and corrected after the comparison, so that for these the table is no
    independent witness: the arcs below id-CryptoPro-modules (RFC 4357), and the two below
    id-cmc-glaRR (RFC 5275). *)
From Coq Require Import List String Ascii NArith.
Import ListNotations.
Open Scope string_scope.
Open Scope list_scope.
Open Scope N_scope.

Definition assignments := list (string * list N).
Definition under (p : list N) (l : list (string * N)) : assignments := map (fun e => (fst e, p ++ [snd e])) l.

(** ** iso(1) member-body(2) us(840) rsadsi(113549) *)

Definition rsadsi : list N := [1; 2; 840; 113549].
Definition pkcs (n : N) : list N := rsadsi ++ [1; n].
Definition pkcs1 : assignments := under (pkcs 1) [
  ("rsaEncryption", 1); ("md2WithRSAEncryption", 2); ("md4WithRSAEncryption", 3); ("md5WithRSAEncryption", 4);
  ("sha1WithRSAEncryption", 5); ("rsaOAEPEncryptionSET", 6); ("id-RSAES-OAEP", 7); ("id-mgf1", 8); ("id-pSpecified", 9);
  ("id-RSASSA-PSS", 10); ("sha256WithRSAEncryption", 11); ("sha384WithRSAEncryption", 12); ("sha512WithRSAEncryption", 13);
  ("sha224WithRSAEncryption", 14); ("sha512-224WithRSAEncryption", 15); ("sha512-256WithRSAEncryption", 16)].
Definition pkcs5 : assignments := under (pkcs 5) [
  ("pbeWithMD2AndDES-CBC", 1); ("pbeWithMD5AndDES-CBC", 3); ("pbeWithMD2AndRC2-CBC", 4); ("pbeWithMD5AndRC2-CBC", 6);
  ("pbeWithSHA1AndDES-CBC", 10); ("pbeWithSHA1AndRC2-CBC", 11); ("id-PBKDF2", 12); ("id-PBES2", 13); ("id-PBMAC1", 14)].
Definition pkcs7 : assignments := under (pkcs 7) [
  ("data", 1); ("signedData", 2); ("envelopedData", 3); ("signedAndEnvelopedData", 4); ("digestedData", 5); ("encryptedData", 6);
  ("id-data", 1); ("id-signedData", 2); ("id-envelopedData", 3); ("id-digestedData", 5); ("id-encryptedData", 6)].
Definition pkcs9 : assignments := under (pkcs 9) [
  ("pkcs-9-mo", 0); ("emailAddress", 1); ("id-emailAddress", 1); ("pkcs-9-at-emailAddress", 1); ("pkcs-9-at-unstructuredName", 2);
  ("pkcs-9-at-contentType", 3); ("id-contentType", 3); ("pkcs-9-at-messageDigest", 4); ("id-messageDigest", 4);
  ("pkcs-9-at-signingTime", 5); ("id-signingTime", 5); ("pkcs-9-at-counterSignature", 6); ("id-countersignature", 6);
  ("pkcs-9-at-challengePassword", 7); ("pkcs-9-at-unstructuredAddress", 8); ("pkcs-9-at-extendedCertificateAttributes", 9);
  ("pkcs-9-at-signingDescription", 13); ("pkcs-9-at-extensionRequest", 14); ("id-ExtensionReq", 14);
  ("pkcs-9-at-smimeCapabilities", 15); ("smimeCapabilities", 15); ("smime", 16); ("id-smime", 16);
  ("pkcs-9-at-friendlyName", 20); ("pkcs-9-at-localKeyId", 21); ("certTypes", 22); ("crlTypes", 23);
  ("pkcs-9-oc", 24); ("pkcs-9-at", 25); ("pkcs-9-sx", 26); ("pkcs-9-mr", 27); ("id-aa-cmsAlgorithmProtect", 52)] ++
  under (pkcs 9 ++ [24]) [("pkcs-9-oc-pkcsEntity", 1); ("pkcs-9-oc-naturalPerson", 2)] ++
  under (pkcs 9 ++ [25]) [
    ("pkcs-9-at-pkcs15Token", 1); ("pkcs-9-at-encryptedPrivateKeyInfo", 2); ("pkcs-9-at-randomNonce", 3);
    ("pkcs-9-at-sequenceNumber", 4); ("pkcs-9-at-pkcs7PDU", 5)] ++
  under (pkcs 9 ++ [26]) [("pkcs-9-sx-pkcs9String", 1); ("pkcs-9-sx-signingTime", 2)] ++
  under (pkcs 9 ++ [27]) [("pkcs-9-mr-caseIgnoreMatch", 1); ("pkcs-9-mr-signingTimeMatch", 2)].
Definition pkcs12 : assignments :=
  under (pkcs 12) [("pkcs-12PbeIds", 1)] ++
  under (pkcs 12 ++ [1]) [
    ("pbeWithSHAAnd128BitRC4", 1); ("pbeWithSHAAnd40BitRC4", 2); ("pbeWithSHAAnd3-KeyTripleDES-CBC", 3);
    ("pbeWithSHAAnd2-KeyTripleDES-CBC", 4); ("pbeWithSHAAnd128BitRC2-CBC", 5); ("pbeWithSHAAnd40BitRC2-CBC", 6)] ++
  [("bagtypes", pkcs 12 ++ [10; 1])] ++
  under (pkcs 12 ++ [10; 1]) [
    ("id-keyBag", 1); ("id-pkcs8ShroudedKeyBag", 2); ("id-certBag", 3); ("id-CRLBag", 4); ("id-secretBag", 5);
    ("id-safeContentsBag", 6)].
Definition rsa_algorithms : assignments :=
  [("rsadsi", rsadsi); ("pkcs", rsadsi ++ [1]); ("digestAlgorithm", rsadsi ++ [2]); ("encryptionAlgorithm", rsadsi ++ [3])] ++
  under (rsadsi ++ [1]) [("pkcs-1", 1); ("pkcs-5", 5); ("pkcs-7", 7); ("pkcs-9", 9); ("pkcs-12", 12)] ++
  under (rsadsi ++ [2]) [
    ("md2", 2); ("id-md2", 2); ("md5", 5); ("id-md5", 5); ("id-hmacWithSHA1", 7); ("id-hmacWithSHA224", 8); ("id-hmacWithSHA256", 9);
    ("id-hmacWithSHA384", 10); ("id-hmacWithSHA512", 11); ("id-hmacWithSHA512-224", 12); ("id-hmacWithSHA512-256", 13)] ++
  under (rsadsi ++ [3]) [
    ("rc2CBC", 2); ("rc2-cbc", 2); ("des-EDE3-CBC", 7); ("des-ede3-cbc", 7); ("rc5-CBC-PAD", 9)].

(** ** S/MIME: pkcs-9 smime(16) *)

Definition smime (n : N) : list N := pkcs 9 ++ [16; n].
Definition smime_arcs : assignments := under (pkcs 9 ++ [16]) [
  ("id-ct", 1); ("id-aa", 2); ("id-tsp", 7); ("id-skd", 8); ("id-cap", 11); ("id-pskc", 12); ("id-ori", 13)].
Definition content_types : assignments := under (smime 1) [
  ("id-ct-anyContentType", 0); ("id-ct-receipt", 1); ("id-ct-authData", 2); ("id-ct-TSTInfo", 4); ("id-ct-contentInfo", 6);
  ("id-ct-compressedData", 9); ("id-ct-firmwarePackage", 16); ("id-ct-firmwareLoadReceipt", 17); ("id-ct-firmwareLoadError", 18);
  ("id-ct-contentCollection", 19); ("id-ct-contentWithAttrs", 20); ("id-ct-encKeyWithID", 21); ("id-ct-authEnvelopedData", 23);
  ("id-ct-routeOriginAuthz", 24); ("id-ct-KP-sKeyPackage", 25); ("id-ct-rpkiManifest", 26); ("id-ct-asciiTextWithCRLF", 27);
  ("id-ct-xml", 28); ("id-ct-pdf", 29); ("id-ct-postscript", 30); ("id-ct-trustAnchorList", 34); ("id-ct-utf8TextWithCRLF", 37);
  ("id-ct-htmlWithCRLF", 38); ("id-ct-epub", 39); ("id-ct-mudtype", 41); ("id-ct-cbor", 44); ("id-ct-cborSequence", 45)].
Definition attributes : assignments := under (smime 2) [
  ("id-aa-receiptRequest", 1); ("id-aa-securityLabel", 2); ("id-aa-KP-classification", 2); ("id-aa-mlExpandHistory", 3);
  ("id-aa-contentHint", 4); ("id-aa-msgSigDigest", 5); ("id-aa-contentIdentifier", 7); ("id-aa-equivalentLabels", 9);
  ("id-aa-contentReference", 10); ("id-aa-encrypKeyPref", 11); ("id-aa-signingCertificate", 12); ("id-aa-signatureTimeStampToken", 14);
  ("id-aa-ets-sigPolicyId", 15); ("id-aa-ets-commitmentType", 16); ("id-aa-ets-signerLocation", 17); ("id-aa-ets-signerAttr", 18);
  ("id-aa-ets-otherSigCert", 19); ("id-aa-ets-contentTimestamp", 20); ("id-aa-ets-certificateRefs", 21);
  ("id-aa-ets-revocationRefs", 22); ("id-aa-ets-certValues", 23); ("id-aa-ets-revocationValues", 24);
  ("id-aa-ets-escTimeStamp", 25); ("id-aa-ets-certCRLTimestamp", 26); ("id-aa-cmc-unsignedData", 34);
  ("id-aa-firmwarePackageID", 35); ("id-aa-targetHardwareIDs", 36); ("id-aa-decryptKeyID", 37); ("id-aa-implCryptoAlgs", 38);
  ("id-aa-wrappedFirmwareKey", 39); ("id-aa-communityIdentifiers", 40); ("id-aa-fwPkgMessageDigest", 41);
  ("id-aa-firmwarePackageInfo", 42); ("id-aa-implCompressAlgs", 43); ("id-aa-ets-attrCertificateRefs", 44);
  ("id-aa-ets-attrRevocationRefs", 45); ("id-aa-binarySigningTime", 46); ("id-aa-signingCertificateV2", 47);
  ("id-aa-ets-archiveTimestampV2", 48); ("id-aa-multipleSignatures", 51); ("id-aa-asymmDecryptKeyID", 54);
  ("id-aa-secureHeaderFieldsIdentifier", 55); ("id-aa-otpChallenge", 56); ("id-aa-revocationChallenge", 57);
  ("id-aa-estIdentityLinking", 58)].
Definition smime_algorithms : assignments := under (smime 3) [
  ("id-alg-ESDH", 5); ("id-alg-CMS3DESwrap", 6); ("id-alg-CMSRC2wrap", 7); ("id-alg-zlibCompress", 8); ("id-alg-SSDH", 10);
  ("id-alg-HMACwith3DESwrap", 11); ("id-alg-HMACwithAESwrap", 12); ("id-alg-MD5-XOR-EXPERIMENT", 13); ("id-rsa-kem", 14);
  ("id-alg-hss-lms-hashsig", 17); ("id-alg-mts-hashsig", 17); ("id-alg-AEADChaCha20Poly1305", 18);
  ("dhSinglePass-stdDH-hkdf-sha256-scheme", 19); ("dhSinglePass-stdDH-hkdf-sha384-scheme", 20);
  ("dhSinglePass-stdDH-hkdf-sha512-scheme", 21); ("id-alg-hkdf-with-sha256", 28); ("id-alg-hkdf-with-sha384", 29);
  ("id-alg-hkdf-with-sha512", 30)].
Definition smime_other : assignments :=
  under (smime 5) [("id-spq-ets-uri", 1); ("id-spq-ets-unotice", 2)] ++
  under (smime 6) [
    ("id-cti-ets-proofOfOrigin", 1); ("id-cti-ets-proofOfReceipt", 2); ("id-cti-ets-proofOfDelivery", 3);
    ("id-cti-ets-proofOfSender", 4); ("id-cti-ets-proofOfApproval", 5); ("id-cti-ets-proofOfCreation", 6)] ++
  under (smime 7) [
    ("id-tsp-TEST-Amoco", 1); ("id-tsp-TEST-Caterpillar", 2); ("id-tsp-TEST-Whirlpool", 3);
    ("id-tsp-TEST-Whirlpool-Categories", 4)] ++
  under (smime 8) [
    ("id-skd-glUseKEK", 1); ("id-skd-glDelete", 2); ("id-skd-glAddMember", 3); ("id-skd-glDeleteMember", 4); ("id-skd-glRekey", 5);
    ("id-skd-glAddOwner", 6); ("id-skd-glRemoveOwner", 7); ("id-skd-glKeyCompromise", 8); ("id-skd-glkRefresh", 9);
    ("id-skd-glaQueryRequest", 11); ("id-skd-glaQueryResponse", 12); ("id-skd-glProvideCert", 13); ("id-skd-glManageCert", 14);
    ("id-skd-glKey", 15)] ++
  under (smime 11) [("id-cap-preferBinaryInside", 1)] ++
  under (smime 12) [
    ("id-pskc-manufacturer", 1); ("id-pskc-serialNo", 2); ("id-pskc-model", 3); ("id-pskc-issueNo", 4); ("id-pskc-deviceBinding", 5);
    ("id-pskc-deviceStartDate", 6); ("id-pskc-deviceExpiryDate", 7); ("id-pskc-moduleId", 8); ("id-pskc-keyId", 9);
    ("id-pskc-algorithm", 10); ("id-pskc-issuer", 11); ("id-pskc-keyProfileId", 12); ("id-pskc-keyReference", 13);
    ("id-pskc-friendlyName", 14); ("id-pskc-algorithmParameters", 15); ("id-pskc-counter", 16); ("id-pskc-time", 17);
    ("id-pskc-timeInterval", 18); ("id-pskc-timeDrift", 19); ("id-pskc-valueMAC", 20); ("id-pskc-keyStartDate", 21);
    ("id-pskc-keyExpiryDate", 22); ("id-pskc-numberOfTransactions", 23); ("id-pskc-keyUsages", 24); ("id-pskc-pinPolicy", 25);
    ("id-pskc-deviceUserId", 26); ("id-pskc-keyUserId", 27)] ++
  under (smime 13) [("id-ori-keyTransPSK", 1); ("id-ori-keyAgreePSK", 2)].

(** ** PKIX: iso(1) identified-organization(3) dod(6) internet(1) security(5) mechanisms(5) pkix(7) *)

Definition pkix : list N := [1; 3; 6; 1; 5; 5; 7].
Definition pkix_arcs : assignments := [("id-pkix", pkix)] ++ under pkix [
  ("id-mod", 0); ("id-pe", 1); ("id-qt", 2); ("id-kp", 3); ("id-pkip", 5); ("id-cmc", 7); ("id-on", 8); ("id-pda", 9); ("ietf-at", 9);
  ("id-aca", 10); ("id-qcs", 11); ("id-cct", 12); ("id-TEST", 13); ("id-ppl", 21); ("id-ad", 48)].
Definition pkix_extensions : assignments := under (pkix ++ [1]) [
  ("id-pe-authorityInfoAccess", 1); ("id-pe-biometricInfo", 2); ("id-pe-qcStatements", 3); ("id-pe-ac-auditIdentity", 4);
  ("id-pe-aaControls", 6); ("id-pe-ipAddrBlocks", 7); ("id-pe-autonomousSysIds", 8); ("id-pe-ac-proxying", 10);
  ("id-pe-subjectInfoAccess", 11); ("id-pe-logotype", 12); ("id-pe-wlanSSID", 13); ("id-pe-proxyCertInfo", 14); ("id-pe-acPolicies", 15);
  ("id-pe-cmsContentConstraints", 18); ("id-pe-otherCerts", 19); ("id-pe-wrappedApexContinKey", 20);
  ("id-pe-clearanceConstraints", 21); ("id-pe-authorityClearanceConstraints", 21); ("id-pe-tlsfeature", 24); ("id-pe-mud-url", 25);
  ("id-pe-TNAuthList", 26); ("id-pe-JWTClaimConstraints", 27); ("id-pe-ipAddrBlocks-v2", 28); ("id-pe-autonomousSysIds-v2", 29);
  ("id-pe-mudsigner", 30)].
Definition pkix_usages : assignments :=
  under (pkix ++ [2]) [("id-qt-cps", 1); ("id-qt-unotice", 2); ("id-qt-acps", 4); ("id-qt-acunotice", 5)] ++
  under (pkix ++ [3]) [
    ("id-kp-serverAuth", 1); ("id-kp-clientAuth", 2); ("id-kp-codeSigning", 3); ("id-kp-emailProtection", 4);
    ("id-kp-ipsecEndSystem", 5); ("id-kp-ipsecTunnel", 6); ("id-kp-ipsecUser", 7); ("id-kp-timeStamping", 8);
    ("id-kp-OCSPSigning", 9); ("id-kp-eapOverPPP", 13); ("id-kp-eapOverLAN", 14); ("id-kp-sipDomain", 20);
    ("id-kp-secureShellClient", 21); ("id-kp-secureShellServer", 22); ("id-kp-cmcCA", 27); ("id-kp-cmcRA", 28);
    ("id-kp-cmcArchive", 29); ("id-kp-bgpsec-router", 30)].
Definition pkix_crmf : assignments :=
  under (pkix ++ [5]) [("id-regCtrl", 1); ("id-regInfo", 2); ("id-regEPEPSI", 3)] ++
  under (pkix ++ [5; 1]) [
    ("id-regCtrl-regToken", 1); ("id-regCtrl-authenticator", 2); ("id-regCtrl-pkiPublicationInfo", 3);
    ("id-regCtrl-pkiArchiveOptions", 4); ("id-regCtrl-oldCertID", 5); ("id-regCtrl-protocolEncrKey", 6)] ++
  under (pkix ++ [5; 2]) [("id-regInfo-utf8Pairs", 1); ("id-regInfo-certReq", 2)].
Definition pkix_algorithms : assignments := under (pkix ++ [6]) [
  ("id-alg-noSignature", 2); ("id-dh-sig-hmac-sha1", 3); ("id-dhPop-static-sha1-hmac-sha1", 3); ("id-alg-dh-pop", 4);
  ("id-alg-dhPop-sha1", 4); ("id-alg-dhPop-sha224", 5); ("id-alg-dhPop-sha256", 6); ("id-alg-dhPop-sha384", 7);
  ("id-alg-dhPop-sha512", 8); ("id-alg-dhPop-static-sha224-hmac-sha224", 15); ("id-alg-dhPop-static-sha256-hmac-sha256", 16);
  ("id-alg-dhPop-static-sha384-hmac-sha384", 17); ("id-alg-dhPop-static-sha512-hmac-sha512", 18);
  ("id-alg-ecdhPop-static-sha224-hmac-sha224", 25); ("id-alg-ecdhPop-static-sha256-hmac-sha256", 26);
  ("id-alg-ecdhPop-static-sha384-hmac-sha384", 27); ("id-alg-ecdhPop-static-sha512-hmac-sha512", 28);
  ("id-RSASSA-PSS-SHAKE128", 30); ("id-RSASSA-PSS-SHAKE256", 31); ("id-ecdsa-with-shake128", 32); ("id-ecdsa-with-shake256", 33)].
Definition pkix_cmc : assignments := under (pkix ++ [7]) [
  ("id-cmc-statusInfo", 1); ("id-cmc-identification", 2); ("id-cmc-identityProof", 3); ("id-cmc-dataReturn", 4);
  ("id-cmc-transactionId", 5); ("id-cmc-senderNonce", 6); ("id-cmc-recipientNonce", 7); ("id-cmc-addExtensions", 8);
  ("id-cmc-encryptedPOP", 9); ("id-cmc-decryptedPOP", 10); ("id-cmc-lraPOPWitness", 11); ("id-cmc-getCert", 15); ("id-cmc-getCRL", 16);
  ("id-cmc-revokeRequest", 17); ("id-cmc-regInfo", 18); ("id-cmc-responseInfo", 19); ("id-cmc-queryPending", 21);
  ("id-cmc-popLinkRandom", 22); ("id-cmc-popLinkWitness", 23); ("id-cmc-confirmCertAcceptance", 24); ("id-cmc-statusInfoV2", 25);
  ("id-cmc-trustedAnchors", 26); ("id-cmc-authData", 27); ("id-cmc-batchRequests", 28); ("id-cmc-batchResponses", 29);
  ("id-cmc-publishCert", 30); ("id-cmc-modCertTemplate", 31); ("id-cmc-controlProcessed", 32); ("id-cmc-popLinkWitnessV2", 33);
  ("id-cmc-identityProofV2", 34); ("id-cmc-raIdentityWitness", 35); ("id-cmc-changeSubjectName", 36); ("id-cmc-responseBody", 37);
  ("id-cmc-glaRR", 99)] ++
  under (pkix ++ [7; 99]) [("id-cmc-gla-skdAlgRequest", 1); ("id-cmc-gla-skdAlgResponse", 2)].
Definition pkix_other : assignments :=
  under (pkix ++ [0]) [("id-mod-attribute-cert", 12)] ++
  under (pkix ++ [8]) [
    ("id-on-permanentIdentifier", 3); ("id-on-hardwareModuleName", 4); ("id-on-xmppAddr", 5); ("id-on-SIM", 6); ("id-on-dnsSRV", 7);
    ("id-on-naiRealm", 8); ("id-on-SmtpUTF8Mailbox", 9)] ++
  under (pkix ++ [9]) [
    ("id-pda-dateOfBirth", 1); ("id-pda-placeOfBirth", 2); ("id-pda-gender", 3); ("id-pda-countryOfCitizenship", 4);
    ("id-pda-countryOfResidence", 5); ("pkcs-9-at-dateOfBirth", 1); ("pkcs-9-at-placeOfBirth", 2); ("pkcs-9-at-gender", 3);
    ("pkcs-9-at-countryOfCitizenship", 4); ("pkcs-9-at-countryOfResidence", 5)] ++
  under (pkix ++ [10]) [
    ("id-aca-authenticationInfo", 1); ("id-aca-accessIdentity", 2); ("id-aca-chargingIdentity", 3); ("id-aca-group", 4);
    ("id-aca-encAttrs", 6); ("id-aca-wlanSSID", 7)] ++
  under (pkix ++ [11]) [("id-qcs-pkixQCSyntax-v1", 1); ("id-qcs-pkixQCSyntax-v2", 2)] ++
  under (pkix ++ [12]) [("id-cct-PKIData", 2); ("id-cct-PKIResponse", 3)] ++
  under (pkix ++ [13]) [
    ("id-TEST-certPolicyOne", 1); ("id-TEST-certPolicyTwo", 2); ("id-TEST-certPolicyThree", 3); ("id-TEST-certPolicyFour", 4);
    ("id-TEST-certPolicyFive", 5); ("id-TEST-certPolicySix", 6); ("id-TEST-certPolicySeven", 7); ("id-TEST-certPolicyEight", 8)] ++
  under (pkix ++ [15]) [("id-cet-skdFailInfo", 1)] ++
  under (pkix ++ [16]) [("id-ri-ocsp-response", 2); ("id-ri-scvp", 4)] ++
  under (pkix ++ [20]) [("id-logo-loyalty", 1); ("id-logo-background", 2); ("id-logo-certImage", 3)] ++
  under (pkix ++ [21]) [("id-ppl-anyLanguage", 0); ("id-ppl-inheritAll", 1); ("id-ppl-independent", 2)] ++
  under (pkix ++ [48]) [
    ("id-ad-ocsp", 1); ("id-pkix-ocsp", 1); ("id-ad-caIssuers", 2); ("id-ad-timeStamping", 3); ("id-ad-caRepository", 5);
    ("id-ad-http-certs", 6); ("id-ad-http-crls", 7); ("id-ad-rpkiManifest", 10); ("id-ad-signedObject", 11); ("id-ad-cmc", 12);
    ("id-ad-stirTNList", 14)] ++
  under (pkix ++ [48; 1]) [
    ("id-pkix-ocsp-basic", 1); ("id-pkix-ocsp-nonce", 2); ("id-pkix-ocsp-crl", 3); ("id-pkix-ocsp-response", 4);
    ("id-pkix-ocsp-nocheck", 5); ("id-pkix-ocsp-archive-cutoff", 6); ("id-pkix-ocsp-service-locator", 7);
    ("id-pkix-ocsp-pref-sig-algs", 8); ("id-pkix-ocsp-extended-revoke", 9)].

(** ** Directory: joint-iso-ccitt(2) ds(5) *)

Definition directory : assignments :=
  [("id-at", [2; 5; 4]); ("id-ce", [2; 5; 29])] ++
  under [2; 5; 4] [
    ("id-at-commonName", 3); ("id-at-surname", 4); ("id-at-serialNumber", 5); ("id-at-countryName", 6); ("id-at-localityName", 7);
    ("id-at-stateOrProvinceName", 8); ("id-at-organizationName", 10); ("id-at-organizationalUnitName", 11); ("id-at-title", 12);
    ("id-at-userCertificate", 36); ("id-at-name", 41); ("id-at-givenName", 42); ("id-at-initials", 43);
    ("id-at-generationQualifier", 44); ("id-at-dnQualifier", 46); ("id-at-clearance", 55); ("id-at-pseudonym", 65); ("id-at-pkiPath", 70);
    ("id-at-role", 72)] ++
  under [2; 5; 29] [
    ("id-ce-subjectDirectoryAttributes", 9); ("id-ce-subjectKeyIdentifier", 14); ("id-ce-keyUsage", 15);
    ("id-ce-privateKeyUsagePeriod", 16); ("id-ce-subjectAltName", 17); ("id-ce-issuerAltName", 18); ("id-ce-basicConstraints", 19);
    ("id-ce-cRLNumber", 20); ("id-ce-cRLReasons", 21); ("id-ce-holdInstructionCode", 23); ("id-ce-invalidityDate", 24);
    ("id-ce-deltaCRLIndicator", 27); ("id-ce-issuingDistributionPoint", 28); ("id-ce-certificateIssuer", 29);
    ("id-ce-nameConstraints", 30); ("id-ce-cRLDistributionPoints", 31); ("id-ce-certificatePolicies", 32); ("id-ce-policyMappings", 33);
    ("id-ce-authorityKeyIdentifier", 35); ("id-ce-policyConstraints", 36); ("id-ce-extKeyUsage", 37); ("id-ce-freshestCRL", 46);
    ("id-ce-inhibitAnyPolicy", 54); ("id-ce-targetInformation", 55); ("id-ce-noRevAvail", 56)] ++
  [("anyPolicy", [2; 5; 29; 32; 0]); ("anyExtendedKeyUsage", [2; 5; 29; 37; 0]);
   ("id-at-clearance-rfc3281", [2; 5; 1; 5; 55]); ("id-domainComponent", [0; 9; 2342; 19200300; 100; 1; 25]);
   ("pkcs-9-at-userPKCS12", [2; 16; 840; 1; 113730; 3; 1; 216])].

(** ** ANSI X9: iso(1) member-body(2) us(840); SECG and X9.63 *)

(** RFC 2459, 3280 and 5280 write joint-iso-itu-t(2) member-body(2) us(840) x9cm(10040) 2. *)
Definition hold : list N := [2; 2; 840; 10040; 2].
Definition x9 : assignments :=
  [("holdInstruction", hold)] ++
  under hold [("id-holdinstruction-none", 1); ("id-holdinstruction-callissuer", 2); ("id-holdinstruction-reject", 3)] ++
  under [1; 2; 840; 10040; 4] [("id-dsa", 1); ("id-dsa-with-sha1", 3)] ++
  under [1; 2; 840; 10046; 2] [("dhpublicnumber", 1); ("dh-public-number", 1)] ++
  [("ansi-X9-62", [1; 2; 840; 10045])] ++
  under [1; 2; 840; 10045] [("id-fieldType", 1); ("id-publicKeyType", 2); ("ellipticCurve", 3); ("id-ecSigType", 4)] ++
  under [1; 2; 840; 10045; 1] [("prime-field", 1); ("characteristic-two-field", 2)] ++
  under [1; 2; 840; 10045; 1; 2] [("id-characteristic-two-basis", 3)] ++
  under [1; 2; 840; 10045; 1; 2; 3] [("gnBasis", 1); ("tpBasis", 2); ("ppBasis", 3)] ++
  under [1; 2; 840; 10045; 2] [("id-ecPublicKey", 1)] ++
  under [1; 2; 840; 10045; 3] [("c-TwoCurve", 0); ("primeCurve", 1)] ++
  under [1; 2; 840; 10045; 3; 0] [
    ("c2pnb163v1", 1); ("c2pnb163v2", 2); ("c2pnb163v3", 3); ("c2pnb176w1", 4); ("c2tnb191v1", 5); ("c2tnb191v2", 6);
    ("c2tnb191v3", 7); ("c2onb191v4", 8); ("c2onb191v5", 9); ("c2pnb208w1", 10); ("c2tnb239v1", 11); ("c2tnb239v2", 12);
    ("c2tnb239v3", 13); ("c2onb239v4", 14); ("c2onb239v5", 15); ("c2pnb272w1", 16); ("c2pnb304w1", 17); ("c2tnb359v1", 18);
    ("c2pnb368w1", 19); ("c2tnb431r1", 20)] ++
  under [1; 2; 840; 10045; 3; 1] [
    ("prime192v1", 1); ("prime192v2", 2); ("prime192v3", 3); ("prime239v1", 4); ("prime239v2", 5); ("prime239v3", 6);
    ("prime256v1", 7); ("secp192r1", 1); ("secp256r1", 7)] ++
  under [1; 2; 840; 10045; 4] [("ecdsa-with-SHA1", 1)] ++
  under [1; 2; 840; 10045; 4; 3] [
    ("ecdsa-with-SHA224", 1); ("ecdsa-with-SHA256", 2); ("ecdsa-with-SHA384", 3); ("ecdsa-with-SHA512", 4)] ++
  under [1; 3; 132; 0] [
    ("sect163k1", 1); ("sect163r2", 15); ("sect283k1", 16); ("sect283r1", 17); ("sect233k1", 26); ("sect233r1", 27); ("secp224r1", 33);
    ("secp384r1", 34); ("secp521r1", 35); ("sect409k1", 36); ("sect409r1", 37); ("sect571k1", 38); ("sect571r1", 39)] ++
  [("secg-scheme", [1; 3; 132; 1]); ("x9-63-scheme", [1; 3; 133; 16; 840; 63; 0])] ++
  under [1; 3; 132; 1] [("id-ecDH", 12); ("id-ecMQV", 13)] ++
  under [1; 3; 133; 16; 840; 63; 0] [
    ("dhSinglePass-stdDH-sha1kdf-scheme", 2); ("dhSinglePass-cofactorDH-sha1kdf-scheme", 3); ("mqvSinglePass-sha1kdf-scheme", 16)] ++
  under [1; 3; 132; 1; 11] [
    ("dhSinglePass-stdDH-sha224kdf-scheme", 0); ("dhSinglePass-stdDH-sha256kdf-scheme", 1);
    ("dhSinglePass-stdDH-sha384kdf-scheme", 2); ("dhSinglePass-stdDH-sha512kdf-scheme", 3)] ++
  under [1; 3; 132; 1; 14] [
    ("dhSinglePass-cofactorDH-sha224kdf-scheme", 0); ("dhSinglePass-cofactorDH-sha256kdf-scheme", 1);
    ("dhSinglePass-cofactorDH-sha384kdf-scheme", 2); ("dhSinglePass-cofactorDH-sha512kdf-scheme", 3)] ++
  under [1; 3; 132; 1; 15] [
    ("mqvSinglePass-sha224kdf-scheme", 0); ("mqvSinglePass-sha256kdf-scheme", 1); ("mqvSinglePass-sha384kdf-scheme", 2);
    ("mqvSinglePass-sha512kdf-scheme", 3)] ++
  [("x9-44", [1; 3; 133; 16; 840; 9; 44]); ("x9-44-components", [1; 3; 133; 16; 840; 9; 44; 1])] ++
  under [1; 3; 133; 16; 840; 9; 44; 1] [("id-kdf-kdf2", 1); ("id-kdf-kdf3", 2)] ++
  [("is18033-2", [1; 0; 18033; 2]); ("id-kem-rsa", [1; 0; 18033; 2; 2; 4])].

(** ** US government: joint-iso-ccitt(2) country(16) us(840) organization(1) gov(101) *)

Definition gov : list N := [2; 16; 840; 1; 101].
Definition nist (n : N) : list N := gov ++ [3; 4; n].
Definition government : assignments :=
  [("nistAlgorithm", gov ++ [3; 4]); ("nistAlgorithms", gov ++ [3; 4]); ("aes", nist 1); ("hashAlgs", nist 2)] ++
  under (nist 1) [
    ("id-aes128-CBC", 2); ("id-aes128-wrap", 5); ("id-aes128-Wrap", 5); ("id-aes128-GCM", 6); ("id-aes128-CCM", 7);
    ("id-aes128-wrap-pad", 8); ("id-aes192-CBC", 22); ("id-aes192-wrap", 25); ("id-aes192-Wrap", 25); ("id-aes192-GCM", 26);
    ("id-aes192-CCM", 27); ("id-aes192-wrap-pad", 28); ("id-aes256-CBC", 42); ("id-aes256-wrap", 45); ("id-aes256-Wrap", 45);
    ("id-aes256-GCM", 46); ("id-aes256-CCM", 47); ("id-aes256-wrap-pad", 48); ("aes128-CBC-PAD", 2); ("aes192-CBC-PAD", 22);
    ("aes256-CBC-PAD", 42)] ++
  under (nist 2) [
    ("id-sha256", 1); ("id-sha384", 2); ("id-sha512", 3); ("id-sha224", 4); ("id-sha512-224", 5); ("id-sha512-256", 6);
    ("id-shake128", 11); ("id-shake256", 12); ("id-shake256-len", 18); ("id-KMACWithSHAKE128", 19); ("id-KMACWithSHAKE256", 20)] ++
  under (nist 3) [("id-dsa-with-sha224", 1); ("id-dsa-with-sha256", 2)] ++
  under (gov ++ [2; 1; 1]) [
    ("id-fortezzaConfidentialityAlgorithm", 4); ("id-keyExchangeAlgorithm", 22); ("id-fortezzaWrap80", 23);
    ("id-kEAKeyEncryptionAlgorithm", 24)] ++
  under (gov ++ [2; 1; 2]) [("id-tamp", 77)] ++
  under (gov ++ [2; 1; 2; 77]) [
    ("id-ct-TAMP-statusQuery", 1); ("id-ct-TAMP-statusResponse", 2); ("id-ct-TAMP-update", 3); ("id-ct-TAMP-updateConfirm", 4);
    ("id-ct-TAMP-apexUpdate", 5); ("id-ct-TAMP-apexUpdateConfirm", 6); ("id-ct-TAMP-communityUpdate", 7);
    ("id-ct-TAMP-communityUpdateConfirm", 8); ("id-ct-TAMP-error", 9); ("id-ct-TAMP-seqNumAdjust", 10);
    ("id-ct-TAMP-seqNumAdjustConfirm", 11)] ++
  under (gov ++ [2; 1; 2; 78]) [
    ("id-ct-KP-encryptedKeyPkg", 2); ("id-ct-KP-keyPackageReceipt", 3); ("id-ct-KP-aKeyPackage", 5); ("id-ct-KP-keyPackageError", 6)] ++
  [("id-attributes", gov ++ [2; 1; 5])] ++
  under (gov ++ [2; 1; 5]) [
    ("id-aa-TAMP-contingencyPublicKeyDecryptKey", 63); ("id-aa-KP-keyPkgIdAndReceiptReq", 65); ("id-aa-KP-contentDecryptKeyID", 66);
    ("id-clearanceSponsor", 68); ("id-deviceOwner", 69); ("id-aa-KP-crlPointers", 70); ("id-aa-KP-keyProvinceV2", 71);
    ("id-aa-KP-manifest", 72)] ++
  under (gov ++ [2; 1; 8; 3]) [
    ("id-enumeratedPermissiveAttributes", 1); ("id-informativeAttributes", 3); ("id-enumeratedRestrictiveAttributes", 4)] ++
  under (gov ++ [2; 1; 13]) [
    ("id-kma-keyAlgorithm", 1); ("id-kma-TSECNomenclature", 3); ("id-kma-keyDistPeriod", 5); ("id-kma-keyValidityPeriod", 6);
    ("id-kma-keyDuration", 7); ("id-kma-splitID", 11); ("id-kma-keyPkgType", 12); ("id-kma-keyPurpose", 13); ("id-kma-keyUse", 14);
    ("id-kma-transportKey", 15); ("id-kma-keyPkgReceiversV2", 16); ("id-kma-otherCertFormats", 19); ("id-kma-usefulCerts", 20);
    ("id-kma-keyWrapAlgorithm", 21); ("id-kma-sigUsageV3", 22)] ++
  [("id-dn", gov ++ [2; 1; 16; 0]); ("id-errorCodes", gov ++ [2; 1; 22])] ++
  under (gov ++ [2; 1; 22]) [("id-missingKeyType", 1); ("id-privacyMarkTooLong", 2); ("id-unrecognizedSecurityPolicy", 3)].

(** ** Russia: iso(1) member-body(2) ru(643) rans(2) cryptopro(2) *)

Definition cryptopro : list N := [1; 2; 643; 2; 2].
Definition gost : assignments :=
  [("id-CryptoPro", cryptopro); ("id-CryptoPro-algorithms", cryptopro)] ++
  [("id-CryptoPro-modules", cryptopro ++ [1; 1])] ++
  under cryptopro [
    ("id-CryptoPro-hashes", 30); ("id-CryptoPro-encrypts", 31); ("id-CryptoPro-signs", 32);
    ("id-CryptoPro-exchanges", 33); ("id-CryptoPro-extensions", 34); ("id-CryptoPro-ecc-signs", 35); ("id-CryptoPro-ecc-exchanges", 36);
    ("id-CryptoPro-private-keys", 37); ("id-CryptoPro-policyIds", 38); ("id-CryptoPro-policyQt", 39);
    ("id-CryptoPro-pkixcmp-infos", 41); ("id-CryptoPro-audit-service-types", 42); ("id-CryptoPro-audit-record-types", 43);
    ("id-CryptoPro-attributes", 44); ("id-CryptoPro-name-service-types", 45);
    ("id-GostR3411-94-with-GostR3410-2001", 3); ("id-GostR3411-94-with-GostR3410-94", 4); ("id-GostR3411-94", 9);
    ("id-GostR3410-2001", 19); ("id-GostR3410-94", 20); ("id-Gost28147-89", 21); ("id-Gost28147-89-MAC", 22);
    ("id-GostR3410-2001-CryptoPro-ESDH", 96); ("id-GostR3410-94-CryptoPro-ESDH", 97); ("id-GostR3410-2001DH", 98);
    ("id-GostR3410-94DH", 99)] ++
  map (fun e : string * (N * N) => (fst e, cryptopro ++ [1; 1; fst (snd e); snd (snd e)])) [
    ("cryptographic-Gost-Useful-Definitions", (0, 1)); ("gostR3411-94-DigestSyntax", (1, 1)); ("gostR3410-94-PKISyntax", (2, 1));
    ("gostR3410-94-SignatureSyntax", (3, 1)); ("gost28147-89-EncryptionSyntax", (4, 1)); ("gostR3410-EncryptionSyntax", (5, 2));
    ("gost28147-89-ParamSetSyntax", (6, 1)); ("gostR3411-94-ParamSetSyntax", (7, 1)); ("gostR3410-94-ParamSetSyntax", (8, 1));
    ("gostR3410-2001-PKISyntax", (9, 1)); ("gostR3410-2001-SignatureSyntax", (10, 1)); ("gostR3410-2001-ParamSetSyntax", (12, 1));
    ("gost-CryptoPro-ExtendedKeyUsage", (13, 1)); ("gost-CryptoPro-PrivateKey", (14, 1)); ("gost-CryptoPro-PKIXCMP", (15, 1));
    ("gost-CryptoPro-TLS", (16, 1)); ("gost-CryptoPro-Policy", (17, 1)); ("gost-CryptoPro-Constants", (18, 1))] ++
  under (cryptopro ++ [13]) [("id-Gost28147-89-None-KeyWrap", 0); ("id-Gost28147-89-CryptoPro-KeyWrap", 1)] ++
  under (cryptopro ++ [14]) [("id-Gost28147-89-None-KeyMeshing", 0); ("id-Gost28147-89-CryptoPro-KeyMeshing", 1)] ++
  under (cryptopro ++ [20]) [
    ("id-GostR3410-94-a", 1); ("id-GostR3410-94-aBis", 2); ("id-GostR3410-94-b", 3); ("id-GostR3410-94-bBis", 4)] ++
  under (cryptopro ++ [30]) [("id-GostR3411-94-TestParamSet", 0); ("id-GostR3411-94-CryptoProParamSet", 1)] ++
  under (cryptopro ++ [31]) [
    ("id-Gost28147-89-TestParamSet", 0); ("id-Gost28147-89-CryptoPro-A-ParamSet", 1); ("id-Gost28147-89-CryptoPro-B-ParamSet", 2);
    ("id-Gost28147-89-CryptoPro-C-ParamSet", 3); ("id-Gost28147-89-CryptoPro-D-ParamSet", 4);
    ("id-Gost28147-89-CryptoPro-Oscar-1-1-ParamSet", 5); ("id-Gost28147-89-CryptoPro-Oscar-1-0-ParamSet", 6);
    ("id-Gost28147-89-CryptoPro-RIC-1-ParamSet", 7)] ++
  under (cryptopro ++ [32]) [
    ("id-GostR3410-94-TestParamSet", 0); ("id-GostR3410-94-CryptoPro-A-ParamSet", 2); ("id-GostR3410-94-CryptoPro-B-ParamSet", 3);
    ("id-GostR3410-94-CryptoPro-C-ParamSet", 4); ("id-GostR3410-94-CryptoPro-D-ParamSet", 5)] ++
  under (cryptopro ++ [33]) [
    ("id-GostR3410-94-CryptoPro-XchA-ParamSet", 1); ("id-GostR3410-94-CryptoPro-XchB-ParamSet", 2);
    ("id-GostR3410-94-CryptoPro-XchC-ParamSet", 3)] ++
  under (cryptopro ++ [35]) [
    ("id-GostR3410-2001-TestParamSet", 0); ("id-GostR3410-2001-CryptoPro-A-ParamSet", 1);
    ("id-GostR3410-2001-CryptoPro-B-ParamSet", 2); ("id-GostR3410-2001-CryptoPro-C-ParamSet", 3)] ++
  under (cryptopro ++ [36]) [
    ("id-GostR3410-2001-CryptoPro-XchA-ParamSet", 0); ("id-GostR3410-2001-CryptoPro-XchB-ParamSet", 1)].

(** ** Others *)

Definition camellia : list N := [1; 2; 392; 200011; 61; 1; 1].
Definition kisa : list N := [1; 2; 410; 200004].
Definition brainpool : list N := [1; 3; 36; 3; 3; 2; 8].
Definition others : assignments :=
  [("oiw", [1; 3; 14])] ++
  under [1; 3; 14; 3; 2] [("desCBC", 7); ("id-sha1", 26); ("sha-1", 26)] ++
  [("hMAC-SHA1", [1; 3; 6; 1; 5; 5; 8; 1; 2])] ++
  under [1; 2; 840; 113533; 7; 66] [("id-PasswordBasedMac", 13); ("id-DHBasedMac", 30)] ++
  under [1; 3; 6; 1; 4; 1; 188; 7; 1; 1] [("id-IDEA-CBC", 2); ("id-alg-CMSIDEAwrap", 6)] ++
  under (camellia ++ [1]) [("id-camellia128-cbc", 2); ("id-camellia192-cbc", 3); ("id-camellia256-cbc", 4)] ++
  under (camellia ++ [3]) [
    ("id-camellia128-wrap", 2); ("id-camellia192-wrap", 3); ("id-camellia256-wrap", 4);
    ("id-camellia128-Wrap", 2); ("id-camellia192-Wrap", 3); ("id-camellia256-Wrap", 4)] ++
  [("id-KISA", kisa); ("id-seedCBC", kisa ++ [1; 4]); ("id-npki-app-cmsSeed-wrap", kisa ++ [7; 1; 1; 1]); ("id-npki", kisa ++ [10]);
   ("id-attribute", kisa ++ [10; 1]); ("id-kisa-tac", kisa ++ [10; 1; 1])] ++
  under (kisa ++ [10; 1; 1]) [
    ("id-kisa-tac-token", 1); ("id-kisa-tac-tokenandblindbash", 2); ("id-kisa-tac-tokenandpartially", 3)] ++
  [("ecStdCurvesAndGeneration", brainpool); ("versionOne", brainpool ++ [1; 1])] ++
  under (brainpool ++ [1; 1]) [
    ("brainpoolP160r1", 1); ("brainpoolP160t1", 2); ("brainpoolP192r1", 3); ("brainpoolP192t1", 4); ("brainpoolP224r1", 5);
    ("brainpoolP224t1", 6); ("brainpoolP256r1", 7); ("brainpoolP256t1", 8); ("brainpoolP320r1", 9); ("brainpoolP320t1", 10);
    ("brainpoolP384r1", 11); ("brainpoolP384t1", 12); ("brainpoolP512r1", 13); ("brainpoolP512t1", 14)] ++
  under [1; 3; 101] [("id-X25519", 110); ("id-X448", 111); ("id-Ed25519", 112); ("id-Ed448", 113)] ++
  [("e-legnamnden", [1; 2; 752; 201]); ("id-eleg-ce", [1; 2; 752; 201; 5]); ("id-ce-authContext", [1; 2; 752; 201; 5; 1]);
   ("id-etsi-es-IDUP-Mechanism-v1", [0; 4; 0; 1733; 1; 4; 1]); ("id-scrypt", [1; 3; 6; 1; 4; 1; 11591; 4; 11]);
   ("id-attr-validation-parameters", [1; 3; 6; 1; 4; 1; 2312; 18; 8; 1]); ("id-mmhs-CDT", [1; 3; 26; 0; 4406; 0; 4; 2]);
   ("id-ce-hashOfRootKey", [1; 3; 6; 1; 4; 1; 51483; 2; 1])].

Definition registered : assignments :=
  pkcs1 ++ pkcs5 ++ pkcs7 ++ pkcs9 ++ pkcs12 ++ rsa_algorithms ++ smime_arcs ++ content_types ++ attributes ++ smime_algorithms
  ++ smime_other ++ pkix_arcs ++ pkix_extensions ++ pkix_usages ++ pkix_crmf ++ pkix_algorithms ++ pkix_cmc ++ pkix_other
  ++ directory ++ x9 ++ government ++ gost ++ others.

(** Names that mean something else in one RFC. *)
Definition own : list (string * assignments) := [
  ("rfc5639", [("ellipticCurve", brainpool ++ [1])]);
  ("rfc3281", [("id-at-clearance", [2; 5; 1; 5; 55])])].

(** ** Lookup by the name used in /repo: hyphens become underscores *)

Fixpoint underscored (s : string) : string :=
  match s with
  | EmptyString => EmptyString
  | String c r => String (if Ascii.eqb c "-" then "_"%char else c) (underscored r)
  end.
Definition respelt (l : assignments) : assignments := map (fun e => (underscored (fst e), snd e)) l.
Definition assigned (l : assignments) (x : string) : option (list N) :=
  match find (fun e => String.eqb (fst e) x) l with Some e => Some (snd e) | None => None end.
(** [R]: the general table, respelt. *)
Definition registry_with (R : assignments) (m x : string) : option (list N) :=
  match find (fun e : string * assignments => String.eqb (fst e) m) own with
  | Some (_, l) => match assigned (respelt l) x with Some a => Some a | None => assigned R x end
  | None => assigned R x
  end.
Definition registry : string -> string -> option (list N) := registry_with (respelt registered).

(** ** The constants of /repo that differ *)

Definition wrong_oids : list (string * string) := [
  ("rfc8418", "dhSinglePass_stdDH_sha256kdf_scheme");   (* rfc8418.py:26-30, below x9-63-scheme instead of secg-scheme *)
  ("rfc8418", "dhSinglePass_stdDH_sha384kdf_scheme");
  ("rfc8418", "dhSinglePass_stdDH_sha512kdf_scheme");
  ("rfc6402", "id_kp_cmcArchive");                      (* rfc6402.py:496, the value of id-kp-cmcRA; registered as 29 (the RFC as printed may have 28 too) *)
  ("rfc4357", "gostR3410_94_ParamSetSyntax")            (* rfc4357.py:62, a spare arc *)
].
(** Names that are not in the table: a misspelt id-at-surname (rfc2459.py:102, and the modules
    that import it), and two names of RFC 4490 for other identifiers. *)
Definition unknown_oids : list string := [
  "id_at_sutname"; "id_GostR3410_94_KeyTransportSMIMECapability"; "id_GostR3410_2001_KeyTransportSMIMECapability"].
