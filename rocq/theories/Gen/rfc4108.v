(** pyasn1_modules/rfc4108.py, printed by tools/py2coq.py.  Every statement is
    preceded by its line number in that file. *)
From Verif Require Import Py.Syntax.
From Coq Require Import List String ZArith NArith.
Import ListNotations.
Open Scope string_scope.
Open Scope Z_scope.

Definition src : module := [
  (19%N, SFrom "pyasn1.type" [("univ", "univ"); ("char", "char"); ("namedtype", "namedtype"); ("namedval", "namedval"); ("tag", "tag"); ("constraint", "constraint"); ("useful", "useful")]);
  (21%N, SFrom "pyasn1_modules" [("rfc5280", "rfc5280")]);
  (22%N, SFrom "pyasn1_modules" [("rfc5652", "rfc5652")]);
  (24%N, set "MAX" (call (EName "float") [EStr "inf"]));
  (27%N, SClass "HardwareSerialEntry" (univ "Choice") [SPass]);
  (30%N, seta "HardwareSerialEntry" "componentType" (nts [nt "all" (call0 (univ "Null")); nt "single" (call0 (univ "OctetString")); nt "block" (ECall (univ "Sequence") [] [("componentType", nts [nt "low" (call0 (univ "OctetString")); nt "high" (call0 (univ "OctetString"))])])]));
  (41%N, SClass "HardwareModules" (univ "Sequence") [SPass]);
  (44%N, seta "HardwareModules" "componentType" (nts [nt "hwType" (call0 (univ "ObjectIdentifier")); nt "hwSerialEntries" (ECall (univ "SequenceOf") [] [("componentType", new "HardwareSerialEntry")])]));
  (50%N, SClass "CommunityIdentifier" (univ "Choice") [SPass]);
  (53%N, seta "CommunityIdentifier" "componentType" (nts [nt "communityOID" (call0 (univ "ObjectIdentifier")); nt "hwModuleList" (new "HardwareModules")]));
  (60%N, SClass "PreferredPackageIdentifier" (univ "Sequence") [SPass]);
  (63%N, seta "PreferredPackageIdentifier" "componentType" (nts [nt "fwPkgID" (call0 (univ "ObjectIdentifier")); nt "verNum" (withspec (call0 (univ "Integer")) (rangec (EInt 0) (EName "MAX")))]));
  (69%N, SClass "PreferredOrLegacyPackageIdentifier" (univ "Choice") [SPass]);
  (72%N, seta "PreferredOrLegacyPackageIdentifier" "componentType" (nts [nt "preferred" (new "PreferredPackageIdentifier"); nt "legacy" (call0 (univ "OctetString"))]));
  (78%N, SClass "CurrentFWConfig" (univ "Sequence") [SPass]);
  (81%N, seta "CurrentFWConfig" "componentType" (nts [ont "fwPkgType" (call0 (univ "Integer")); nt "fwPkgName" (new "PreferredOrLegacyPackageIdentifier")]));
  (87%N, SClass "PreferredOrLegacyStalePackageIdentifier" (univ "Choice") [SPass]);
  (90%N, seta "PreferredOrLegacyStalePackageIdentifier" "componentType" (nts [nt "preferredStaleVerNum" (withspec (call0 (univ "Integer")) (rangec (EInt 0) (EName "MAX"))); nt "legacyStaleVersion" (call0 (univ "OctetString"))]));
  (96%N, SClass "FirmwarePackageLoadErrorCode" (univ "Enumerated") [SPass]);
  (99%N, seta "FirmwarePackageLoadErrorCode" "namedValues" (nvs [nv "decodeFailure" 1; nv "badContentInfo" 2; nv "badSignedData" 3; nv "badEncapContent" 4; nv "badCertificate" 5; nv "badSignerInfo" 6; nv "badSignedAttrs" 7; nv "badUnsignedAttrs" 8; nv "missingContent" 9; nv "noTrustAnchor" 10; nv "notAuthorized" 11; nv "badDigestAlgorithm" 12; nv "badSignatureAlgorithm" 13; nv "unsupportedKeySize" 14; nv "signatureFailure" 15; nv "contentTypeMismatch" 16; nv "badEncryptedData" 17; nv "unprotectedAttrsPresent" 18; nv "badEncryptContent" 19; nv "badEncryptAlgorithm" 20; nv "missingCiphertext" 21; nv "noDecryptKey" 22; nv "decryptFailure" 23; nv "badCompressAlgorithm" 24; nv "missingCompressedContent" 25; nv "decompressFailure" 26; nv "wrongHardware" 27; nv "stalePackage" 28; nv "notInCommunity" 29; nv "unsupportedPackageType" 30; nv "missingDependency" 31; nv "wrongDependencyVersion" 32; nv "insufficientMemory" 33; nv "badFirmware" 34; nv "unsupportedParameters" 35; nv "breaksDependency" 36; nv "otherError" 99]));
  (140%N, SClass "VendorLoadErrorCode" (univ "Integer") [SPass]);
  (146%N, set "id_aa_wrappedFirmwareKey" (call (univ "ObjectIdentifier") [EStr "1.2.840.113549.1.9.16.2.39"]));
  (148%N, SClass "WrappedFirmwareKey" (qual "rfc5652" "EnvelopedData") [SPass]);
  (154%N, set "id_aa_firmwarePackageInfo" (call (univ "ObjectIdentifier") [EStr "1.2.840.113549.1.9.16.2.42"]));
  (156%N, SClass "FirmwarePackageInfo" (univ "Sequence") [SPass]);
  (159%N, seta "FirmwarePackageInfo" "componentType" (nts [ont "fwPkgType" (call0 (univ "Integer")); ont "dependencies" (ECall (univ "SequenceOf") [] [("componentType", new "PreferredOrLegacyPackageIdentifier")])]));
  (164%N, seta "FirmwarePackageInfo" "sizeSpec" (EBin OAdd (EAttr (univ "Sequence") "sizeSpec") (sizec (EInt 1) (EInt 2))));
  (169%N, set "id_aa_communityIdentifiers" (call (univ "ObjectIdentifier") [EStr "1.2.840.113549.1.9.16.2.40"]));
  (171%N, SClass "CommunityIdentifiers" (univ "SequenceOf") [SPass]);
  (174%N, seta "CommunityIdentifiers" "componentType" (new "CommunityIdentifier"));
  (179%N, set "id_aa_implCompressAlgs" (call (univ "ObjectIdentifier") [EStr "1.2.840.113549.1.9.16.2.43"]));
  (181%N, SClass "ImplementedCompressAlgorithms" (univ "SequenceOf") [SPass]);
  (184%N, seta "ImplementedCompressAlgorithms" "componentType" (call0 (univ "ObjectIdentifier")));
  (189%N, set "id_aa_implCryptoAlgs" (call (univ "ObjectIdentifier") [EStr "1.2.840.113549.1.9.16.2.38"]));
  (191%N, SClass "ImplementedCryptoAlgorithms" (univ "SequenceOf") [SPass]);
  (194%N, seta "ImplementedCryptoAlgorithms" "componentType" (call0 (univ "ObjectIdentifier")));
  (199%N, set "id_aa_decryptKeyID" (call (univ "ObjectIdentifier") [EStr "1.2.840.113549.1.9.16.2.37"]));
  (201%N, SClass "DecryptKeyIdentifier" (univ "OctetString") [SPass]);
  (207%N, set "id_aa_targetHardwareIDs" (call (univ "ObjectIdentifier") [EStr "1.2.840.113549.1.9.16.2.36"]));
  (209%N, SClass "TargetHardwareIdentifiers" (univ "SequenceOf") [SPass]);
  (212%N, seta "TargetHardwareIdentifiers" "componentType" (call0 (univ "ObjectIdentifier")));
  (217%N, set "id_aa_firmwarePackageID" (call (univ "ObjectIdentifier") [EStr "1.2.840.113549.1.9.16.2.35"]));
  (219%N, SClass "FirmwarePackageIdentifier" (univ "Sequence") [SPass]);
  (222%N, seta "FirmwarePackageIdentifier" "componentType" (nts [nt "name" (new "PreferredOrLegacyPackageIdentifier"); ont "stale" (new "PreferredOrLegacyStalePackageIdentifier")]));
  (230%N, set "id_aa_fwPkgMessageDigest" (call (univ "ObjectIdentifier") [EStr "1.2.840.113549.1.9.16.2.41"]));
  (232%N, SClass "FirmwarePackageMessageDigest" (univ "Sequence") [SPass]);
  (235%N, seta "FirmwarePackageMessageDigest" "componentType" (nts [nt "algorithm" (call0 (qual "rfc5280" "AlgorithmIdentifier")); nt "msgDigest" (call0 (univ "OctetString"))]));
  (243%N, SClass "FWErrorVersion" (univ "Integer") [SPass]);
  (246%N, seta "FWErrorVersion" "namedValues" (nvs [nv "v1" 1]));
  (251%N, set "id_ct_firmwareLoadError" (call (univ "ObjectIdentifier") [EStr "1.2.840.113549.1.9.16.1.18"]));
  (253%N, SClass "FirmwarePackageLoadError" (univ "Sequence") [SPass]);
  (256%N, seta "FirmwarePackageLoadError" "componentType" (nts [dnt "version" (withvalue (new "FWErrorVersion") (EStr "v1")); nt "hwType" (call0 (univ "ObjectIdentifier")); nt "hwSerialNum" (call0 (univ "OctetString")); nt "errorCode" (new "FirmwarePackageLoadErrorCode"); ont "vendorErrorCode" (new "VendorLoadErrorCode"); ont "fwPkgName" (new "PreferredOrLegacyPackageIdentifier"); ont "config" (implicit (ECall (univ "SequenceOf") [] [("componentType", new "CurrentFWConfig")]) (ctxS 1))]));
  (269%N, SClass "FWReceiptVersion" (univ "Integer") [SPass]);
  (272%N, seta "FWReceiptVersion" "namedValues" (nvs [nv "v1" 1]));
  (277%N, set "id_ct_firmwareLoadReceipt" (call (univ "ObjectIdentifier") [EStr "1.2.840.113549.1.9.16.1.17"]));
  (279%N, SClass "FirmwarePackageLoadReceipt" (univ "Sequence") [SPass]);
  (282%N, seta "FirmwarePackageLoadReceipt" "componentType" (nts [dnt "version" (withvalue (new "FWReceiptVersion") (EStr "v1")); nt "hwType" (call0 (univ "ObjectIdentifier")); nt "hwSerialNum" (call0 (univ "OctetString")); nt "fwPkgName" (new "PreferredOrLegacyPackageIdentifier"); ont "trustAnchorKeyID" (call0 (univ "OctetString")); ont "decryptKeyID" (implicit (call0 (univ "OctetString")) (ctxS 1))]));
  (294%N, set "id_ct_firmwarePackage" (call (univ "ObjectIdentifier") [EStr "1.2.840.113549.1.9.16.1.16"]));
  (296%N, SClass "FirmwarePkgData" (univ "OctetString") [SPass]);
  (302%N, set "id_on_hardwareModuleName" (call (univ "ObjectIdentifier") [EStr "1.3.6.1.5.5.7.8.4"]));
  (304%N, SClass "HardwareModuleName" (univ "Sequence") [SPass]);
  (307%N, seta "HardwareModuleName" "componentType" (nts [nt "hwType" (call0 (univ "ObjectIdentifier")); nt "hwSerialNum" (call0 (univ "OctetString"))]));
  (316%N, set "_cmsAttributesMapUpdate" (EDict [(EName "id_aa_wrappedFirmwareKey", new "WrappedFirmwareKey"); (EName "id_aa_firmwarePackageInfo", new "FirmwarePackageInfo"); (EName "id_aa_communityIdentifiers", new "CommunityIdentifiers"); (EName "id_aa_implCompressAlgs", new "ImplementedCompressAlgorithms"); (EName "id_aa_implCryptoAlgs", new "ImplementedCryptoAlgorithms"); (EName "id_aa_decryptKeyID", new "DecryptKeyIdentifier"); (EName "id_aa_targetHardwareIDs", new "TargetHardwareIdentifiers"); (EName "id_aa_firmwarePackageID", new "FirmwarePackageIdentifier"); (EName "id_aa_fwPkgMessageDigest", new "FirmwarePackageMessageDigest")]));
  (328%N, SExpr (call (EAttr (qual "rfc5652" "cmsAttributesMap") "update") [EName "_cmsAttributesMapUpdate"]));
  (334%N, set "_cmsContentTypesMapUpdate" (EDict [(EName "id_ct_firmwareLoadError", new "FirmwarePackageLoadError"); (EName "id_ct_firmwareLoadReceipt", new "FirmwarePackageLoadReceipt"); (EName "id_ct_firmwarePackage", new "FirmwarePkgData")]));
  (340%N, SExpr (call (EAttr (qual "rfc5652" "cmsContentTypesMap") "update") [EName "_cmsContentTypesMapUpdate"]));
  (346%N, set "_anotherNameMapUpdate" (EDict [(EName "id_on_hardwareModuleName", new "HardwareModuleName")]));
  (350%N, SExpr (call (EAttr (qual "rfc5280" "anotherNameMap") "update") [EName "_anotherNameMapUpdate"]))
].
