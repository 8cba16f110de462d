(** pyasn1_modules/rfc3709.py, printed by tools/py2coq.py.  Every statement is
    preceded by its line number in that file. *)
From Verif Require Import Py.Syntax.
From Coq Require Import List String ZArith NArith.
Import ListNotations.
Open Scope string_scope.
Open Scope Z_scope.

Definition src : module := [
  (16%N, SFrom "pyasn1.type" [("char", "char")]);
  (17%N, SFrom "pyasn1.type" [("constraint", "constraint")]);
  (18%N, SFrom "pyasn1.type" [("namedtype", "namedtype")]);
  (19%N, SFrom "pyasn1.type" [("namedval", "namedval")]);
  (20%N, SFrom "pyasn1.type" [("tag", "tag")]);
  (21%N, SFrom "pyasn1.type" [("univ", "univ")]);
  (23%N, SFrom "pyasn1_modules" [("rfc5280", "rfc5280")]);
  (24%N, SFrom "pyasn1_modules" [("rfc6170", "rfc6170")]);
  (26%N, set "MAX" (call (EName "float") [EStr "inf"]));
  (29%N, SClass "HashAlgAndValue" (univ "Sequence") [SPass]);
  (32%N, seta "HashAlgAndValue" "componentType" (nts [nt "hashAlg" (call0 (qual "rfc5280" "AlgorithmIdentifier")); nt "hashValue" (call0 (univ "OctetString"))]));
  (38%N, SClass "LogotypeDetails" (univ "Sequence") [SPass]);
  (41%N, seta "LogotypeDetails" "componentType" (nts [nt "mediaType" (call0 (chr "IA5String")); nt "logotypeHash" (withsize (ECall (univ "SequenceOf") [] [("componentType", new "HashAlgAndValue")]) (sizec (EInt 1) (EName "MAX"))); nt "logotypeURI" (withsize (ECall (univ "SequenceOf") [] [("componentType", call0 (chr "IA5String"))]) (sizec (EInt 1) (EName "MAX")))]));
  (52%N, SClass "LogotypeAudioInfo" (univ "Sequence") [SPass]);
  (55%N, seta "LogotypeAudioInfo" "componentType" (nts [nt "fileSize" (call0 (univ "Integer")); nt "playTime" (call0 (univ "Integer")); nt "channels" (call0 (univ "Integer")); ont "sampleRate" (implicit (call0 (univ "Integer")) (ctxS 3)); ont "language" (implicit (call0 (chr "IA5String")) (ctxS 4))]));
  (66%N, SClass "LogotypeAudio" (univ "Sequence") [SPass]);
  (69%N, seta "LogotypeAudio" "componentType" (nts [nt "audioDetails" (new "LogotypeDetails"); ont "audioInfo" (new "LogotypeAudioInfo")]));
  (75%N, SClass "LogotypeImageType" (univ "Integer") [SPass]);
  (78%N, seta "LogotypeImageType" "namedValues" (nvs [nv "grayScale" 0; nv "color" 1]));
  (84%N, SClass "LogotypeImageResolution" (univ "Choice") [SPass]);
  (87%N, seta "LogotypeImageResolution" "componentType" (nts [nt "numBits" (implicit (call0 (univ "Integer")) (ctxS 1)); nt "tableSize" (implicit (call0 (univ "Integer")) (ctxS 2))]));
  (97%N, SClass "LogotypeImageInfo" (univ "Sequence") [SPass]);
  (100%N, seta "LogotypeImageInfo" "componentType" (nts [dnt "type" (withvalue (implicit (new "LogotypeImageType") (ctxS 0)) (EStr "color")); nt "fileSize" (call0 (univ "Integer")); nt "xSize" (call0 (univ "Integer")); nt "ySize" (call0 (univ "Integer")); ont "resolution" (new "LogotypeImageResolution"); ont "language" (implicit (call0 (chr "IA5String")) (ctxS 4))]));
  (113%N, SClass "LogotypeImage" (univ "Sequence") [SPass]);
  (116%N, seta "LogotypeImage" "componentType" (nts [nt "imageDetails" (new "LogotypeDetails"); ont "imageInfo" (new "LogotypeImageInfo")]));
  (122%N, SClass "LogotypeData" (univ "Sequence") [SPass]);
  (125%N, seta "LogotypeData" "componentType" (nts [ont "image" (ECall (univ "SequenceOf") [] [("componentType", new "LogotypeImage")]); ont "audio" (implicit (ECall (univ "SequenceOf") [] [("componentType", new "LogotypeAudio")]) (ctxS 1))]));
  (135%N, SClass "LogotypeReference" (univ "Sequence") [SPass]);
  (138%N, seta "LogotypeReference" "componentType" (nts [nt "refStructHash" (withsize (ECall (univ "SequenceOf") [] [("componentType", new "HashAlgAndValue")]) (sizec (EInt 1) (EName "MAX"))); nt "refStructURI" (withsize (ECall (univ "SequenceOf") [] [("componentType", call0 (chr "IA5String"))]) (sizec (EInt 1) (EName "MAX")))]));
  (148%N, SClass "LogotypeInfo" (univ "Choice") [SPass]);
  (151%N, seta "LogotypeInfo" "componentType" (nts [nt "direct" (implicit (new "LogotypeData") (ctxC 0)); nt "indirect" (implicit (new "LogotypeReference") (ctxC 1))]));
  (162%N, set "id_logo_background" (call (univ "ObjectIdentifier") [EStr "1.3.6.1.5.5.7.20.2"]));
  (164%N, set "id_logo_loyalty" (call (univ "ObjectIdentifier") [EStr "1.3.6.1.5.5.7.20.1"]));
  (166%N, set "id_logo_certImage" (qual "rfc6170" "id_logo_certImage"));
  (169%N, SClass "OtherLogotypeInfo" (univ "Sequence") [SPass]);
  (172%N, seta "OtherLogotypeInfo" "componentType" (nts [nt "logotypeType" (call0 (univ "ObjectIdentifier")); nt "info" (new "LogotypeInfo")]));
  (180%N, set "id_pe_logotype" (call (univ "ObjectIdentifier") [EStr "1.3.6.1.5.5.7.1.12"]));
  (183%N, SClass "LogotypeExtn" (univ "Sequence") [SPass]);
  (186%N, seta "LogotypeExtn" "componentType" (nts [ont "communityLogos" (explicit (ECall (univ "SequenceOf") [] [("componentType", new "LogotypeInfo")]) (ctxS 0)); ont "issuerLogo" (explicit (new "LogotypeInfo") (ctxC 1)); ont "subjectLogo" (explicit (new "LogotypeInfo") (ctxC 2)); ont "otherLogos" (explicit (ECall (univ "SequenceOf") [] [("componentType", new "OtherLogotypeInfo")]) (ctxS 3))]));
  (203%N, set "_certificateExtensionsMapUpdate" (EDict [(EName "id_pe_logotype", new "LogotypeExtn")]));
  (207%N, SExpr (call (EAttr (qual "rfc5280" "certificateExtensionsMap") "update") [EName "_certificateExtensionsMapUpdate"]))
].
