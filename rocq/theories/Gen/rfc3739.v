(** pyasn1_modules/rfc3739.py, printed by tools/py2coq.py.  Every statement is
    preceded by its line number in that file. *)
From Verif Require Import Py.Syntax.
From Coq Require Import List String ZArith NArith.
Import ListNotations.
Open Scope string_scope.
Open Scope Z_scope.

Definition src : module := [
  (17%N, SFrom "pyasn1.type" [("char", "char")]);
  (18%N, SFrom "pyasn1.type" [("constraint", "constraint")]);
  (19%N, SFrom "pyasn1.type" [("namedtype", "namedtype")]);
  (20%N, SFrom "pyasn1.type" [("namedval", "namedval")]);
  (21%N, SFrom "pyasn1.type" [("opentype", "opentype")]);
  (22%N, SFrom "pyasn1.type" [("univ", "univ")]);
  (23%N, SFrom "pyasn1.type" [("useful", "useful")]);
  (25%N, SFrom "pyasn1_modules" [("rfc5280", "rfc5280")]);
  (27%N, set "MAX" (call (EName "float") [EStr "inf"]));
  (32%N, set "qcStatementMap" (EDict []));
  (37%N, set "AlgorithmIdentifier" (qual "rfc5280" "AlgorithmIdentifier"));
  (39%N, set "AttributeType" (qual "rfc5280" "AttributeType"));
  (41%N, set "DirectoryString" (qual "rfc5280" "DirectoryString"));
  (43%N, set "GeneralName" (qual "rfc5280" "GeneralName"));
  (45%N, set "id_pkix" (qual "rfc5280" "id_pkix"));
  (47%N, set "id_pe" (qual "rfc5280" "id_pe"));
  (52%N, set "id_pda" (EBin OAdd (EName "id_pkix") (ETuple [EInt 9])));
  (57%N, set "id_qcs" (EBin OAdd (EName "id_pkix") (ETuple [EInt 11])));
  (62%N, set "id_pda_dateOfBirth" (EBin OAdd (EName "id_pda") (ETuple [EInt 1])));
  (64%N, SClass "DateOfBirth" (useful "GeneralizedTime") [SPass]);
  (68%N, set "id_pda_placeOfBirth" (EBin OAdd (EName "id_pda") (ETuple [EInt 2])));
  (70%N, SClass "PlaceOfBirth" (EName "DirectoryString") [SPass]);
  (74%N, set "id_pda_gender" (EBin OAdd (EName "id_pda") (ETuple [EInt 3])));
  (76%N, SClass "Gender" (chr "PrintableString") [set "subtypeSpec" (call (qual "constraint" "ConstraintsIntersection") [sizec (EInt 1) (EInt 1); call (qual "constraint" "SingleValueConstraint") [EStr "M"; EStr "F"; EStr "m"; EStr "f"]])]);
  (83%N, set "id_pda_countryOfCitizenship" (EBin OAdd (EName "id_pda") (ETuple [EInt 4])));
  (85%N, SClass "CountryOfCitizenship" (chr "PrintableString") [set "subtypeSpec" (sizec (EInt 2) (EInt 2))]);
  (90%N, set "id_pda_countryOfResidence" (EBin OAdd (EName "id_pda") (ETuple [EInt 5])));
  (92%N, SClass "CountryOfResidence" (chr "PrintableString") [set "subtypeSpec" (sizec (EInt 2) (EInt 2))]);
  (99%N, set "id_pe_biometricInfo" (EBin OAdd (EName "id_pe") (ETuple [EInt 2])));
  (102%N, SClass "PredefinedBiometricType" (univ "Integer") [set "namedValues" (nvs [nv "picture" 0; nv "handwritten-signature" 1]); set "subtypeSpec" (call (qual "constraint" "SingleValueConstraint") [EInt 0; EInt 1])]);
  (110%N, SClass "TypeOfBiometricData" (univ "Choice") [set "componentType" (nts [nt "predefinedBiometricType" (new "PredefinedBiometricType"); nt "biometricDataOid" (call0 (univ "ObjectIdentifier"))])]);
  (117%N, SClass "BiometricData" (univ "Sequence") [set "componentType" (nts [nt "typeOfBiometricData" (new "TypeOfBiometricData"); nt "hashAlgorithm" (new "AlgorithmIdentifier"); nt "biometricDataHash" (call0 (univ "OctetString")); ont "sourceDataUri" (call0 (chr "IA5String"))])]);
  (126%N, SClass "BiometricSyntax" (univ "SequenceOf") [set "componentType" (new "BiometricData")]);
  (136%N, set "id_pe_qcStatements" (EBin OAdd (EName "id_pe") (ETuple [EInt 3])));
  (139%N, SClass "NameRegistrationAuthorities" (univ "SequenceOf") [set "componentType" (new "GeneralName"); set "subtypeSpec" (sizec (EInt 1) (EName "MAX"))]);
  (144%N, SClass "QCStatement" (univ "Sequence") [set "componentType" (nts [nt "statementId" (call0 (univ "ObjectIdentifier")); ECall (qual "namedtype" "OptionalNamedType") [EStr "statementInfo"; call0 (univ "Any")] [("openType", call (qual "opentype" "OpenType") [EStr "statementId"; EName "qcStatementMap"])]])]);
  (152%N, SClass "QCStatements" (univ "SequenceOf") [set "componentType" (new "QCStatement")]);
  (156%N, SClass "SemanticsInformation" (univ "Sequence") [set "componentType" (nts [ont "semanticsIndentifier" (call0 (univ "ObjectIdentifier")); ont "nameRegistrationAuthorities" (new "NameRegistrationAuthorities")]); set "subtypeSpec" (call (qual "constraint" "ConstraintsUnion") [call (qual "constraint" "WithComponentsConstraint") [ETuple [EStr "semanticsIndentifier"; call0 (qual "constraint" "ComponentPresentConstraint")]]; call (qual "constraint" "WithComponentsConstraint") [ETuple [EStr "nameRegistrationAuthorities"; call0 (qual "constraint" "ComponentPresentConstraint")]]])]);
  (171%N, set "id_qcs" (EBin OAdd (EName "id_pkix") (ETuple [EInt 11])));
  (174%N, set "id_qcs_pkixQCSyntax_v1" (EBin OAdd (EName "id_qcs") (ETuple [EInt 1])));
  (177%N, set "id_qcs_pkixQCSyntax_v2" (EBin OAdd (EName "id_qcs") (ETuple [EInt 2])));
  (183%N, set "_certificateExtensionsMap" (EDict [(EName "id_pe_biometricInfo", new "BiometricSyntax"); (EName "id_pe_qcStatements", new "QCStatements")]));
  (188%N, SExpr (call (EAttr (qual "rfc5280" "certificateExtensionsMap") "update") [EName "_certificateExtensionsMap"]));
  (194%N, set "_certificateAttributesMapUpdate" (EDict [(EName "id_pda_dateOfBirth", new "DateOfBirth"); (EName "id_pda_placeOfBirth", new "PlaceOfBirth"); (EName "id_pda_gender", new "Gender"); (EName "id_pda_countryOfCitizenship", new "CountryOfCitizenship"); (EName "id_pda_countryOfResidence", new "CountryOfResidence")]));
  (202%N, SExpr (call (EAttr (qual "rfc5280" "certificateAttributesMap") "update") [EName "_certificateAttributesMapUpdate"]))
].
