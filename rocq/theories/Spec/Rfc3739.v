(** RFC 3739, appendix A.1: PKIXqualified88 (EXPLICIT TAGS). *)
From Coq Require Import List String ZArith NArith.
From Verif Require Import Asn1.Types Spec.X680.
From Verif Require Import Spec.Rfc5280.
Import ListNotations.
Open Scope string_scope.
Open Scope list_scope.

Definition DateOfBirth := GeneralizedTime.
Definition PlaceOfBirth := DirectoryString.
(* the comment -- "M", "F", "m" or "f" -- is taken as a constraint *)
Definition Gender := size 1 1 (words ["M"; "F"; "m"; "f"] PrintableString).
Definition CountryOfCitizenship := size 2 2 PrintableString.
Definition CountryOfResidence := size 2 2 PrintableString.
Definition PredefinedBiometricType := values [0; 1]%Z (INTEGER_OF [("picture", 0); ("handwritten-signature", 1)]%Z).
Definition TypeOfBiometricData := CHOICE [
  req "predefinedBiometricType" PredefinedBiometricType; req "biometricDataOid" OBJECT_IDENTIFIER].
Definition BiometricData := SEQUENCE [
  req "typeOfBiometricData" TypeOfBiometricData;
  req "hashAlgorithm" AlgorithmIdentifier;
  req "biometricDataHash" OCTET_STRING;
  opt "sourceDataUri" IA5String].
Definition BiometricSyntax := SEQUENCE_OF BiometricData.
Definition QCStatement := SEQUENCE [req "statementId" OBJECT_IDENTIFIER; opt "statementInfo" ANY].
Definition QCStatements := SEQUENCE_OF QCStatement.
Definition NameRegistrationAuthorities := size_min 1 (SEQUENCE_OF GeneralName).
(* WITH COMPONENTS {..., semanticsIdentifier PRESENT} | WITH COMPONENTS {..., nameRegistrationAuthorities PRESENT} *)
Definition SemanticsInformation := with_components [[(0, true)]; [(1, true)]]%nat (SEQUENCE [
  opt "semanticsIdentifier" OBJECT_IDENTIFIER; opt "nameRegistrationAuthorities" NameRegistrationAuthorities]).

Definition rfc3739 : list (string * sty) := [
  ("DateOfBirth", DateOfBirth); ("PlaceOfBirth", PlaceOfBirth); ("Gender", Gender);
  ("CountryOfCitizenship", CountryOfCitizenship); ("CountryOfResidence", CountryOfResidence);
  ("PredefinedBiometricType", PredefinedBiometricType); ("TypeOfBiometricData", TypeOfBiometricData);
  ("BiometricData", BiometricData); ("BiometricSyntax", BiometricSyntax); ("QCStatement", QCStatement);
  ("QCStatements", QCStatements); ("NameRegistrationAuthorities", NameRegistrationAuthorities);
  ("SemanticsInformation", SemanticsInformation); ("AlgorithmIdentifier", Rfc5280.AlgorithmIdentifier);
  ("AttributeType", Rfc5280.AttributeType); ("DirectoryString", Rfc5280.DirectoryString);
  ("GeneralName", Rfc5280.GeneralName)].
