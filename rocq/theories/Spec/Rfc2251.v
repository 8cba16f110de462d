(** RFC 2251, appendix A: Lightweight-Directory-Access-Protocol-V3 (IMPLICIT TAGS). *)
From Coq Require Import List String ZArith NArith.
From Verif Require Import Asn1.Types Spec.X680.
Import ListNotations.
Open Scope string_scope.
Open Scope list_scope.

Definition maxInt := 2147483647%Z.
Definition MessageID := range 0 maxInt INTEGER.
Definition LDAPString := OCTET_STRING.
Definition LDAPOID := OCTET_STRING.
Definition LDAPDN := LDAPString.
Definition RelativeLDAPDN := LDAPString.
Definition AttributeType := LDAPString.
Definition AttributeDescription := LDAPString.
Definition AttributeDescriptionList := SEQUENCE_OF AttributeDescription.
Definition AttributeValue := OCTET_STRING.
Definition AssertionValue := OCTET_STRING.
Definition AttributeValueAssertion := SEQUENCE [
  req "attributeDesc" AttributeDescription; req "assertionValue" AssertionValue].
Definition Attribute := SEQUENCE [req "type" AttributeDescription; req "vals" (SET_OF AttributeValue)].
Definition MatchingRuleId := LDAPString.
Definition LDAPURL := LDAPString.
Definition Referral := SEQUENCE_OF LDAPURL.
Definition components := [
  req "resultCode" (ENUMERATED [
    ("success", 0); ("operationsError", 1); ("protocolError", 2); ("timeLimitExceeded", 3); ("sizeLimitExceeded", 4);
    ("compareFalse", 5); ("compareTrue", 6); ("authMethodNotSupported", 7); ("strongAuthRequired", 8);
    ("referral", 10); ("adminLimitExceeded", 11); ("unavailableCriticalExtension", 12);
    ("confidentialityRequired", 13); ("saslBindInProgress", 14); ("noSuchAttribute", 16);
    ("undefinedAttributeType", 17); ("inappropriateMatching", 18); ("constraintViolation", 19);
    ("attributeOrValueExists", 20); ("invalidAttributeSyntax", 21); ("noSuchObject", 32); ("aliasProblem", 33);
    ("invalidDNSyntax", 34); ("aliasDereferencingProblem", 36); ("inappropriateAuthentication", 48);
    ("invalidCredentials", 49); ("insufficientAccessRights", 50); ("busy", 51); ("unavailable", 52);
    ("unwillingToPerform", 53); ("loopDetect", 54); ("namingViolation", 64); ("objectClassViolation", 65);
    ("notAllowedOnNonLeaf", 66); ("notAllowedOnRDN", 67); ("entryAlreadyExists", 68);
    ("objectClassModsProhibited", 69); ("affectsMultipleDSAs", 71); ("other", 80)]%Z);
  req "matchedDN" LDAPDN;
  req "errorMessage" LDAPString;
  opt "referral" (implicit 3 Referral)].
Definition LDAPResult := SEQUENCE components.
Definition Control := SEQUENCE [
  req "controlType" LDAPOID; dft "criticality" BOOLEAN (VBool false); opt "controlValue" OCTET_STRING].
Definition Controls := SEQUENCE_OF Control.
Definition SaslCredentials := SEQUENCE [req "mechanism" LDAPString; opt "credentials" OCTET_STRING].
(** The RFC reserves 1 and 2; they are OCTET STRINGs here. *)
Definition AuthenticationChoice := CHOICE [
  req "simple" (implicit 0 OCTET_STRING); req "reserved-1" (implicit 1 OCTET_STRING); req "reserved-2" (implicit 2 OCTET_STRING);
  req "sasl" (implicit 3 SaslCredentials)].
Definition BindRequest := application 0 (SEQUENCE [
  req "version" (range 1 127 INTEGER); req "name" LDAPDN; req "authentication" AuthenticationChoice]).
Definition BindResponse := application 1 (SEQUENCE (components ++ [opt "serverSaslCreds" (implicit 7 OCTET_STRING)])).
Definition UnbindRequest := application 2 NULL.
Definition SubstringFilter := SEQUENCE [
  req "type" AttributeDescription;
  req "substrings" (SEQUENCE_OF (CHOICE [
    req "initial" (implicit 0 LDAPString); req "any" (implicit 1 LDAPString); req "final" (implicit 2 LDAPString)]))].
Definition MatchingRuleAssertion := SEQUENCE [
  opt "matchingRule" (implicit 1 MatchingRuleId); opt "type" (implicit 2 AttributeDescription);
  req "matchValue" (implicit 3 AssertionValue); dft "dnAttributes" (implicit 4 BOOLEAN) (VBool false)].
Definition test := [
  req "equalityMatch" (implicit 3 AttributeValueAssertion);
  req "substrings" (implicit 4 SubstringFilter);
  req "greaterOrEqual" (implicit 5 AttributeValueAssertion);
  req "lessOrEqual" (implicit 6 AttributeValueAssertion);
  req "present" (implicit 7 AttributeDescription);
  req "approxMatch" (implicit 8 AttributeValueAssertion);
  req "extensibleMatch" (implicit 9 MatchingRuleAssertion)].
(** Filter is recursive: and [0] SET OF Filter, or [1] SET OF Filter, not [2] Filter.  This is
    Filter with at most [n] of these nested. *)
Fixpoint Filter_upto (n : nat) : sty :=
  match n with
  | O => CHOICE test
  | S m => CHOICE ([
      req "and" (implicit 0 (SET_OF (Filter_upto m))); req "or" (implicit 1 (SET_OF (Filter_upto m)));
      req "not" (explicit 2 (Filter_upto m))] ++ test)
  end.
Definition Filter3 := Filter_upto 0.
Definition Filter2 := Filter_upto 1.
Definition Filter := Filter_upto 2.
Definition SearchRequest := application 3 (SEQUENCE [
  req "baseObject" LDAPDN;
  req "scope" (ENUMERATED [("baseObject", 0); ("singleLevel", 1); ("wholeSubtree", 2)]%Z);
  req "derefAliases" (ENUMERATED [
    ("neverDerefAliases", 0); ("derefInSearching", 1); ("derefFindingBaseObj", 2); ("derefAlways", 3)]%Z);
  req "sizeLimit" (range 0 maxInt INTEGER);
  req "timeLimit" (range 0 maxInt INTEGER);
  req "typesOnly" BOOLEAN;
  req "filter" Filter;
  req "attributes" AttributeDescriptionList]).
Definition PartialAttributeList := SEQUENCE_OF (SEQUENCE [req "type" AttributeDescription; req "vals" (SET_OF AttributeValue)]).
Definition SearchResultEntry := application 4 (SEQUENCE [req "objectName" LDAPDN; req "attributes" PartialAttributeList]).
Definition SearchResultReference := application 19 (SEQUENCE_OF LDAPURL).
Definition SearchResultDone := application 5 LDAPResult.
Definition AttributeTypeAndValues := SEQUENCE [req "type" AttributeDescription; req "vals" (SET_OF AttributeValue)].
Definition ModifyRequest := application 6 (SEQUENCE [
  req "object" LDAPDN;
  req "modification" (SEQUENCE_OF (SEQUENCE [
    req "operation" (ENUMERATED [("add", 0); ("delete", 1); ("replace", 2)]%Z);
    req "modification" AttributeTypeAndValues]))]).
Definition ModifyResponse := application 7 LDAPResult.
Definition AttributeList := SEQUENCE_OF (SEQUENCE [req "type" AttributeDescription; req "vals" (SET_OF AttributeValue)]).
Definition AddRequest := application 8 (SEQUENCE [req "entry" LDAPDN; req "attributes" AttributeList]).
Definition AddResponse := application 9 LDAPResult.
Definition DelRequest := application 10 LDAPDN.
Definition DelResponse := application 11 LDAPResult.
Definition ModifyDNRequest := application 12 (SEQUENCE [
  req "entry" LDAPDN; req "newrdn" RelativeLDAPDN; req "deleteoldrdn" BOOLEAN; opt "newSuperior" (implicit 0 LDAPDN)]).
Definition ModifyDNResponse := application 13 LDAPResult.
Definition CompareRequest := application 14 (SEQUENCE [req "entry" LDAPDN; req "ava" AttributeValueAssertion]).
Definition CompareResponse := application 15 LDAPResult.
Definition AbandonRequest := application 16 MessageID.
Definition ExtendedRequest := application 23 (SEQUENCE [
  req "requestName" (implicit 0 LDAPOID); opt "requestValue" (implicit 1 OCTET_STRING)]).
Definition ExtendedResponse := application 24 (SEQUENCE (components ++ [
  opt "responseName" (implicit 10 LDAPOID); opt "response" (implicit 11 OCTET_STRING)])).
Definition LDAPMessage := SEQUENCE [
  req "messageID" MessageID;
  req "protocolOp" (CHOICE [
    req "bindRequest" BindRequest; req "bindResponse" BindResponse; req "unbindRequest" UnbindRequest;
    req "searchRequest" SearchRequest; req "searchResEntry" SearchResultEntry; req "searchResDone" SearchResultDone;
    req "searchResRef" SearchResultReference; req "modifyRequest" ModifyRequest; req "modifyResponse" ModifyResponse;
    req "addRequest" AddRequest; req "addResponse" AddResponse; req "delRequest" DelRequest;
    req "delResponse" DelResponse; req "modDNRequest" ModifyDNRequest; req "modDNResponse" ModifyDNResponse;
    req "compareRequest" CompareRequest; req "compareResponse" CompareResponse; req "abandonRequest" AbandonRequest;
    req "extendedReq" ExtendedRequest; req "extendedResp" ExtendedResponse]);
  opt "controls" (implicit 0 Controls)].

Definition rfc2251 : list (string * sty) := [
  ("MessageID", MessageID); ("LDAPString", LDAPString); ("LDAPOID", LDAPOID); ("LDAPDN", LDAPDN);
  ("RelativeLDAPDN", RelativeLDAPDN); ("AttributeType", AttributeType);
  ("AttributeDescription", AttributeDescription); ("AttributeDescriptionList", AttributeDescriptionList);
  ("AttributeValue", AttributeValue); ("AssertionValue", AssertionValue);
  ("AttributeValueAssertion", AttributeValueAssertion); ("Attribute", Attribute); ("MatchingRuleId", MatchingRuleId);
  ("LDAPURL", LDAPURL); ("Referral", Referral); ("LDAPResult", LDAPResult); ("Control", Control);
  ("Controls", Controls); ("SaslCredentials", SaslCredentials); ("AuthenticationChoice", AuthenticationChoice);
  ("BindRequest", BindRequest); ("BindResponse", BindResponse); ("UnbindRequest", UnbindRequest);
  ("SubstringFilter", SubstringFilter); ("MatchingRuleAssertion", MatchingRuleAssertion); ("Filter3", Filter3);
  ("Filter2", Filter2); ("Filter", Filter); ("SearchRequest", SearchRequest);
  ("PartialAttributeList", PartialAttributeList); ("SearchResultEntry", SearchResultEntry);
  ("SearchResultReference", SearchResultReference); ("SearchResultDone", SearchResultDone);
  ("AttributeTypeAndValues", AttributeTypeAndValues); ("ModifyRequest", ModifyRequest);
  ("ModifyResponse", ModifyResponse); ("AttributeList", AttributeList); ("AddRequest", AddRequest);
  ("AddResponse", AddResponse); ("DelRequest", DelRequest); ("DelResponse", DelResponse);
  ("ModifyDNRequest", ModifyDNRequest); ("ModifyDNResponse", ModifyDNResponse); ("CompareRequest", CompareRequest);
  ("CompareResponse", CompareResponse); ("AbandonRequest", AbandonRequest); ("ExtendedRequest", ExtendedRequest);
  ("ExtendedResponse", ExtendedResponse); ("LDAPMessage", LDAPMessage)].
