(** pyasn1_modules/rfc2251.py, printed by tools/py2coq.py.  Every statement is
    preceded by its line number in that file. *)
From Verif Require Import Py.Syntax.
From Coq Require Import List String ZArith NArith.
Import ListNotations.
Open Scope string_scope.
Open Scope Z_scope.

Definition src : module := [
  (15%N, SFrom "pyasn1.type" [("constraint", "constraint")]);
  (16%N, SFrom "pyasn1.type" [("namedtype", "namedtype")]);
  (17%N, SFrom "pyasn1.type" [("namedval", "namedval")]);
  (18%N, SFrom "pyasn1.type" [("tag", "tag")]);
  (19%N, SFrom "pyasn1.type" [("univ", "univ")]);
  (21%N, set "maxInt" (call (univ "Integer") [EInt 2147483647]));
  (24%N, SClass "LDAPString" (univ "OctetString") [SPass]);
  (28%N, SClass "LDAPOID" (univ "OctetString") [SPass]);
  (32%N, SClass "LDAPDN" (EName "LDAPString") [SPass]);
  (36%N, SClass "RelativeLDAPDN" (EName "LDAPString") [SPass]);
  (40%N, SClass "AttributeType" (EName "LDAPString") [SPass]);
  (44%N, SClass "AttributeDescription" (EName "LDAPString") [SPass]);
  (48%N, SClass "AttributeDescriptionList" (univ "SequenceOf") [set "componentType" (new "AttributeDescription")]);
  (52%N, SClass "AttributeValue" (univ "OctetString") [SPass]);
  (56%N, SClass "AssertionValue" (univ "OctetString") [SPass]);
  (60%N, SClass "AttributeValueAssertion" (univ "Sequence") [set "componentType" (nts [nt "attributeDesc" (new "AttributeDescription"); nt "assertionValue" (new "AssertionValue")])]);
  (67%N, SClass "Attribute" (univ "Sequence") [set "componentType" (nts [nt "type" (new "AttributeDescription"); nt "vals" (ECall (univ "SetOf") [] [("componentType", new "AttributeValue")])])]);
  (74%N, SClass "MatchingRuleId" (EName "LDAPString") [SPass]);
  (78%N, SClass "Control" (univ "Sequence") [set "componentType" (nts [nt "controlType" (new "LDAPOID"); dnt "criticality" (call (univ "Boolean") [EStr "False"]); ont "controlValue" (call0 (univ "OctetString"))])]);
  (86%N, SClass "Controls" (univ "SequenceOf") [set "componentType" (new "Control")]);
  (90%N, SClass "LDAPURL" (EName "LDAPString") [SPass]);
  (94%N, SClass "Referral" (univ "SequenceOf") [set "componentType" (new "LDAPURL")]);
  (98%N, SClass "SaslCredentials" (univ "Sequence") [set "componentType" (nts [nt "mechanism" (new "LDAPString"); ont "credentials" (call0 (univ "OctetString"))])]);
  (105%N, SClass "AuthenticationChoice" (univ "Choice") [set "componentType" (nts [nt "simple" (implicit (call0 (univ "OctetString")) (ctxS 0)); nt "reserved-1" (implicit (call0 (univ "OctetString")) (ctxS 1)); nt "reserved-2" (implicit (call0 (univ "OctetString")) (ctxS 2)); nt "sasl" (implicit (new "SaslCredentials") (ctxS 3))])]);
  (118%N, SClass "BindRequest" (univ "Sequence") [set "tagSet" (call (EAttr (EAttr (univ "Sequence") "tagSet") "tagImplicitly") [appC 0]); set "componentType" (nts [nt "version" (withspec (call0 (univ "Integer")) (rangec (EInt 1) (EInt 127))); nt "name" (new "LDAPDN"); nt "authentication" (new "AuthenticationChoice")])]);
  (129%N, SClass "PartialAttributeList" (univ "SequenceOf") [set "componentType" (ECall (univ "Sequence") [] [("componentType", nts [nt "type" (new "AttributeDescription"); nt "vals" (ECall (univ "SetOf") [] [("componentType", new "AttributeValue")])])])]);
  (138%N, SClass "SearchResultEntry" (univ "Sequence") [set "tagSet" (call (EAttr (EAttr (univ "Sequence") "tagSet") "tagImplicitly") [appC 4]); set "componentType" (nts [nt "objectName" (new "LDAPDN"); nt "attributes" (new "PartialAttributeList")])]);
  (148%N, SClass "MatchingRuleAssertion" (univ "Sequence") [set "componentType" (nts [ont "matchingRule" (implicit (new "MatchingRuleId") (ctxS 1)); ont "type" (implicit (new "AttributeDescription") (ctxS 2)); nt "matchValue" (implicit (new "AssertionValue") (ctxS 3)); dnt "dnAttributes" (implicit (call (univ "Boolean") [EStr "False"]) (ctxS 4))])]);
  (161%N, SClass "SubstringFilter" (univ "Sequence") [set "componentType" (nts [nt "type" (new "AttributeDescription"); nt "substrings" (ECall (univ "SequenceOf") [] [("componentType", ECall (univ "Choice") [] [("componentType", nts [nt "initial" (implicit (new "LDAPString") (ctxS 0)); nt "any" (implicit (new "LDAPString") (ctxS 1)); nt "final" (implicit (new "LDAPString") (ctxS 2))])])])])]);
  (186%N, SClass "Filter3" (univ "Choice") [set "componentType" (nts [nt "equalityMatch" (implicit (new "AttributeValueAssertion") (ctxC 3)); nt "substrings" (implicit (new "SubstringFilter") (ctxC 4)); nt "greaterOrEqual" (implicit (new "AttributeValueAssertion") (ctxC 5)); nt "lessOrEqual" (implicit (new "AttributeValueAssertion") (ctxC 6)); nt "present" (implicit (new "AttributeDescription") (ctxS 7)); nt "approxMatch" (implicit (new "AttributeValueAssertion") (ctxC 8)); nt "extensibleMatch" (implicit (new "MatchingRuleAssertion") (ctxC 9))])]);
  (205%N, SClass "Filter2" (univ "Choice") [set "componentType" (nts [nt "and" (implicit (ECall (univ "SetOf") [] [("componentType", new "Filter3")]) (ctxC 0)); nt "or" (implicit (ECall (univ "SetOf") [] [("componentType", new "Filter3")]) (ctxC 1)); nt "not" (implicit (new "Filter3") (ctxC 2)); nt "equalityMatch" (implicit (new "AttributeValueAssertion") (ctxC 3)); nt "substrings" (implicit (new "SubstringFilter") (ctxC 4)); nt "greaterOrEqual" (implicit (new "AttributeValueAssertion") (ctxC 5)); nt "lessOrEqual" (implicit (new "AttributeValueAssertion") (ctxC 6)); nt "present" (implicit (new "AttributeDescription") (ctxS 7)); nt "approxMatch" (implicit (new "AttributeValueAssertion") (ctxC 8)); nt "extensibleMatch" (implicit (new "MatchingRuleAssertion") (ctxC 9))])]);
  (230%N, SClass "Filter" (univ "Choice") [set "componentType" (nts [nt "and" (implicit (ECall (univ "SetOf") [] [("componentType", new "Filter2")]) (ctxC 0)); nt "or" (implicit (ECall (univ "SetOf") [] [("componentType", new "Filter2")]) (ctxC 1)); nt "not" (implicit (new "Filter2") (ctxC 2)); nt "equalityMatch" (implicit (new "AttributeValueAssertion") (ctxC 3)); nt "substrings" (implicit (new "SubstringFilter") (ctxC 4)); nt "greaterOrEqual" (implicit (new "AttributeValueAssertion") (ctxC 5)); nt "lessOrEqual" (implicit (new "AttributeValueAssertion") (ctxC 6)); nt "present" (implicit (new "AttributeDescription") (ctxS 7)); nt "approxMatch" (implicit (new "AttributeValueAssertion") (ctxC 8)); nt "extensibleMatch" (implicit (new "MatchingRuleAssertion") (ctxC 9))])]);
  (257%N, SClass "SearchRequest" (univ "Sequence") [set "tagSet" (call (EAttr (EAttr (univ "Sequence") "tagSet") "tagImplicitly") [appC 3]); set "componentType" (nts [nt "baseObject" (new "LDAPDN"); nt "scope" (ECall (univ "Enumerated") [] [("namedValues", nvs [nv "baseObject" 0; nv "singleLevel" 1; nv "wholeSubtree" 2])]); nt "derefAliases" (ECall (univ "Enumerated") [] [("namedValues", nvs [nv "neverDerefAliases" 0; nv "derefInSearching" 1; nv "derefFindingBaseObj" 2; nv "derefAlways" 3])]); nt "sizeLimit" (withspec (call0 (univ "Integer")) (rangec (EInt 0) (EName "maxInt"))); nt "timeLimit" (withspec (call0 (univ "Integer")) (rangec (EInt 0) (EName "maxInt"))); nt "typesOnly" (call0 (univ "Boolean")); nt "filter" (new "Filter"); nt "attributes" (new "AttributeDescriptionList")])]);
  (278%N, SClass "UnbindRequest" (univ "Null") [set "tagSet" (call (EAttr (EAttr (univ "Sequence") "tagSet") "tagImplicitly") [appS 2])]);
  (284%N, SClass "BindResponse" (univ "Sequence") [set "tagSet" (call (EAttr (EAttr (univ "Sequence") "tagSet") "tagImplicitly") [appC 1]); set "componentType" (nts [nt "resultCode" (ECall (univ "Enumerated") [] [("namedValues", nvs [nv "success" 0; nv "operationsError" 1; nv "protocolError" 2; nv "timeLimitExceeded" 3; nv "sizeLimitExceeded" 4; nv "compareFalse" 5; nv "compareTrue" 6; nv "authMethodNotSupported" 7; nv "strongAuthRequired" 8; nv "reserved-9" 9; nv "referral" 10; nv "adminLimitExceeded" 11; nv "unavailableCriticalExtension" 12; nv "confidentialityRequired" 13; nv "saslBindInProgress" 14; nv "noSuchAttribute" 16; nv "undefinedAttributeType" 17; nv "inappropriateMatching" 18; nv "constraintViolation" 19; nv "attributeOrValueExists" 20; nv "invalidAttributeSyntax" 21; nv "noSuchObject" 32; nv "aliasProblem" 33; nv "invalidDNSyntax" 34; nv "reserved-35" 35; nv "aliasDereferencingProblem" 36; nv "inappropriateAuthentication" 48; nv "invalidCredentials" 49; nv "insufficientAccessRights" 50; nv "busy" 51; nv "unavailable" 52; nv "unwillingToPerform" 53; nv "loopDetect" 54; nv "namingViolation" 64; nv "objectClassViolation" 65; nv "notAllowedOnNonLeaf" 66; nv "notAllowedOnRDN" 67; nv "entryAlreadyExists" 68; nv "objectClassModsProhibited" 69; nv "reserved-70" 70; nv "affectsMultipleDSAs" 71; nv "other" 80; nv "reserved-81" 81; nv "reserved-82" 82; nv "reserved-83" 83; nv "reserved-84" 84; nv "reserved-85" 85; nv "reserved-86" 86; nv "reserved-87" 87; nv "reserved-88" 88; nv "reserved-89" 89; nv "reserved-90" 90])]); nt "matchedDN" (new "LDAPDN"); nt "errorMessage" (new "LDAPString"); ont "referral" (implicit (new "Referral") (ctxC 3)); ont "serverSaslCreds" (implicit (call0 (univ "OctetString")) (ctxC 7))])]);
  (320%N, SClass "LDAPResult" (univ "Sequence") [set "componentType" (nts [nt "resultCode" (ECall (univ "Enumerated") [] [("namedValues", nvs [nv "success" 0; nv "operationsError" 1; nv "protocolError" 2; nv "timeLimitExceeded" 3; nv "sizeLimitExceeded" 4; nv "compareFalse" 5; nv "compareTrue" 6; nv "authMethodNotSupported" 7; nv "strongAuthRequired" 8; nv "reserved-9" 9; nv "referral" 10; nv "adminLimitExceeded" 11; nv "unavailableCriticalExtension" 12; nv "confidentialityRequired" 13; nv "saslBindInProgress" 14; nv "noSuchAttribute" 16; nv "undefinedAttributeType" 17; nv "inappropriateMatching" 18; nv "constraintViolation" 19; nv "attributeOrValueExists" 20; nv "invalidAttributeSyntax" 21; nv "noSuchObject" 32; nv "aliasProblem" 33; nv "invalidDNSyntax" 34; nv "reserved-35" 35; nv "aliasDereferencingProblem" 36; nv "inappropriateAuthentication" 48; nv "invalidCredentials" 49; nv "insufficientAccessRights" 50; nv "busy" 51; nv "unavailable" 52; nv "unwillingToPerform" 53; nv "loopDetect" 54; nv "namingViolation" 64; nv "objectClassViolation" 65; nv "notAllowedOnNonLeaf" 66; nv "notAllowedOnRDN" 67; nv "entryAlreadyExists" 68; nv "objectClassModsProhibited" 69; nv "reserved-70" 70; nv "affectsMultipleDSAs" 71; nv "other" 80; nv "reserved-81" 81; nv "reserved-82" 82; nv "reserved-83" 83; nv "reserved-84" 84; nv "reserved-85" 85; nv "reserved-86" 86; nv "reserved-87" 87; nv "reserved-88" 88; nv "reserved-89" 89; nv "reserved-90" 90])]); nt "matchedDN" (new "LDAPDN"); nt "errorMessage" (new "LDAPString"); ont "referral" (implicit (new "Referral") (ctxC 3))])]);
  (351%N, SClass "SearchResultReference" (univ "SequenceOf") [set "tagSet" (call (EAttr (EAttr (univ "Sequence") "tagSet") "tagImplicitly") [appC 19]); set "componentType" (new "LDAPURL")]);
  (358%N, SClass "SearchResultDone" (EName "LDAPResult") [set "tagSet" (call (EAttr (EAttr (univ "Sequence") "tagSet") "tagImplicitly") [appC 5])]);
  (364%N, SClass "AttributeTypeAndValues" (univ "Sequence") [set "componentType" (nts [nt "type" (new "AttributeDescription"); nt "vals" (ECall (univ "SetOf") [] [("componentType", new "AttributeValue")])])]);
  (371%N, SClass "ModifyRequest" (univ "Sequence") [set "tagSet" (call (EAttr (EAttr (univ "Sequence") "tagSet") "tagImplicitly") [appC 6]); set "componentType" (nts [nt "object" (new "LDAPDN"); nt "modification" (ECall (univ "SequenceOf") [] [("componentType", ECall (univ "Sequence") [] [("componentType", nts [nt "operation" (ECall (univ "Enumerated") [] [("namedValues", nvs [nv "add" 0; nv "delete" 1; nv "replace" 2])]); nt "modification" (new "AttributeTypeAndValues")])])])])]);
  (390%N, SClass "ModifyResponse" (EName "LDAPResult") [set "tagSet" (call (EAttr (EAttr (univ "Sequence") "tagSet") "tagImplicitly") [appC 7])]);
  (396%N, SClass "AttributeList" (univ "SequenceOf") [set "componentType" (ECall (univ "Sequence") [] [("componentType", nts [nt "type" (new "AttributeDescription"); nt "vals" (ECall (univ "SetOf") [] [("componentType", new "AttributeValue")])])])]);
  (405%N, SClass "AddRequest" (univ "Sequence") [set "tagSet" (call (EAttr (EAttr (univ "Sequence") "tagSet") "tagImplicitly") [appC 8]); set "componentType" (nts [nt "entry" (new "LDAPDN"); nt "attributes" (new "AttributeList")])]);
  (415%N, SClass "AddResponse" (EName "LDAPResult") [set "tagSet" (call (EAttr (EAttr (univ "Sequence") "tagSet") "tagImplicitly") [appC 9])]);
  (421%N, SClass "DelRequest" (EName "LDAPResult") [set "tagSet" (call (EAttr (EAttr (univ "Sequence") "tagSet") "tagImplicitly") [appC 10])]);
  (427%N, SClass "DelResponse" (EName "LDAPResult") [set "tagSet" (call (EAttr (EAttr (univ "Sequence") "tagSet") "tagImplicitly") [appC 11])]);
  (433%N, SClass "ModifyDNRequest" (univ "Sequence") [set "tagSet" (call (EAttr (EAttr (univ "Sequence") "tagSet") "tagImplicitly") [appC 12]); set "componentType" (nts [nt "entry" (new "LDAPDN"); nt "newrdn" (new "RelativeLDAPDN"); nt "deleteoldrdn" (call0 (univ "Boolean")); ont "newSuperior" (implicit (new "LDAPDN") (ctxS 0))])]);
  (447%N, SClass "ModifyDNResponse" (EName "LDAPResult") [set "tagSet" (call (EAttr (EAttr (univ "Sequence") "tagSet") "tagImplicitly") [appC 13])]);
  (453%N, SClass "CompareRequest" (univ "Sequence") [set "tagSet" (call (EAttr (EAttr (univ "Sequence") "tagSet") "tagImplicitly") [appC 14]); set "componentType" (nts [nt "entry" (new "LDAPDN"); nt "ava" (new "AttributeValueAssertion")])]);
  (463%N, SClass "CompareResponse" (EName "LDAPResult") [set "tagSet" (call (EAttr (EAttr (univ "Sequence") "tagSet") "tagImplicitly") [appC 15])]);
  (469%N, SClass "AbandonRequest" (EName "LDAPResult") [set "tagSet" (call (EAttr (EAttr (univ "Sequence") "tagSet") "tagImplicitly") [appC 16])]);
  (475%N, SClass "ExtendedRequest" (univ "Sequence") [set "tagSet" (call (EAttr (EAttr (univ "Sequence") "tagSet") "tagImplicitly") [appC 23]); set "componentType" (nts [nt "requestName" (implicit (new "LDAPOID") (ctxS 0)); ont "requestValue" (implicit (call0 (univ "OctetString")) (ctxS 1))])]);
  (487%N, SClass "ExtendedResponse" (univ "Sequence") [set "tagSet" (call (EAttr (EAttr (univ "Sequence") "tagSet") "tagImplicitly") [appC 24]); set "componentType" (nts [nt "resultCode" (ECall (univ "Enumerated") [] [("namedValues", nvs [nv "success" 0; nv "operationsError" 1; nv "protocolError" 2; nv "timeLimitExceeded" 3; nv "sizeLimitExceeded" 4; nv "compareFalse" 5; nv "compareTrue" 6; nv "authMethodNotSupported" 7; nv "strongAuthRequired" 8; nv "reserved-9" 9; nv "referral" 10; nv "adminLimitExceeded" 11; nv "unavailableCriticalExtension" 12; nv "confidentialityRequired" 13; nv "saslBindInProgress" 14; nv "noSuchAttribute" 16; nv "undefinedAttributeType" 17; nv "inappropriateMatching" 18; nv "constraintViolation" 19; nv "attributeOrValueExists" 20; nv "invalidAttributeSyntax" 21; nv "noSuchObject" 32; nv "aliasProblem" 33; nv "invalidDNSyntax" 34; nv "reserved-35" 35; nv "aliasDereferencingProblem" 36; nv "inappropriateAuthentication" 48; nv "invalidCredentials" 49; nv "insufficientAccessRights" 50; nv "busy" 51; nv "unavailable" 52; nv "unwillingToPerform" 53; nv "loopDetect" 54; nv "namingViolation" 64; nv "objectClassViolation" 65; nv "notAllowedOnNonLeaf" 66; nv "notAllowedOnRDN" 67; nv "entryAlreadyExists" 68; nv "objectClassModsProhibited" 69; nv "reserved-70" 70; nv "affectsMultipleDSAs" 71; nv "other" 80; nv "reserved-81" 81; nv "reserved-82" 82; nv "reserved-83" 83; nv "reserved-84" 84; nv "reserved-85" 85; nv "reserved-86" 86; nv "reserved-87" 87; nv "reserved-88" 88; nv "reserved-89" 89; nv "reserved-90" 90])]); nt "matchedDN" (new "LDAPDN"); nt "errorMessage" (new "LDAPString"); ont "referral" (implicit (new "Referral") (ctxC 3)); ont "responseName" (implicit (new "LDAPOID") (ctxS 10)); ont "response" (implicit (call0 (univ "OctetString")) (ctxS 11))])]);
  (526%N, SClass "MessageID" (univ "Integer") [set "subtypeSpec" (EBin OAdd (EAttr (univ "Integer") "subtypeSpec") (rangec (EInt 0) (EName "maxInt")))]);
  (532%N, SClass "LDAPMessage" (univ "Sequence") [set "componentType" (nts [nt "messageID" (new "MessageID"); nt "protocolOp" (ECall (univ "Choice") [] [("componentType", nts [nt "bindRequest" (new "BindRequest"); nt "bindResponse" (new "BindResponse"); nt "unbindRequest" (new "UnbindRequest"); nt "searchRequest" (new "SearchRequest"); nt "searchResEntry" (new "SearchResultEntry"); nt "searchResDone" (new "SearchResultDone"); nt "searchResRef" (new "SearchResultReference"); nt "modifyRequest" (new "ModifyRequest"); nt "modifyResponse" (new "ModifyResponse"); nt "addRequest" (new "AddRequest"); nt "addResponse" (new "AddResponse"); nt "delRequest" (new "DelRequest"); nt "delResponse" (new "DelResponse"); nt "modDNRequest" (new "ModifyDNRequest"); nt "modDNResponse" (new "ModifyDNResponse"); nt "compareRequest" (new "CompareRequest"); nt "compareResponse" (new "CompareResponse"); nt "abandonRequest" (new "AbandonRequest"); nt "extendedReq" (new "ExtendedRequest"); nt "extendedResp" (new "ExtendedResponse")])]); ont "controls" (implicit (new "Controls") (ctxC 0))])])
].
