{"id": "C01", "title": "PEM armour round trip", "statement": "For every byte string d, every marker pair and every preamble without a start-marker line, readPemBlocksFromFile on preamble + start line + base64(d) wrapped at any width that is a multiple of four + stop line + tail returns (index of the pair, d), and the file is left positioned exactly at tail.", "quantifier": "all byte strings, all marker pairs free of line breaks, all wrap widths 4k, all preambles and tails", "why_tests_cant": "Unbounded data, preambles and widths; unit tests feed a handful of literal certificates.", "anchors": ["pyasn1_modules/pem.py:readPemBlocksFromFile", "pyasn1_modules/pem.py:readPemFromFile"]}
{"id": "C02", "title": "Successive PEM reads enumerate the blocks", "statement": "Calling readPemBlocksFromFile repeatedly on a file made of n armoured blocks separated by arbitrary non-marker text returns the n payloads in order, each with the index of the marker pair that opened it, and then (-1, '') for ever.", "quantifier": "all lists of (marker pair, payload) blocks and all separators", "why_tests_cant": "Quantifies over the whole history of calls on one file object.", "anchors": ["pyasn1_modules/pem.py:readPemBlocksFromFile", "tools/x509dump.py", "tools/pkcs1dump.py"]}
{"id": "C03", "title": "No start marker means no data and no index", "statement": "If no line of the remaining file, stripped, is a start marker, readPemBlocksFromFile returns (-1, '') and consumes the file to the end.", "quantifier": "all files, all marker lists", "why_tests_cant": "Universally quantified over file contents.", "anchors": ["pyasn1_modules/pem.py:readPemBlocksFromFile"]}
{"id": "C04", "title": "A truncated block never yields partial data", "statement": "If the file ends before the stop marker matching the start marker that was found, the returned substrate is empty (never a prefix of the payload), whatever the lines in between are; no base64 decoding happens, so no exception either.", "quantifier": "all truncation points of all files", "why_tests_cant": "Crash/truncation points are unbounded.", "anchors": ["pyasn1_modules/pem.py:readPemBlocksFromFile"]}
{"id": "C05", "title": "Only the matching stop marker closes a block", "statement": "A block opened by marker pair i is closed by the first later line equal to stop marker i; stop markers of other pairs and further start markers inside the block are treated as payload lines.", "quantifier": "all marker lists with distinct stop markers, all files", "why_tests_cant": "Arbitrary interleavings of markers.", "anchors": ["pyasn1_modules/pem.py:readPemBlocksFromFile"]}
{"id": "C06", "title": "PEM reading is insensitive to surrounding white space and line terminators", "statement": "Adding or removing leading/trailing white space on any non-empty set of lines (including CR before LF) changes neither the returned index nor the returned bytes.", "quantifier": "all files, all white-space edits that keep the line structure", "why_tests_cant": "Infinite family of equivalent files.", "anchors": ["pyasn1_modules/pem.py:readPemBlocksFromFile"]}
{"id": "C07", "title": "Base64 text round trip", "statement": "readBase64fromText (and readBase64FromFile) returns d for every text whose alphabet characters spell base64(d), however the text is interspersed with characters outside the base64 alphabet.", "quantifier": "all byte strings, all interspersed non-alphabet ASCII text", "why_tests_cant": "Unbounded inputs.", "anchors": ["pyasn1_modules/pem.py:readBase64fromText", "pyasn1_modules/pem.py:readBase64FromFile"]}
{"id": "C08", "title": "PEM payload lines are decoded one by one", "statement": "The payload of a block is the concatenation of the independent base64 decodings of its lines. Hence a file wrapped at a width that is not a multiple of four is rejected or mis-decoded although readBase64fromText of the same lines succeeds (the equality of both readers is false in general and true for widths 4k).", "quantifier": "all wrap widths and payloads", "why_tests_cant": "Needs all widths; tests use width 64 only.", "anchors": ["pyasn1_modules/pem.py:readPemBlocksFromFile", "pyasn1_modules/pem.py:readBase64fromText"]}
{"id": "C09", "title": "PEM reading terminates and makes progress", "statement": "Each readPemBlocksFromFile call reads a finite prefix of the file: either at least one whole line is consumed or the file was already at its end, and what remains is a suffix of what was there; nothing is lost or duplicated.", "quantifier": "all files and marker lists", "why_tests_cant": "Liveness over all inputs.", "anchors": ["pyasn1_modules/pem.py:readPemBlocksFromFile"]}
{"id": "C10", "title": "Duplicate markers resolve to the last pair", "statement": "When the same start (or stop) marker text occurs in several pairs, the returned index is the position of the last pair carrying it, and a block opened by an index whose stop marker text is re-used by a later pair can never be closed.", "quantifier": "all marker lists", "why_tests_cant": "All lists of markers.", "anchors": ["pyasn1_modules/pem.py:readPemBlocksFromFile"]}
{"id": "C11", "title": "Base64 decoder totality", "statement": "For every text, decoding either raises the padding error or returns bytes; it depends only on the alphabet characters and the padding, and the length of the result is determined by the count of alphabet characters.", "quantifier": "all texts", "why_tests_cant": "All inputs.", "anchors": ["pyasn1_modules/pem.py:readBase64fromText"]}
{"id": "C12", "title": "Dump-tool loop visits every PEM block up to the first empty one", "statement": "The read loop shared by the dump tools ('while True: idx, substrate = readPemBlocksFromFile(...); if not substrate: break') processes every non-empty block of the input exactly once and in order, stopping at end of input; an armoured block with empty payload stops it early and silently drops all later blocks.", "quantifier": "all sequences of blocks", "why_tests_cant": "History of calls over unbounded input.", "anchors": ["tools/x509dump.py", "tools/pkcs10dump.py", "tools/pkcs1dump.py", "pyasn1_modules/pem.py"]}
{"id": "C13", "title": "Every import order succeeds", "statement": "Importing any modules of the package, in any order and with any repetitions, terminates and raises no exception: no missing name, no circular import, no construction-time constraint or type error.", "quantifier": "all finite sequences of import statements over the 130 modules, from a fresh interpreter, including repeats", "why_tests_cant": "130! orders; the test-suite imports each module in one order only.", "anchors": ["pyasn1_modules/*.py"]}
{"id": "C14", "title": "Re-import is a no-op", "statement": "Importing a module that is already loaded (directly or as a dependency) changes no module namespace, no class and no shared registry.", "quantifier": "all finite sequences of import statements over the 130 modules, from a fresh interpreter, including repeats", "why_tests_cant": "Any history before the re-import.", "anchors": ["pyasn1_modules/*.py"]}
{"id": "C15", "title": "Module namespaces do not depend on import history", "statement": "Every name exported by a module (class, tag, constraint, OID, value) is the same whatever was imported before it and is not altered by later imports; the shared registries are the only state a later import changes.", "quantifier": "all finite sequences of import statements over the 130 modules, from a fresh interpreter, including repeats", "why_tests_cant": "Quantifies over all histories.", "anchors": ["pyasn1_modules/*.py"]}
{"id": "C16", "title": "Registries only grow", "statement": "A key present in an open-type registry (rfc5280.certificateExtensionsMap, rfc5652.cmsAttributesMap, ...) stays present after any further import.", "quantifier": "all finite sequences of import statements over the 130 modules, from a fresh interpreter, including repeats", "why_tests_cant": "All histories.", "anchors": ["pyasn1_modules/rfc5280.py", "pyasn1_modules/rfc5652.py", "pyasn1_modules/rfc5751.py"]}
{"id": "C17", "title": "Importing a module registers its types", "statement": "After importing module m in any history, every OID that m contributes is a key of the shared registry.", "quantifier": "all finite sequences of import statements over the 130 modules, from a fresh interpreter, including repeats", "why_tests_cant": "All histories.", "anchors": ["pyasn1_modules/rfc*.py (.update calls)"]}
{"id": "C18", "title": "Registry content is independent of import order", "statement": "For each registry and each OID other than an explicit list of doubly-registered keys, the type found after importing a set of modules depends only on the set, not on the order; for the listed keys two orders with different results are exhibited.", "quantifier": "all finite sequences of import statements over the 130 modules, from a fresh interpreter, including repeats", "why_tests_cant": "All pairs of orders of all subsets.", "anchors": ["pyasn1_modules/rfc*.py (.update calls)"]}
{"id": "C19", "title": "cmcControlAttributesMap is cmsAttributesMap", "statement": "After any import history that loads rfc6402, rfc6402.cmcControlAttributesMap and rfc5652.cmsAttributesMap have the same entries: a CMC control registered by one is visible in the other.", "quantifier": "all finite sequences of import statements over the 130 modules, from a fresh interpreter, including repeats", "why_tests_cant": "All histories.", "anchors": ["pyasn1_modules/rfc6402.py", "pyasn1_modules/rfc5652.py"]}
{"id": "C20", "title": "Importing a module loads exactly its dependency closure", "statement": "After importing a sequence of modules, the loaded set is exactly the closure of the sequence under the modules' own import statements.", "quantifier": "all finite sequences of import statements over the 130 modules, from a fresh interpreter, including repeats", "why_tests_cant": "All histories.", "anchors": ["pyasn1_modules/*.py"]}
{"id": "C21", "title": "DER round trip for every exported type", "statement": "For every exported ASN.1 type T that passes the (decided) unambiguity check and every value v conforming to T, der_decode(der_encode(v), asn1Spec=T) returns v and an empty remainder.", "quantifier": "all classes and instances exported by all modules that satisfy the decidable well-formedness check (exceptions listed), all values of the type", "why_tests_cant": "Values are unbounded in size and nesting; tests decode a few sample blobs.", "anchors": ["pyasn1_modules/*.py"]}
{"id": "C22", "title": "Encodings are self-delimiting", "statement": "For every such T, v and every trailing byte string r, decoding der_encode(v) + r with spec T returns (v, r).", "quantifier": "all classes and instances exported by all modules that satisfy the decidable well-formedness check (exceptions listed), all values of the type, all trailing bytes", "why_tests_cant": "Unbounded.", "anchors": ["pyasn1_modules/*.py", "tools/*.py"]}
{"id": "C23", "title": "Different values have different encodings", "statement": "For every such T, der_encode is injective on the conforming values and no encoding is a proper prefix of another.", "quantifier": "all classes and instances exported by all modules that satisfy the decidable well-formedness check (exceptions listed), all values of the type", "why_tests_cant": "All pairs of values.", "anchors": ["pyasn1_modules/*.py"]}
{"id": "C24", "title": "Types whose own encodings cannot be decoded", "statement": "The exported types that fail the unambiguity check are exactly a listed set, and for the listed representative ones a value is exhibited whose DER encoding is rejected or decoded to a different value by the same type (e.g. rfc2251.UnbindRequest).", "quantifier": "all exported types", "why_tests_cant": "Exhaustive classification of all types.", "anchors": ["pyasn1_modules/rfc2251.py:UnbindRequest", "pyasn1_modules/*.py"]}
{"id": "C25", "title": "Decoding is total and never reads past the input", "statement": "For every type T and every byte string s, decoding terminates with a value or an error; on success the remainder is a suffix of s and is strictly shorter than s.", "quantifier": "all exported types, all byte strings", "why_tests_cant": "Arbitrary (malicious) inputs.", "anchors": ["tools/*.py", "pyasn1_modules/*.py"]}
{"id": "C26", "title": "Dump tools' re-encode assertion", "statement": "For every input that is itself a DER encoding of a conforming value (with any trailing bytes), 'der_encode(decoded) == substrate minus rest' holds; it is false for some inputs the decoder accepts (non-minimal lengths), so the assertion in the tools can fire on malformed input.", "quantifier": "all inputs", "why_tests_cant": "All inputs.", "anchors": ["tools/x509dump.py", "tools/pkcs10dump.py", "tools/crmfdump.py", "tools/ocspreqdump.py"]}
{"id": "C27", "title": "DEFAULT components", "statement": "A component equal to its DEFAULT is never emitted, and an absent DEFAULT component decodes to the default value, for every SEQUENCE/SET type of the package and every value.", "quantifier": "all exported SEQUENCE/SET types with DEFAULT components, all values", "why_tests_cant": "All values.", "anchors": ["pyasn1_modules/*.py (namedtype.DefaultedNamedType)"]}
{"id": "C28", "title": "Missing mandatory components are rejected", "statement": "Encoding a value with an absent mandatory component fails, and decoding never returns a SEQUENCE value in which a mandatory component is absent.", "quantifier": "all exported SEQUENCE/SET types, all byte strings", "why_tests_cant": "All inputs.", "anchors": ["pyasn1_modules/*.py (namedtype.NamedType)"]}
{"id": "C29", "title": "Outermost tags of CHOICE alternatives are distinct", "statement": "In every exported CHOICE type (except a listed set) no two alternatives share an outermost tag, so that the tag decides the alternative.", "quantifier": "all exported CHOICE types, all pairs of alternatives", "why_tests_cant": "Exhaustive over all types of all modules and nested occurrences.", "anchors": ["pyasn1_modules/*.py (univ.Choice)"]}
{"id": "C30", "title": "SNMP integer ranges", "statement": "Constructing Integer32, Counter32, Gauge32, Unsigned32, TimeTicks, Counter64 (rfc1902) and Counter, Gauge, TimeTicks (rfc1155) from an integer succeeds iff the integer lies in the range of the RFC.", "quantifier": "all integers", "why_tests_cant": "Unbounded integers.", "anchors": ["pyasn1_modules/rfc1902.py", "pyasn1_modules/rfc1155.py"]}
{"id": "C31", "title": "Size and range constraints mean what the RFC says", "statement": "For each constrained string/integer type listed in the specification table, a value is accepted by the constructor iff its length/number is within the RFC bounds.", "quantifier": "all values, all types of the table", "why_tests_cant": "Unbounded values.", "anchors": ["pyasn1_modules/rfc5280.py", "pyasn1_modules/rfc2459.py"]}
{"id": "C32", "title": "OID construction helpers flatten their arguments", "statement": "_OID/_buildOid(c1, ..., cn) is the OID whose arcs are the concatenation of the arcs of the ci (OIDs contribute all arcs, integers one), for every argument list; all copies of the helper agree.", "quantifier": "all argument lists", "why_tests_cant": "Unbounded argument lists.", "anchors": ["pyasn1_modules/rfc2985.py", "pyasn1_modules/rfc3280.py:_OID", "pyasn1_modules/rfc5280.py:_buildOid", "..."]}
{"id": "C33", "title": "OID constants are encodable and round trip", "statement": "Every ObjectIdentifier exported by the package has a valid first and second arc, and the OID codec round trips on every valid arc list.", "quantifier": "all exported OIDs; all valid arc lists", "why_tests_cant": "All arc lists.", "anchors": ["pyasn1_modules/*.py"]}
{"id": "C34", "title": "OID constants agree with the RFC tables", "statement": "Every OID constant of the specification tables (transcribed from the RFC ASN.1 modules) has the arcs of the table.", "quantifier": "all entries of the table", "why_tests_cant": "Exhaustive table comparison on the evaluated modules, for every import history.", "anchors": ["pyasn1_modules/*.py"]}
{"id": "C35", "title": "Wire conformance to the ASN.1 modules", "statement": "For each type covered by the independent ASN.1 specification, and every value, pyasn1's DER encoding driven by the package's schema equals the X.690 DER encoding prescribed by the RFC's ASN.1 module.", "quantifier": "all covered types, all conforming values", "why_tests_cant": "All values.", "anchors": ["pyasn1_modules/rfc5280.py", "pyasn1_modules/rfc5652.py", "pyasn1_modules/rfc2986.py", "pyasn1_modules/rfc8017.py", "pyasn1_modules/rfc6960.py", "pyasn1_modules/rfc1157.py", "pyasn1_modules/rfc2251.py"]}
{"id": "C36", "title": "Deviations from the ASN.1 modules", "statement": "The listed types encode some value differently from the RFC's ASN.1 module (rfc2251 UnbindRequest/DelRequest/AbandonRequest, ...); for each a value and the two encodings are exhibited.", "quantifier": "existential witnesses plus the universal statement on the complement", "why_tests_cant": "The complement is universal.", "anchors": ["pyasn1_modules/rfc2251.py", "pyasn1_modules/rfc4210.py", "pyasn1_modules/rfc7906.py"]}
{"id": "C37", "title": "Open types resolve through the registry", "statement": "With decodeOpenTypes, a SEQUENCE whose governing OID is a registered key decodes the open field to a value of the registered type, and encoding it back gives the same bytes; an unregistered OID leaves the raw bytes unchanged.", "quantifier": "all open-type holders of the package, all registry states reachable by imports, all values", "why_tests_cant": "All values and all histories.", "anchors": ["pyasn1_modules/rfc5280.py", "pyasn1_modules/rfc5652.py"]}
{"id": "C38", "title": "Registry keys are OIDs and entries are types", "statement": "In every reachable registry state each key is an ObjectIdentifier value with valid arcs and each entry is an ASN.1 type object (so decoding an open type never fails for lack of a usable type).", "quantifier": "all finite sequences of import statements over the 130 modules, from a fresh interpreter, including repeats", "why_tests_cant": "All histories.", "anchors": ["pyasn1_modules/*.py"]}
{"id": "C39", "title": "Named numbers and bits are one-to-one", "statement": "In every exported type with named values, distinct names denote distinct numbers.", "quantifier": "all exported types", "why_tests_cant": "Exhaustive.", "anchors": ["pyasn1_modules/*.py (namedval.NamedValues)"]}
{"id": "C40", "title": "Prebuilt values are consistent with their types", "statement": "Every prebuilt algorithm identifier/parameter value exported by the modules (rfc4055, rfc8017, rfc5035, ...) conforms to its own type, so it encodes and decodes back.", "quantifier": "all exported instances carrying a value", "why_tests_cant": "Exhaustive, combined with the universal round trip theorem.", "anchors": ["pyasn1_modules/rfc4055.py", "pyasn1_modules/rfc8017.py", "pyasn1_modules/rfc8018.py"]}
{"id": "C41", "title": "LDAP filters nest only to a fixed depth", "statement": "rfc2251.Filter represents AND/OR/NOT nesting up to a fixed depth only: every filter within that depth encodes as in the RFC, and every deeper filter cannot be represented.", "quantifier": "all filters", "why_tests_cant": "Unbounded nesting.", "anchors": ["pyasn1_modules/rfc2251.py:Filter"]}
{"id": "C42", "title": "cmcdump terminates only on known layers", "statement": "tools/cmcdump.py's layer loop terminates for every input whose nested content types are ContentInfo/SignedData/PKIData, and loops for ever on a well-formed ContentInfo with any other content type.", "quantifier": "all inputs", "why_tests_cant": "Liveness.", "anchors": ["tools/cmcdump.py"]}
{"id": "C43", "title": "pkcs7dump dispatch", "statement": "tools/pkcs7dump.py decodes the content with the type registered for the content type and fails with KeyError exactly on unknown content types.", "quantifier": "all ContentInfo inputs", "why_tests_cant": "All inputs.", "anchors": ["tools/pkcs7dump.py"]}
{"id": "C44", "title": "Open components have a governor", "statement": "In every exported type (except a listed set) each open component names as governor a mandatory OBJECT IDENTIFIER or INTEGER component of the same SEQUENCE; decoding a type of the exception set with decodeOpenTypes never succeeds, on any input and for any registry.", "quantifier": "all import histories, all exported types, all SEQUENCEs nested in them; for the exceptions all inputs and registries", "why_tests_cant": "The tests decode with open types only the messages they have samples of; that a type can never be decoded is a statement about all inputs.", "anchors": ["pyasn1_modules/rfc2315.py:AttributeValueAssertion", "pyasn1_modules/rfc7292.py:BAG_TYPE", "pyasn1_modules/rfc5280.py:AlgorithmIdentifier"]}
{"id": "C45", "title": "The decoder reads what the RFC prescribes", "statement": "For each type covered by the ASN.1 specification (except listed sets) and every value in the decoder's form, pyasn1's DER decoder driven by the package's schema turns the encoding prescribed by X.690 and the RFC, followed by anything, into exactly that value and leaves what follows. Of the types whose constraints differ from the RFC's, those that are merely looser are covered too; those of the listed set `tight` refuse some value of the RFC's type.", "quantifier": "all covered types, all values, all octets following", "why_tests_cant": "All values and all trailing octets; samples do not show that an encoder of another implementation is always understood.", "anchors": ["pyasn1_modules/rfc5280.py", "pyasn1_modules/rfc5652.py", "pyasn1_modules/rfc6960.py", "pyasn1_modules/rfc2251.py"]}
{"id": "C46", "title": "Registries hold what the RFCs associate", "statement": "In every session, whatever an open-type registry holds for an identifier is the type that an RFC associates with that identifier in that registry (listed exceptions): it encodes the values of the RFC's type as X.690 says and decodes their encodings. Conversely every association of a loaded module is registered under the identifier's registered number. Exceptions: 5 registrations of another type, 2 without the RFC's bounds, 19 associations that are never registered; each is shown to be one.", "quantifier": "all import histories, all registries and keys, all values of the associated types, all octets following", "why_tests_cant": "Tests look up the identifiers of their sample messages in one import order; a wrong pairing of an identifier with a type of the same shape, or in another order, is not seen.", "anchors": ["pyasn1_modules/rfc5280.py:certificateExtensionsMap", "pyasn1_modules/rfc5652.py:cmsAttributesMap", "pyasn1_modules/rfc3565.py:_algorithmIdentifierMapUpdate", "pyasn1_modules/rfc4357.py:_algorithmIdentifierMapUpdate", "pyasn1_modules/rfc7292.py:pkcs12BagTypeMap"]}
{"id": "C47", "title": "Open components are those of the RFCs", "statement": "Every open component, at any depth of any exported type, is a component that the RFC defines by another component, with that component as governor and the registry of that kind; every such component listed is open in the package; after decoding with decodeOpenTypes it is absent or holds objects of exactly the type registered for the governor's value, decoded from octets. Exceptions: three misplaced open components, eight components that are never opened.", "quantifier": "all import histories, all exported types and SEQUENCEs nested in them, all inputs, all registry contents reached", "why_tests_cant": "That the component always holds the registered type is a statement about all inputs and all registry states; which components are not open is not visible in tests of those that are.", "anchors": ["pyasn1_modules/rfc5280.py:AttributeTypeAndValue", "pyasn1_modules/rfc5652.py:ContentInfo", "pyasn1_modules/rfc7292.py:SafeBag", "pyasn1_modules/rfc2315.py:EncryptedContentInfo"]}
{"id": "C48", "title": "Deviations are confined to named components", "statement": "Of the 90 deviating types, 69 differ from their RFC only in named components (listed with each type): every value of the RFC's type that leaves those components out, or gives explicitly those whose default the package has wrong, is encoded as X.690 and the RFC say, and its encoding followed by anything is decoded to that value (six of the 69 have tighter constraints as well and decode the values that satisfy them). The other 21 are listed.", "quantifier": "all import histories, all deviating types, all values avoiding the named components, all octets following", "why_tests_cant": "That a known defect does not spread to any value without the defective component is a statement about all values; tests of the defective types stop at samples.", "anchors": ["pyasn1_modules/rfc5208.py:PrivateKeyInfo", "pyasn1_modules/rfc2560.py:TBSRequest", "pyasn1_modules/rfc2315.py:SignedData", "pyasn1_modules/rfc4210.py:PKIBody", "pyasn1_modules/rfc2251.py:LDAPMessage"]}
{"id": "C49", "title": "The tools read the standard file formats", "statement": "A PEM dump tool given a file of blocks, each holding the DER of a value of the type that RFC 7468, RFC 1421 practice or the PKCS documents give its label (certificate, certificate request, CRL, PKCS #1/#8 keys; without the components that C48 names for those types), prints exactly those values in order and finishes; pkcs7dump prints the content of a ContentInfo of each of RFC 2315's content types; the base64 tools (OCSP requests and responses, CMP, CRMF) print the message. Exceptions: PKCS #8 keys with attributes and RSA keys with more than two primes make the tools raise.", "quantifier": "all sequences of blocks, all values and encodings, all text between and after blocks, all import histories in which the tool's modules are loaded", "why_tests_cant": "The tools have no tests of their output; that the schema bound to a label is that of the format needs all values of the format.", "anchors": ["tools/pkcs1dump.py", "tools/pkcs7dump.py", "tools/pkcs8dump.py", "tools/pkcs10dump.py", "tools/crldump.py", "tools/x509dump.py", "tools/x509dump-rfc5280.py", "tools/ocspreqdump.py", "tools/ocsprspdump.py", "tools/cmpdump.py", "tools/crmfdump.py"]}
{"id": "C50", "title": "The decoder accepts nothing but encodings", "statement": "If the DER decoder, given a type that agrees with its RFC, accepts octets and returns a value and a rest, then the octets are an encoding of that value of the RFC's ASN.1 type followed by the rest, by clause 8 of X.690 with definite lengths and an enumerated list of liberties (and, for types whose constraints are the RFC's, with the constraints of primitive types observed). That the octets are the DER of the value fails.", "quantifier": "all octet sequences, all types of all modules but those that deviate, all import histories; both readings of BOOLEAN, BIT STRING and OCTET STRING that versions of pyasn1 may have", "why_tests_cant": "The round-trip tests feed only well-formed encodings; that no ill-formed input is accepted concerns all octet sequences.", "anchors": ["pyasn1_modules/rfc5280.py", "pyasn1_modules/rfc5652.py"]}
{"id": "C51", "title": "snmpget sends the get-request that was asked for", "statement": "tools/snmpget.py, given a community in iso-8859-1 and an object identifier in dotted decimal notation (with or without a leading dot), sends exactly the DER of RFC 1157's version-1 Message with that community and a get-request for that one variable with a null value; given any other community it sends nothing.", "quantifier": "all communities, all object identifiers (runs of up to 4300 digits), all import histories in which rfc1157 is loaded", "why_tests_cant": "The tool has no tests; the datagram depends on unbounded texts.", "anchors": ["tools/snmpget.py", "pyasn1_modules/rfc1157.py", "pyasn1_modules/rfc1155.py"]}
{"id": "C52", "title": "ocspclient posts an OCSP request for the certificate", "statement": "tools/ocspclient.py, given the PEM certificates of an issuer and of a user it issued, posts the DER of RFC 2560's OCSPRequest with the SHA-1 hashes of issuer name and key and the serial number. This fails: it posts nothing on any input, because ValueOnlyBitStringEncoder.encodeValue takes no keyword arguments (TypeError); with the key's octets at hand it would post that request.", "quantifier": "all inputs, all hash functions, all pairs of certificates", "why_tests_cant": "The tool has no tests and needs a network; that no input reaches the request concerns all inputs.", "anchors": ["tools/ocspclient.py", "pyasn1_modules/rfc2560.py", "pyasn1_modules/rfc2459.py"]}
{"id": "C53", "title": "Opening only replaces open components by the decodings of their octets", "statement": "If decoding with decodeOpenTypes=True accepts octets, decoding without it accepts them with the same rest, and the value returned is the plain one with each open component whose governor has a registered type replaced by the value that its octets decode to, in turn opened. Conversely, what is accepted without decodeOpenTypes is accepted with it unless the octets of an open component do not decode to its registered type or its governor is missing. That nothing is lost fails: octets following the value in an open component are dropped.", "quantifier": "all octet sequences, all types of all modules, all import histories", "why_tests_cant": "The tests compare the two modes on a handful of messages; the relation between them concerns all octet sequences and all registry states.", "anchors": ["pyasn1_modules/rfc5280.py", "pyasn1_modules/rfc5652.py", "pyasn1_modules/rfc2459.py"]}
{"id": "C54", "title": "The project's own codec tests pass in the model", "statement": "For every decode call extracted from /repo/tests: the text is read as base64, the modules the test file imports load, the type given decodes the octets with the options given (decodeOpenTypes, openTypes), nothing is left if the test asserts so, and encoding gives the same octets if the test asserts so.", "quantifier": "264 decode calls of 264 of the 282 test methods", "why_tests_cant": "This is the tests' own content; it is here because the tests were written against the real pyasn1, which the model replaces, so it validates the model on real messages.", "anchors": ["tests/test_rfc5280.py", "tests/test_rfc5652.py", "tests/test_rfc2315.py"]}
{"id": "C55", "title": "How decodeOpenTypes depends on what has been imported", "statement": "If octets are accepted with decodeOpenTypes=True after importing some modules, they are accepted after importing fewer, with the same rest, and both results are the plain value with its open components opened by the registries of the session (provided the 11 keys of C18 that denote two types denote the same). Importing the same modules in another order changes nothing (but for the 8 order-dependent keys). That importing more modules keeps octets accepted fails: importing rfc5917 makes an rfc5280.AttributeTypeAndValue rejected.", "quantifier": "all octet sequences, all types of all modules, all pairs of import histories", "why_tests_cant": "Each test file runs with one set of imports; the registries are global state, and the pairs of histories and octet sequences cannot be enumerated.", "anchors": ["pyasn1_modules/rfc5280.py:759", "pyasn1_modules/rfc5917.py:51-55"]}
{"id": "C56", "title": "Encoding after decodeOpenTypes gives what encoding after plain decoding gives", "statement": "If decoding with decodeOpenTypes=True accepts octets, and the octets of every opened component are the encoding of the value they decode to (and no component becomes equal or unequal to its default by being opened), then encoding the result gives exactly what encoding the result of decoding without decodeOpenTypes gives. The open components of all types, and the types registered for them, are such that this works, except subjectKeyIdentifier in rfc2459.Extension. Without the condition it fails: RSASSA-PSS parameters encoded as 30 00 are dropped.", "quantifier": "all octet sequences, all types of all modules, all import histories", "why_tests_cant": "The tests re-encode a few messages per module; the pairs of open component and registered type, and the values, are far more, and one of the project's tests has to switch off omitEmptyOptionals to get its octets back.", "anchors": ["pyasn1_modules/rfc5280.py:759", "pyasn1_modules/rfc2459.py:1017", "pyasn1_modules/rfc4055.py:186-195", "tests/test_rfc2315.py"]}
{"id": "C57", "title": "What ocspclient prints about a response", "statement": "For every DER encoding of an OCSPResponse of RFC 6960, with any octets after it: if it is a successful basic response whose octets begin with the DER of a BasicOCSPResponse, ocspclient prints the serial number, status name, producedAt and thisUpdate of the first SingleResponse in it, and raises if there is none; in every other case it raises (AssertionError for another status or another response type, PyAsn1Error without responseBytes). The signature is not looked at: responses with the same tbsResponseData print the same line; nor is the certificate asked for, and the time printed after 'till' is thisUpdate whatever nextUpdate is.", "quantifier": "all responses, all following octets, all import histories that load rfc2560", "why_tests_cant": "There are no tests of the client; a test would use a few recorded responses and would not show that no response reaches any other line, nor that the signature has no influence.", "anchors": ["tools/ocspclient.py:98-121", "tools/ocspclient.py:166-173", "pyasn1_modules/rfc2560.py:86-190"]}
{"id": "C58", "title": "The decoder accepts exactly the encodings", "statement": "For a type that agrees with its RFC in encoding and bounds, the octets that the DER decoder accepts, the value it returns and the octets it leaves are exactly those for which the octets consumed may be taken for an encoding of that value of the RFC's ASN.1 type (clause 8 of X.690 with definite lengths, an enumerated list of liberties, constraints observed but for those of SEQUENCE OF, SET OF and CHOICE). Hence octets begin with an encoding of at most one value, and what is decoded is a value of the RFC's type: of the right kind at every level, with all mandatory components and no alternative the RFC lacks. For rfc2459's DirectoryString and EDIPartyName the last part fails: there is a sixth alternative.", "quantifier": "all octet sequences, all values, all types of all modules but those listed as deviating, with other bounds, widened or ambiguous; all import histories; both readings of BOOLEAN, BIT STRING and OCTET STRING that versions of pyasn1 may have", "why_tests_cant": "The tests decode one encoding per type. That every encoding with the liberties is accepted, and every other octet sequence refused, and that no two readings exist, are statements about all octet sequences.", "anchors": ["pyasn1_modules/rfc5280.py", "pyasn1_modules/rfc5652.py", "pyasn1_modules/rfc2459.py:271-284"]}
{"id": "C59", "title": "The deviating decoders are exact off their deviations", "statement": "For a type that deviates from its RFC only in named components, the decoder treats everything else as it does for the conforming types: when the value returned contains no component that deviates (and every component whose default deviates explicitly), the octets consumed may be taken for an encoding of that value of the RFC's ASN.1 type; every such encoding is decoded to its value, unless the type has constraints that the RFC does not make; and for 45 of the 69 types the two coincide, constraints included.", "quantifier": "all octet sequences, all values that leave the named components out, the 69 deviating types with named deviations; all import histories", "why_tests_cant": "A deviation found in one component says nothing about the rest of the type: that all octets not touching it are read exactly as the RFC says needs all octet sequences.", "anchors": ["pyasn1_modules/rfc5208.py", "pyasn1_modules/rfc1157.py", "pyasn1_modules/rfc4210.py", "pyasn1_modules/rfc8018.py"]}
{"id": "C60", "title": "snmpget reads responses", "statement": "snmpget takes a datagram for the message v if and only if its first 2048 octets begin with an encoding (X.690, definite lengths, enumerated liberties) of the Message v of RFC 1157, traps apart; in particular it reads the DER encoding of every such message of at most 2048 octets, whatever follows. That it reads every response fails: any encoding of more than 2048 octets is cut off by recvfrom and raises. That what it reads answers the request fails: neither the kind of PDU, nor the request-id, nor the community is compared, and its own request passes for the response.", "quantifier": "all datagrams, all messages, all communities and object identifiers, all import histories after which rfc1157 is loaded", "why_tests_cant": "The tools have no tests and need a network; the statement ranges over all datagrams.", "anchors": ["tools/snmpget.py:42-47", "pyasn1_modules/rfc1157.py"]}
{"id": "C61", "title": "Schema objects with other constraints differ in nothing else", "statement": "For every exported type with a definition in an RFC that does not deviate on the wire there is an ASN.1 type that equals the RFC's up to constraints, such that the values the schema object allows are those within the bounds of that type, the decoder reads everything that may be taken for an encoding of a value of it, and accepts nothing else (alternatives the RFC lacks aside). So whatever is decoded has the structure the RFC demands. The same holds of the types that deviate in named components only, off these.", "quantifier": "all import histories, all exported types but the listed ones, all octet strings, all values", "why_tests_cant": "258 types have other constraints than the RFC's; no test compares what they accept with any definition, and the statement ranges over all octet strings.", "anchors": ["pyasn1_modules/rfc2459.py:817-818", "pyasn1_modules/rfc2459.py", "pyasn1_modules/rfc4210.py", "pyasn1_modules/rfc2511.py"]}
{"id": "C62", "title": "Every schema object is an ASN.1 type", "statement": "Independently of any RFC: every exported schema object but 23 spells an ASN.1 type; with it pyasn1 encodes values as X.690 says for that type, allows exactly the values within its bounds, reads their DER encodings, and decodes octets to a value if and only if they begin with what may be taken for an encoding of it; no octets begin with encodings of two values. Where the object follows its RFC the type spelt has the same encodings as the RFC's. LDAP's UnbindRequest is one of the 23: it encodes NULL as no ASN.1 type does.", "quantifier": "all import histories, all 4792 exported objects but 23, all octet strings, all values", "why_tests_cant": "Most exported objects occur in no test, and the statement ranges over all octet strings and values.", "anchors": ["pyasn1_modules/*.py", "pyasn1_modules/rfc2251.py:278-281", "pyasn1_modules/rfc5755.py:314-323", "pyasn1_modules/rfc4210.py:743-747"]}
{"id": "C63", "title": "The project's test methods pass as programs", "statement": "273 of the 282 test methods of /repo/tests, translated statement by statement and run in the model after the imports of their file, end without an exception; every assertion they come to holds, 2872 in all: about components, open types, registries, parts decoded again, comparisons and printed forms.", "quantifier": "all 273 translated test methods, both decoders", "why_tests_cant": "This is about the tests: it ties the model of modules, registries and codec to what is asserted of the real ones, including assertions in loops and branches.", "anchors": ["tests/*.py", "pyasn1_modules/*.py"]}
{"id": "C64", "title": "How deep decoded values nest", "statement": "No input makes the decoder build a value of more than 21 levels with any schema object of the package. With decodeOpenTypes the depth is at most proportional to the length of the input, and no constant bounds it: rfc5652.ContentInfo is registered for itself (id-ct-contentInfo), so about 23 octets of input buy one more level of recursion.", "quantifier": "all sessions, schema objects and inputs; all depths", "why_tests_cant": "A bound on all inputs, and a family of inputs without one; the tests nest two or three levels.", "anchors": ["pyasn1_modules/rfc5652.py:532", "pyasn1_modules/rfc5652.py:604-612", "pyasn1_modules/rfc5652.py:739-749", "pyasn1_modules/rfc6402.py"]}
{"id": "C65", "title": "pem.py does what its model does", "statement": "The statements of pyasn1_modules/pem.py, run one by one by an interpreter, return, raise and consume on every text and with every list of markers what the functional model of Pem/Pem.v returns, raises and consumes, and print nothing; default markers are those of certificates.", "quantifier": "all texts, marker lists, and numbers of loop iterations above the length of the text", "why_tests_cant": "An equality of two programs on all inputs; the tests call only two of the functions on a handful of texts.", "anchors": ["pyasn1_modules/pem.py:10", "pyasn1_modules/pem.py:15-46", "pyasn1_modules/pem.py:50-54", "pyasn1_modules/pem.py:57-61", "pyasn1_modules/pem.py:64-65"]}
{"id": "C66", "title": "The dump tools do what the modelled programs do", "statement": "The sources of the six tools that read PEM blocks and of the four that read base64, run without arguments (cmpdump also with -d), print for every text the values the modelled programs of C42 and C49 handle, in order, then the number of blocks; an assertion or exception ends the run at the same block; on blocks that carry values they run to the end and count them. pkcs7dump prints the ContentInfo and the content, or raises KeyError for other content types; cmcdump takes the layers apart as the program of C42 does, ends on a PKIData and runs for ever on a content type it does not know. Given other arguments each of the twelve tools prints one text, reads nothing and exits with -1.", "quantifier": "all sessions that load the modules used, texts and arguments", "why_tests_cant": "The tools have no tests; the claim is about all texts.", "anchors": ["tools/x509dump.py:19-48", "tools/x509dump-rfc5280.py:21-50", "tools/crldump.py:20-45", "tools/pkcs10dump.py:19-47", "tools/pkcs1dump.py:21-55", "tools/pkcs8dump.py:19-53", "tools/ocspreqdump.py:19-34", "tools/ocsprspdump.py:19-34", "tools/cmpdump.py:20-37", "tools/crmfdump.py:19-34", "tools/pkcs7dump.py:19-55", "tools/cmcdump.py:15-61"]}
{"id": "C67", "title": "snmpget does what its model does", "statement": "The statements of tools/snmpget.py, run one by one on a mutable Message object, send for every community, host and object identifier the datagram of C51, once and to port 161 of that host, read the datagram that comes back as in C60 and print the request and the value read. In particular, for a community in iso-8859-1 and an identifier in decimal the DER of RFC 1157's get-request is sent, and every encoding of a Message at the start of the answer's first 2048 octets is printed. With another number of arguments the program prints its usage, sends nothing and exits with -1.", "quantifier": "all sessions that load rfc1157, arguments and datagrams", "why_tests_cant": "The tool has no tests and needs a network; the claim is about all arguments and answers.", "anchors": ["tools/snmpget.py:10-47"]}
{"id": "C68", "title": "ocspclient does what its models do", "statement": "The statements of tools/ocspclient.py, run one by one, end on every input as the models of C52 and C57 do: reading two certificates and building the request they raise what the model raises, and the statements that handle a response print its line or raise its exception. That the program asks for the status of a certificate fails for every input: where pyasn1.codec.cer.encoder has no BitStringEncoder it ends with AttributeError before reading anything, and where it has one it ends with TypeError on the certificates of an issuer and of one it issued. With another number of arguments it prints its usage and exits with -1.", "quantifier": "all worlds, hash functions, arguments, texts and responses", "why_tests_cant": "The tool has no tests and needs a network; the claim is about all inputs.", "anchors": ["tools/ocspclient.py:8-47", "tools/ocspclient.py:51-96", "tools/ocspclient.py:99-121", "tools/ocspclient.py:124-169"]}
{"id": "C69", "title": "What is written for the security categories of a clearance", "statement": "In every session, SecurityCategory of rfc2634, rfc3281, rfc5035 and rfc5755 writes the category with identifier a and value b as a SEQUENCE of the contents of a under [0] and the octets b under the primitive tag [1], where the RFCs put the value inside a constructed tag [1]; and a Clearance of rfc3281 or rfc5755 with categories is the SEQUENCE of the policy, of the class list unless it is the DEFAULT, and of the categories in the order of X.690 11.6 within the tag of their SET OF. This says for all values what the deviation of C36 amounts to.", "quantifier": "all sessions, identifiers, values, policies, class lists and non-empty lists of categories", "why_tests_cant": "The tests encode a few fixed categories; the claim is about all values and all four modules.", "anchors": ["pyasn1_modules/rfc2634.py:170-178", "pyasn1_modules/rfc3281.py:123-147", "pyasn1_modules/rfc5035.py:114", "pyasn1_modules/rfc5755.py:314-356"]}
