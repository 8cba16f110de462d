{
 "claims": [
  {
   "property": "C01",
   "status": "proved",
   "theorems": [
    "C01_armour_roundtrip",
    "C01_wrapping_exists",
    "C01_single_pair"
   ],
   "note": ""
  },
  {
   "property": "C02",
   "status": "proved",
   "theorems": [
    "C02_calls_enumerate_blocks"
   ],
   "note": ""
  },
  {
   "property": "C03",
   "status": "proved",
   "theorems": [
    "C03_no_start_no_data"
   ],
   "note": ""
  },
  {
   "property": "C04",
   "status": "proved",
   "theorems": [
    "C04_truncated_block_no_data"
   ],
   "note": ""
  },
  {
   "property": "C05",
   "status": "proved",
   "theorems": [
    "C05_reader_refines_spec",
    "C05_spec_deterministic",
    "C05_every_file_has_lines"
   ],
   "note": ""
  },
  {
   "property": "C06",
   "status": "proved",
   "theorems": [
    "C06_whitespace_insensitive",
    "C06_strip_spaces",
    "C06_crlf"
   ],
   "note": ""
  },
  {
   "property": "C07",
   "status": "proved",
   "theorems": [
    "C07_base64_text_roundtrip",
    "C07_base64_file_roundtrip"
   ],
   "note": ""
  },
  {
   "property": "C08",
   "status": "proved",
   "theorems": [
    "C08_per_line",
    "C08_bad_width_refuted"
   ],
   "note": ""
  },
  {
   "property": "C09",
   "status": "proved",
   "theorems": [
    "C09_progress",
    "C09_terminates"
   ],
   "note": ""
  },
  {
   "property": "C10",
   "status": "proved",
   "theorems": [
    "C10_start_last_wins",
    "C10_shadowed_stop_never_closes"
   ],
   "note": ""
  },
  {
   "property": "C11",
   "status": "proved",
   "theorems": [
    "C11_depends_on_alphabet_only",
    "C11_result_is_bytes",
    "C11_unpadded"
   ],
   "note": ""
  },
  {
   "property": "C12",
   "status": "proved",
   "theorems": [
    "C12_every_block_once_in_order",
    "C12_empty_block_stops",
    "C12_terminates"
   ],
   "note": ""
  },
  {
   "property": "C13",
   "status": "proved",
   "theorems": [
    "C13_every_import_order_succeeds"
   ],
   "note": "Cyclic imports are outside the import model (Stuck); the theorem shows they never occur."
  },
  {
   "property": "C14",
   "status": "proved",
   "theorems": [
    "C14_reimport_is_noop"
   ],
   "note": ""
  },
  {
   "property": "C15",
   "status": "proved",
   "theorems": [
    "C15_namespace_history_independent",
    "C15_later_imports_keep_modules"
   ],
   "note": ""
  },
  {
   "property": "C16",
   "status": "proved",
   "theorems": [
    "C16_registries_only_grow"
   ],
   "note": "Values also stay, except for the 11 listed keys."
  },
  {
   "property": "C17",
   "status": "proved",
   "theorems": [
    "C17_import_registers_types"
   ],
   "note": "Registrations are read off the module text."
  },
  {
   "property": "C18",
   "status": "proved",
   "theorems": [
    "C18_registry_order_independent",
    "C18_listed_keys_order_dependent_refuted",
    "C18_two_types_listed"
   ],
   "note": "8 keys are order dependent in the code (witness orders proved)."
  },
  {
   "property": "C19",
   "status": "proved",
   "theorems": [
    "C19_cmc_controls_are_cms_attributes"
   ],
   "note": ""
  },
  {
   "property": "C20",
   "status": "proved",
   "theorems": [
    "C20_loaded_is_dependency_closure"
   ],
   "note": ""
  },
  {
   "property": "C21",
   "status": "proved",
   "theorems": [
    "C21_round_trip"
   ],
   "note": "All schemas of all modules after any imports; five types excepted (C24). 'Huge' is an item of 256^126 octets or more."
  },
  {
   "property": "C22",
   "status": "proved",
   "theorems": [
    "C22_self_delimiting"
   ],
   "note": ""
  },
  {
   "property": "C23",
   "status": "proved",
   "theorems": [
    "C23_prefix_free"
   ],
   "note": "Injectivity is the case of an empty rest."
  },
  {
   "property": "C24",
   "status": "proved",
   "theorems": [
    "C24_ambiguous_types_lose_values_refuted"
   ],
   "note": "Each of the five types excepted in C21-C23 has a conforming value whose encoding does not decode to it."
  },
  {
   "property": "C25",
   "status": "proved",
   "theorems": [
    "C25_decode_consumes_prefix",
    "C25_recursion_bounds_suffice"
   ],
   "note": "Totality is that of the Gallina function; the bounds on its recursion never matter."
  },
  {
   "property": "C26",
   "status": "proved",
   "theorems": [
    "C26_recode_assertion_holds",
    "C26_recode_assertion_refuted",
    "C26_pem_tools_run",
    "C26_base64_tools_run"
   ],
   "note": "Ten of the dump tools as whole programs (printing left out)."
  },
  {
   "property": "C27",
   "status": "proved",
   "theorems": [
    "C27_defaults_not_encoded",
    "C27_defaults_restored"
   ],
   "note": ""
  },
  {
   "property": "C28",
   "status": "proved",
   "theorems": [
    "C28_decoded_has_mandatory",
    "C28_missing_mandatory_refused",
    "C28_missing_mandatory_accepted_refuted"
   ],
   "note": "The encoder's half holds except for components of types that pyasn1 treats as having an empty value (SEQUENCE OF, SET OF, NULL); a counterexample is given for these."
  },
  {
   "property": "C29",
   "status": "proved",
   "theorems": [
    "C29_choice_tags_distinct"
   ],
   "note": "All CHOICEs nested in all types except rfc6402.CMCStatusInfoV2."
  },
  {
   "property": "C30",
   "status": "proved",
   "theorems": [
    "C30_snmp_integers"
   ],
   "note": "Ranges listed in snmp_ranges (Spec/Instances.v)."
  },
  {
   "property": "C31",
   "status": "proved",
   "theorems": [
    "C31_constructors",
    "C31_constraints",
    "C31_other_bounds_refuted"
   ],
   "note": "All catalogued types, not a selected table; 258 exported names have other bounds than the RFC, each with a value showing it."
  },
  {
   "property": "C32",
   "status": "proved",
   "theorems": [
    "C32_helpers_flatten",
    "C32_helpers_agree"
   ],
   "note": "Negative numbers raise."
  },
  {
   "property": "C33",
   "status": "proved",
   "theorems": [
    "C33_oid_constants_valid",
    "C33_oids_round_trip"
   ],
   "note": ""
  },
  {
   "property": "C34",
   "status": "proved",
   "theorems": [
    "C34_identifiers",
    "C34_wrong_identifiers_refuted"
   ],
   "note": "Five constants have another value than the registered one, three names are not in the table."
  },
  {
   "property": "C35",
   "status": "proved",
   "theorems": [
    "C35_types_defined",
    "C35_definitions_implemented",
    "C35_wire_conformance",
    "C35_wire_conformance_tame",
    "C35_irregular_refuted"
   ],
   "note": "All exported types but the 91 of C36 and 27 auxiliary ones. Four kinds of values (not 'regular') are encoded otherwise than X.690 says."
  },
  {
   "property": "C36",
   "status": "proved",
   "theorems": [
    "C36_deviations_refuted",
    "C36_no_others"
   ],
   "note": ""
  },
  {
   "property": "C37",
   "status": "proved",
   "theorems": [
    "C37_open_types_round_trip",
    "C37_registered_types_unambiguous",
    "C37_nesting_bound_immaterial",
    "C37_subject_key_identifier_refuted"
   ],
   "note": "decode(encode(v)) = v; the converse (same octets back) fails for rfc2459 subject key identifiers."
  },
  {
   "property": "C38",
   "status": "proved",
   "theorems": [
    "C38_registry_keys_are_oids"
   ],
   "note": "Entries are ASN.1 objects by typing of the model; rfc5280's O/R address tables are keyed by integers."
  },
  {
   "property": "C39",
   "status": "proved",
   "theorems": [
    "C39_named_values_distinct"
   ],
   "note": ""
  },
  {
   "property": "C40",
   "status": "proved",
   "theorems": [
    "C40_prebuilt_values_recode",
    "C40_templates_do_not_encode_refuted"
   ],
   "note": "82 exported objects are incomplete templates and do not encode."
  },
  {
   "property": "C41",
   "status": "proved",
   "theorems": [
    "C41_filters_within_depth",
    "C41_deeper_filters_refuted"
   ],
   "note": "Depth 2 for Filter, 1 for Filter2, 0 for Filter3."
  },
  {
   "property": "C42",
   "status": "proved",
   "theorems": [
    "C42_cmcdump_ends_or_meets_unknown",
    "C42_unknown_layer_loops_refuted",
    "C42_unknown_content_type_loops_refuted",
    "C42_nested_layers_finish"
   ],
   "note": "The 'loops for ever' half is a defect of the tool."
  },
  {
   "property": "C43",
   "status": "proved",
   "theorems": [
    "C43_pkcs7dump_prints_content",
    "C43_key_error_iff_unknown"
   ],
   "note": ""
  },
  {
   "property": "C44",
   "status": "proved",
   "theorems": [
    "C44_governors_exist",
    "C44_misgoverned_types_refuted"
   ],
   "note": ""
  },
  {
   "property": "C45",
   "status": "proved",
   "theorems": [
    "C45_decoder_reads",
    "C45_decoder_reads_allowed",
    "C45_refuses_refuted"
   ],
   "note": "115 types of the list `tight` refuse a value that the RFC allows (C45_refuses_refuted)."
  },
  {
   "property": "C46",
   "status": "proved",
   "theorems": [
    "C46_registered_types",
    "C46_associations_present",
    "C46_omissions_refuted",
    "C46_strays_refuted",
    "C46_bounds_refuted"
   ],
   "note": "The code violates the unrestricted property: the _refuted theorems give the omitted, wrong and unbounded registrations."
  },
  {
   "property": "C47",
   "status": "proved",
   "theorems": [
    "C47_open_components",
    "C47_slots_open",
    "C47_decoded_as_registered",
    "C47_unopened_refuted",
    "C47_misplaced_refuted"
   ],
   "note": "The code violates the unrestricted property: three misplaced and eight missing open types."
  },
  {
   "property": "C48",
   "status": "proved",
   "theorems": [
    "C48_confined_encodes",
    "C48_confined_reads",
    "C48_confined_reads_allowed",
    "C48_confined_or_listed"
   ],
   "note": "21 deviating types are not confined to named components; they are the list `unconfined`."
  },
  {
   "property": "C49",
   "status": "proved",
   "theorems": [
    "C49_pem_tools_read",
    "C49_pkcs7dump_reads",
    "C49_base64_tools_read",
    "C49_attributes_refuted",
    "C49_multi_prime_refuted"
   ],
   "note": "The code violates the unrestricted property: keys with attributes (rfc5208) or a third prime (rfc2437) are not read."
  },
  {
   "property": "C50",
   "status": "proved",
   "theorems": [
    "C50_decoder_sound",
    "C50_decoder_sound_bounds",
    "C50_only_der_refuted"
   ],
   "note": "That only DER is accepted is refuted with eleven encodings; the liberties are part of the relation taken_for in Spec/Ber.v. Everything about decoding is proved for both settings of Asn1/Codec.v; C50_strict and C50_lax show them apart."
  },
  {
   "property": "C51",
   "status": "proved",
   "theorems": [
    "C51_snmpget_sends",
    "C51_snmpget_community"
   ],
   "note": ""
  },
  {
   "property": "C52",
   "status": "proved",
   "theorems": [
    "C52_never_posts_refuted",
    "C52_dies",
    "C52_would_post"
   ],
   "note": "The code violates the property; the request it would post is proved right."
  },
  {
   "property": "C53",
   "status": "proved",
   "theorems": [
    "C53_opening",
    "C53_opening_total",
    "C53_trailing_octets_refuted"
   ],
   "note": "opens_to and blocked (Asn1/Opening.v) are inductive relations over the type. Dropping of trailing octets is refuted with an rfc2459.Extension."
  },
  {
   "property": "C54",
   "status": "proved",
   "theorems": [
    "C54_tests_pass"
   ],
   "note": "What a test does with the decoded object beyond these assertions is not extracted; 18 methods have no extractable call (listed in Gen/Vectors.v)."
  },
  {
   "property": "C55",
   "status": "proved",
   "theorems": [
    "C55_more_imports_accept_less",
    "C55_order_of_imports",
    "C55_imports_reject_refuted"
   ],
   "note": "Asn1/Widening.v relates the decoders with two registries to the plain one; Load/MoreImports.v applies it to sessions."
  },
  {
   "property": "C56",
   "status": "proved",
   "theorems": [
    "C56_reencoding",
    "C56_open_components_carry",
    "C56_empty_parameters_refuted"
   ],
   "note": "keeps (Asn1/Reencode.v) is opens_to with the side conditions on each opened component. The check of all open components against all registrations is part of Spec/Checked.v."
  },
  {
   "property": "C57",
   "status": "proved",
   "theorems": [
    "C57_ocspclient_prints",
    "C57_ocspclient_refuses",
    "C57_signature_checked_refuted"
   ],
   "note": "parseOcspResponse and the end of the program are in Tools/OcspAnswer.v. C52 shows that the program as written dies before it posts its request; C57 is about the part after that. The refuted part: the signature is ignored (for all pairs of responses); C57_ex has a response with an empty signature, on another certificate, past its nextUpdate."
  },
  {
   "property": "C58",
   "status": "proved",
   "theorems": [
    "C58_decoder_complete",
    "C58_decoder_exact",
    "C58_one_value",
    "C58_decoded_whole",
    "C58_widened_refuted"
   ],
   "note": "Soundness is C50; completeness is Spec/Complete.v, an induction over the ASN.1 definitions. C58_decoder_complete needs only that the type's constraints are implied by the RFC's (not in tight). C58_widened_refuted lists the types with the additional alternative."
  },
  {
   "property": "C59",
   "status": "proved",
   "theorems": [
    "C59_confined_sound",
    "C59_confined_complete",
    "C59_confined_exact"
   ],
   "note": "Spec/Accepts.v and Spec/Complete.v are proved with a list of components left out; Spec/Leaves.v says when a value leaves them out. C59_confined_sound ignores constraints; C59_confined_exact observes them and excludes the 24 types of inexact. The 21 unconfined types are not covered."
  },
  {
   "property": "C60",
   "status": "proved",
   "theorems": [
    "C60_snmpget_receives",
    "C60_snmpget_reads_der",
    "C60_long_responses_refuted",
    "C60_answers_the_request_refuted"
   ],
   "note": "Tools/SnmpAnswer.v. The BER decoder is the DER decoder with lax; items of indefinite length are outside the model (ReceiveUnm). Uses C59 for rfc1157.Message, whose trap alternative deviates."
  },
  {
   "property": "C61",
   "status": "proved",
   "theorems": [
    "C61_exact_but_for_constraints",
    "C61_decoded_whole",
    "C61_confined"
   ],
   "note": "Spec/Own.v. Extends C58 to the loose and tight types and C59 to the inexact ones. Types within which a CHOICE has an alternative the RFC lacks (more_alternatives) are exact only in one direction; the five ambiguous types and the 21 unconfined ones are left out."
  },
  {
   "property": "C62",
   "status": "proved",
   "theorems": [
    "C62_encodes_der",
    "C62_bounds",
    "C62_reads_der",
    "C62_decoder_exact",
    "C62_one_value",
    "C62_decoded_whole",
    "C62_means_the_definition",
    "C62_spells_a_type_refuted"
   ],
   "note": "Spec/Meant.v. Does not rest on the transcriptions of the RFCs; covers the deviating, unconfined and homemade types as well. Reading excludes the five ambiguous types (C24)."
  },
  {
   "property": "C63",
   "status": "proved",
   "theorems": [
    "C63_test_methods_pass",
    "C63_assertions"
   ],
   "note": "Tools/TestLang.v, Tools/TestRun.v, Gen/TestPrograms.v (generated). Finite by nature. Not translated: a method using omitEmptyOptionals=False, and one encoding a Sequence without a value; seven more are left out because checking them takes minutes."
  },
  {
   "property": "C64",
   "status": "proved",
   "theorems": [
    "C64_nesting",
    "C64_open_nesting",
    "C64_open_nesting_constant_refuted"
   ],
   "note": "Asn1/Nesting.v, Load/Deep.v. The levels are those of the value built; the number of Python frames per level is not modelled."
  },
  {
   "property": "C65",
   "status": "proved",
   "theorems": [
    "C65_blocks",
    "C65_file",
    "C65_text",
    "C65_base64"
   ],
   "note": "Source in Gen/Scripts.v, interpreter Tools/Script.v, proofs Tools/ScriptPem.v. Python 3 branch of the version tests."
  },
  {
   "property": "C66",
   "status": "proved",
   "theorems": [
    "C66_pem_tools",
    "C66_pem_tools_count",
    "C66_base64_tools",
    "C66_pkcs7dump",
    "C66_cmcdump",
    "C66_cmcdump_ends_refuted",
    "C66_usage"
   ],
   "note": "Gen/Scripts.v, Tools/ScriptTools.v, ScriptRuns.v, ScriptMore.v, ScriptLayers.v. What is printed is the value with its type; the text of prettyPrint is not modelled."
  },
  {
   "property": "C67",
   "status": "proved",
   "theorems": [
    "C67_snmpget",
    "C67_gets",
    "C67_community",
    "C67_usage"
   ],
   "note": "Source in Gen/ScriptSnmp.v, interpreter and proof in Tools/ScriptSnmp.v. One reply per run; the text of prettyPrint is not modelled."
  },
  {
   "property": "C68",
   "status": "proved",
   "theorems": [
    "C68_class_refuted",
    "C68_request",
    "C68_dies_refuted",
    "C68_usage",
    "C68_answer",
    "C68_prints"
   ],
   "note": "Source in Gen/ScriptOcsp.v, interpreter Tools/ScriptOcsp.v, proofs there and in Tools/ScriptOcspAnswer.v. Setting components of the request and the HTTP connection are outside the interpreter; the program does not reach them. Which pyasn1 versions have cer.encoder.BitStringEncoder is left open: both cases are covered."
  },
  {
   "property": "C69",
   "status": "proved",
   "theorems": [
    "C69_category",
    "C69_clearance"
   ],
   "note": "Added after an edit of rfc3281.py l.146 inside a component that C48 exempts survived all checks. ESSSecurityLabel of rfc2634 and rfc5035 is not covered beyond its categories."
  }
 ]
}