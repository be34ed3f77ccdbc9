{
 "claims": [
  {
   "property": "C01",
   "status": "proved",
   "theorems": [
    "C01_roundtrip",
    "C01_layout",
    "C01_out_of_range",
    "C01_unpack_exact",
    "C01_unpack_inverse"
   ],
   "note": ""
  },
  {
   "property": "C02",
   "status": "proved",
   "theorems": [
    "C02_layout"
   ],
   "note": "Signatures given in are 65 bytes; Hello appends its 32-byte version field."
  },
  {
   "property": "C03",
   "status": "proved",
   "theorems": [
    "C03_same_message",
    "C03_any_form"
   ],
   "note": "Exact (an equality) for contents in wire form, slot by slot otherwise. Depth below the decoder's recursion limit and encodable sizes are hypotheses."
  },
  {
   "property": "C04",
   "status": "proved",
   "theorems": [
    "C04_encrypted",
    "C04_dump_load",
    "C04_in_clear"
   ],
   "note": "For any inverse pair of functions, and for the library's own ECIES in every reachable cache state."
  },
  {
   "property": "C05",
   "status": "proved",
   "theorems": [
    "C05_kept",
    "C05_resign_refused",
    "C05_same_signature"
   ],
   "note": ""
  },
  {
   "property": "C06",
   "status": "proved",
   "theorems": [
    "C06_sender_exact",
    "C06_mismatch",
    "C06_empty_key"
   ],
   "note": "Exact condition for every non-empty key; an empty key disables verification (C06_empty_key)."
  },
  {
   "property": "C07",
   "status": "proved",
   "theorems": [
    "C07_hash_input",
    "C07_binds"
   ],
   "note": "Both SHA-1 inputs are explicit in the conclusion."
  },
  {
   "property": "C08",
   "status": "proved",
   "theorems": [
    "C08_independent",
    "C08_nested_refuted",
    "C08_nested_covered"
   ],
   "note": "Independence of the message's own flag, and coverage of nested flags up to an explicit SHA-1 collision; C08_nested_refuted exhibits an invalidated outer signature."
  },
  {
   "property": "C09",
   "status": "proved",
   "theorems": [
    "C09_window",
    "C09_verify_time_exact",
    "C09_verify_time_errors"
   ],
   "note": ""
  },
  {
   "property": "C10",
   "status": "proved",
   "theorems": [
    "C10_admitted",
    "C10_refused"
   ],
   "note": ""
  },
  {
   "property": "C11",
   "status": "proved",
   "theorems": [
    "C11_short"
   ],
   "note": ""
  },
  {
   "property": "C12",
   "status": "proved",
   "theorems": [
    "C12_errors",
    "C12_other_classes",
    "C12_always_message_error_refuted"
   ],
   "note": "Only MessageError subclasses for every class but three; those three leak named builtin exceptions (C12_always_message_error_refuted)."
  },
  {
   "property": "C13",
   "status": "proved",
   "theorems": [
    "C13_declared_classes",
    "C13_sent_is_present",
    "C13_required_refuted"
   ],
   "note": "Present nested slots have a declared class; required slots can be bypassed by omission (C13_required_refuted)."
  },
  {
   "property": "C14",
   "status": "proved",
   "theorems": [
    "C14_signed_type_in_header",
    "C14_same_type_refuted"
   ],
   "note": "The signed bytes bind the type; the header type of a nested message is not compared with its slot (C14_same_type_refuted)."
  },
  {
   "property": "C15",
   "status": "proved",
   "theorems": [
    "C15_slots",
    "C15_each_slot",
    "C15_start_session_refuted"
   ],
   "note": "False for StartSessionResponse (C15_start_session_refuted); all other types proved."
  },
  {
   "property": "C16",
   "status": "proved",
   "theorems": [
    "C16_lists",
    "C16_empty_list",
    "C16_empty_refuted",
    "C16_list_for_single",
    "C16_single_for_list"
   ],
   "note": "Non-empty lists proved; the empty list is refused on arrival (C16_empty_refuted)."
  },
  {
   "property": "C17",
   "status": "proved",
   "theorems": [
    "C17_hello_admitted",
    "C17_hello_refused",
    "C17_gate_exact",
    "C17_parser_exact",
    "C17_parser_ascii",
    "C17_unparsable_is_mismatch",
    "C17_errors",
    "C17_own_version_refuted"
   ],
   "note": "verify_version decides exactly the stated set; own X.Y.0-prerelease versions accept nobody (C17_own_version_refuted)."
  },
  {
   "property": "C18",
   "status": "proved",
   "theorems": [
    "C18_survives_exact",
    "C18_hashed_version",
    "C18_long_version_refuted"
   ],
   "note": "Exact in both directions; C18_long_version_refuted shows a version that does not survive."
  },
  {
   "property": "C19",
   "status": "proved",
   "theorems": [
    "C19_never_rebound",
    "C19_first_registration_wins",
    "C19_duplicate_refused_unchanged",
    "C19_registration_visible",
    "C19_get_type_inverse",
    "C19_other_classes"
   ],
   "note": "Any history of registrations."
  },
  {
   "property": "C20",
   "status": "proved",
   "theorems": [
    "C20_class_to_number_and_back",
    "C20_number_to_class_and_back",
    "C20_numbers_distinct",
    "C20_contains_exactly_the_numbers",
    "C20_numbers_fit_header",
    "C20_every_registration_succeeds"
   ],
   "note": ""
  },
  {
   "property": "C21",
   "status": "proved",
   "theorems": [
    "C21_id_carries_seed",
    "C21_id_accepts_exactly_same_prefix",
    "C21_hex_variant",
    "C21_node_of_hex_seed",
    "C21_derived_id_keeps_seed"
   ],
   "note": "All seeds, clock readings and clock sequences."
  },
  {
   "property": "C22",
   "status": "proved",
   "theorems": [
    "C22_ids_unique"
   ],
   "note": "Clock readings below 2^60 ticks (year 5236); all call mixes including failing calls."
  },
  {
   "property": "C23",
   "status": "proved",
   "theorems": [
    "C23_vetted",
    "C23_generated",
    "C23_generates"
   ],
   "note": "Everything the vetting of a loaded TaskToCompute guarantees, by inversion of load."
  },
  {
   "property": "C24",
   "status": "proved",
   "theorems": [
    "C24_nested_refuted",
    "C24_vetted_stays_vetted"
   ],
   "note": "Refuted for hostile peers; messages vetted by their sender stay vetted after transport."
  },
  {
   "property": "C25",
   "status": "proved",
   "theorems": [
    "C25_exact",
    "C25_wrong_signer",
    "C25_signed",
    "C25_only_invalid_signature_refuted"
   ],
   "note": "Exact, for all keys and signatures; failures other than InvalidSignature exist (C25_only_invalid_signature_refuted)."
  },
  {
   "property": "C26",
   "status": "proved",
   "theorems": [
    "C26_exact",
    "C26_errors",
    "C26_no_list_slots",
    "C26_every_message_refuted"
   ],
   "note": "Exact for task messages; a WantToComputeTask in the chain is not checked (C26_every_message_refuted)."
  },
  {
   "property": "C27",
   "status": "proved",
   "theorems": [
    "C27_exact",
    "C27_mismatch",
    "C27_empty_key_refuted"
   ],
   "note": "Exact; empty keys skip the comparison (C27_empty_key_refuted)."
  },
  {
   "property": "C28",
   "status": "proved",
   "theorems": [
    "C28_nested_signatures"
   ],
   "note": "Every path through nested messages, every key, also keys for which verification fails."
  },
  {
   "property": "C29",
   "status": "proved",
   "theorems": [
    "C29_int_exact",
    "C29_float_exact",
    "C29_window",
    "C29_outside",
    "C29_overflow",
    "C29_not_a_number",
    "C29_float",
    "C29_infinite",
    "C29_nan",
    "C29_arrives_in_window_refuted"
   ],
   "note": "Exact for integers and floats and timestamps below 2^52; NaN is always accepted (C29_nan, C29_arrives_in_window_refuted)."
  },
  {
   "property": "C30",
   "status": "proved",
   "theorems": [
    "C30_valid",
    "C30_errors",
    "C30_from_requestor"
   ],
   "note": "Exact for reasons and attachments the slots can hold."
  },
  {
   "property": "C31",
   "status": "proved",
   "theorems": [
    "C31_equal",
    "C31_same_report_refuted"
   ],
   "note": "Exact; only TaskToCompute messages are compared (C31_same_report_refuted). The error text calls repr(self)."
  },
  {
   "property": "C32",
   "status": "proved",
   "theorems": [
    "C32_schema_invariant",
    "C32_built",
    "C32_assignment_effect",
    "C32_undeclared_key_refused",
    "C32_ctd_ids_checked"
   ],
   "note": "All constructor arguments and assignment sequences; refused assignments leave the dict as it was (item assignment is a single store after the checks)."
  },
  {
   "property": "C33",
   "status": "proved",
   "theorems": [
    "C33_success_exact",
    "C33_bad_declaration_fails",
    "C33_failure_kinds",
    "C33_header_failure",
    "C33_always_field_error_refuted",
    "C33_header_fields",
    "C33_node_fields",
    "C33_roundtrip",
    "C33_left_out",
    "C33_keyword_order"
   ],
   "note": "Exact success condition and failure kinds for all seven container classes; 'always FieldError' refuted: errors while building a nested object surface as MessageError. C33_left_out lists the required fields and the defaults explicitly."
  },
  {
   "property": "C34",
   "status": "proved",
   "theorems": [
    "C34_dict_roundtrip",
    "C34_wire_roundtrip",
    "C34_signing_keeps_hash",
    "C34_signed_verifies_only_with_key",
    "C34_verify_exact",
    "C34_verify_errors",
    "C34_missing_signature",
    "C34_hash_binds",
    "C34_owner_order",
    "C34_sorted_refuted",
    "C34_not_for_a_message"
   ],
   "note": "Round trip for built and signed headers, in memory and over CBOR; exact equality when no attribute changes form on the way (plain_header). Hash binding is up to a SHA-1 collision of the explicit preimages. C34_not_for_a_message is up to collisions and up to recovery of one key from one signature for two digests, which crypto_ok does not rule out. The docstring of to_dict claims a sorted dict; C34_sorted_refuted shows two equal headers with different hashes."
  },
  {
   "property": "C35",
   "status": "proved",
   "theorems": [
    "C35_varchar",
    "C35_varchar128",
    "C35_integer",
    "C35_positive_integer",
    "C35_port",
    "C35_port_documented_range_refuted",
    "C35_boolean",
    "C35_dict",
    "C35_version",
    "C35_ipaddress",
    "C35_only_field_errors"
   ],
   "note": "Exact for every validator, grammars stated independently of the parsers; the documented port bound 65535 is refuted (C35_port_documented_range_refuted)."
  },
  {
   "property": "C36",
   "status": "proved",
   "theorems": [
    "C36_from_bits_then_to_bits",
    "C36_from_bits_refuses_other_bits",
    "C36_to_bits_then_from_bits",
    "C36_increase",
    "C36_decrease",
    "C36_generate",
    "C36_negative_refused",
    "C36_history",
    "C36_binary_text",
    "C36_binary_text_unique",
    "C36_from_dict"
   ],
   "note": "For every random.sample behaviour. The binary text is included."
  },
  {
   "property": "C37",
   "status": "proved",
   "theorems": [
    "C37_matches_iff_no_common_bit",
    "C37_empty_mask_matches_all",
    "C37_increase_never_adds",
    "C37_decrease_never_removes",
    "C37_share",
    "C37_determined"
   ],
   "note": "sha256 is any function with 32-byte results."
  },
  {
   "property": "C38",
   "status": "proved",
   "theorems": [
    "C38_mask_for_task",
    "C38_no_potential_workers",
    "C38_share",
    "C38_none_desired",
    "C38_monotone"
   ],
   "note": "Up to 2^40 workers; math.log2 only assumed accurate to a relative margin of 2^-41 below powers of two."
  },
  {
   "property": "C39",
   "status": "proved",
   "theorems": [
    "C39_raises",
    "C39_valid_exactly",
    "C39_signed_verifies_iff_own_address",
    "C39_missing_signature_is_false",
    "C39_malformed_signature_type_error",
    "C39_signed_bytes_defined"
   ],
   "note": "Signature scheme behind crypto_ok laws. Whatever eth_account raises when it cannot recover an address is one exception (ValueError) in the model."
  },
  {
   "property": "C40",
   "status": "proved",
   "theorems": [
    "C40_one_signature",
    "C40_any_payee",
    "C40_one_payee",
    "C40_zero_addresses_refuted",
    "C40_same_bytes_same_terms",
    "C40_any_length_refuted"
   ],
   "note": "Over 20-byte hex addresses, as stated; for addresses of other lengths refuted (C40_any_length_refuted). The exception for zero addresses is needed: C40_zero_addresses_refuted."
  },
  {
   "property": "C41",
   "status": "proved",
   "theorems": [
    "C41_deposits"
   ],
   "note": ""
  },
  {
   "property": "C42",
   "status": "proved",
   "theorems": [
    "C42_download_time_least",
    "C42_download_time_monotone",
    "C42_huge_sizes_refuted",
    "C42_any_size",
    "C42_refused"
   ],
   "note": "Proved for sizes below 2^53 bytes (float division modelled as correctly rounded); refuted beyond that (C42_huge_sizes_refuted)."
  },
  {
   "property": "C43",
   "status": "proved",
   "theorems": [
    "C43_verification_time",
    "C43_verification_time_monotone",
    "C43_refused",
    "C43_times",
    "C43_report",
    "C43_raises",
    "C43_found",
    "C43_time_left_refuted",
    "C43_every_report_refuted"
   ],
   "note": "Integer timestamps in datetime range, sizes below 2^53. That every accepted report leaves time for verification, or has a time at all, is false: C43_time_left_refuted, C43_every_report_refuted."
  },
  {
   "property": "C44",
   "status": "proved",
   "theorems": [
    "C44_round_trip"
   ],
   "note": "Assumes crypto_ok (Diffie-Hellman, AES-CTR involution, lengths); calls are atomic."
  },
  {
   "property": "C45",
   "status": "proved",
   "theorems": [
    "C45_one_tag",
    "C45_shared_moved",
    "C45_accepts_exactly",
    "C45_altered_tag_rejected"
   ],
   "note": "Exact acceptance condition in every reachable cache state; the wrapping into DecryptionError by load is part of C12. golem-messages itself always passes empty shared data, so C45_shared_moved concerns other users of ECIES."
  },
  {
   "property": "C46",
   "status": "proved",
   "theorems": [
    "C46_caches_bounded",
    "C46_memoised_faithful",
    "C46_cleanup_on_miss",
    "C46_reused_whatever_the_clock",
    "C46_renewal_refuted"
   ],
   "note": "Cache bound, memo faithfulness and cleanup on a miss are proved; the renewal claim is refuted: on a cache hit the timeout is not consulted."
  },
  {
   "property": "C47",
   "status": "proved",
   "theorems": [
    "C47_copy_and_sign"
   ],
   "note": ""
  },
  {
   "property": "C48",
   "status": "proved",
   "theorems": [
    "C48_round_trip",
    "C48_prefix_free",
    "C48_dumpable",
    "C48_loaded_redumps",
    "C48_tuple_key_refuted"
   ],
   "note": "CBOR modelled concretely; every loadable value re-dumps; a tuple used as a dict key does not survive (C48_tuple_key_refuted). Sizes below 2^64 bytes."
  },
  {
   "property": "C49",
   "status": "proved",
   "theorems": [
    "C49_symmetric",
    "C49_transitive",
    "C49_received",
    "C49_flag_inside",
    "C49_flag_in_list",
    "C49_equal_parts_refuted",
    "C49_after_trip",
    "C49_before_trip_refuted",
    "C49_equality",
    "C49_encrypted_ignored",
    "C49_reflexive",
    "C49_equal_hash_refuted"
   ],
   "note": "Exact equality condition; reflexive, symmetric and transitive (C49_reflexive, C49_symmetric, C49_transitive); equality survives the wire (C49_after_trip), inequality need not (C49_before_trip_refuted); equal messages may hash differently (C49_equal_hash_refuted)."
  },
  {
   "property": "C50",
   "status": "proved",
   "theorems": [
    "C50_first_provider",
    "C50_from_chain",
    "C50_one_task",
    "C50_one_task_refuted"
   ],
   "note": "Totality and origin for everything loadable; mixing two tasks is possible when a value is missing (C50_one_task_refuted)."
  },
  {
   "property": "C51",
   "status": "proved",
   "theorems": [
    "C51_received",
    "C51_operation",
    "C51_lookup_refuted",
    "C51_first",
    "C51_none",
    "C51_exclusive",
    "C51_kind"
   ],
   "note": "All token messages and categories. That a lookup in a received token cannot fail is false: C51_lookup_refuted (a token without files is accepted)."
  },
  {
   "property": "C52",
   "status": "proved",
   "theorems": [
    "C52_hex_round_trip",
    "C52_hex_round_trip_refuted",
    "C52_uuid_round_trip",
    "C52_uuid_text_round_trip",
    "C52_hex_text_exact",
    "C52_uuid_text_exact",
    "C52_digits",
    "C52_blanks"
   ],
   "note": "Proved for non-empty byte strings; encode_hex(b'') raises IndexError (C52_hex_round_trip_refuted)."
  },
  {
   "property": "C53",
   "status": "proved",
   "theorems": [
    "C53_refuted",
    "C53_retry_without_key",
    "C53_retry_exact"
   ],
   "note": "C53_retry_exact covers every failure; C53_refuted shows that retrying with the key fails."
  },
  {
   "property": "C54",
   "status": "proved",
   "theorems": [
    "C54_equal",
    "C54_comparable_refuted",
    "C54_fills_only_missing",
    "C54_idempotent",
    "C54_stays_valid",
    "C54_super_node",
    "C54_super_node_exact"
   ],
   "note": "All nodes."
  },
  {
   "property": "C55",
   "status": "proved",
   "theorems": [
    "C55_peers",
    "C55_tasks",
    "C55_sent"
   ],
   "note": "Every element of a received list satisfies its schema."
  },
  {
   "property": "C56",
   "status": "proved",
   "theorems": [
    "C56_unknown_keyword",
    "C56_precedence",
    "C56_start_session",
    "C56_start_session_refuted"
   ],
   "note": "Exact for every class; C56_start_session_refuted is the instance that loses a received value."
  },
  {
   "property": "C57",
   "status": "proved",
   "theorems": [
    "C57_kdf_length_exact",
    "C57_kdf_length_refuted"
   ],
   "note": "False for some lengths (33..56 and others); exact length proved, counterexample given. The library only asks for 32."
  },
  {
   "property": "C58",
   "status": "proved",
   "theorems": [
    "C58_raises",
    "C58_answer_refuted",
    "C58_answers",
    "C58_provider_answers",
    "C58_concent_raises",
    "C58_all_raise",
    "C58_type_error",
    "C58_overflow",
    "C58_own_key",
    "C58_other_key",
    "C58_both_notes",
    "C58_after_trip",
    "C58_provider",
    "C58_account_refuted"
   ],
   "note": "Assumes crypto_ok including that an eth account address is the checksummed keccak of its public key; letter case matters for providers (C58_account_refuted). That every accepted TaskToCompute gets an answer is false: C58_answer_refuted."
  },
  {
   "property": "C59",
   "status": "proved",
   "theorems": [
    "C59_any_number_of_hops",
    "C59_whole",
    "C59_version",
    "C59_relay"
   ],
   "note": "C59_relay and C59_any_number_of_hops are about the other classes; C59_whole covers Hello too, whose version string is not part of the slots."
  },
  {
   "property": "C60",
   "status": "proved",
   "theorems": [
    "C60_can_be_sent_again",
    "C60_incomplete_refuted",
    "C60_sent_or_field_error"
   ],
   "note": "C60_can_be_sent_again for every accepted complete message; C60_incomplete_refuted shows that completeness is needed. C59_any_number_of_hops builds on it."
  },
  {
   "property": "C61",
   "status": "proved",
   "theorems": [
    "C61_from_git",
    "C61_white",
    "C61_valid_exact",
    "C61_interoperate",
    "C61_version_file",
    "C61_build_tag_refuted"
   ],
   "note": "git's output format is an assumption of the statement (describes); the subprocess calls themselves are not modelled."
  },
  {
   "property": "C62",
   "status": "proved",
   "theorems": [
    "C62_cut_version",
    "C62_same_gate_refuted"
   ],
   "note": "Cuts inside the prerelease are excluded by the length hypothesis; C62_same_gate_refuted shows the separator exception on a version git describes."
  },
  {
   "property": "C63",
   "status": "proved",
   "theorems": [
    "C63_unsigned_from_anyone",
    "C63_signed_from_one",
    "C63_nested",
    "C63_nowhere_else",
    "C63_required",
    "C63_required_sent",
    "C63_enums",
    "C63_enum_text",
    "C63_signers",
    "C63_signers_accepted",
    "C63_slots_sent",
    "C63_every_type",
    "C63_container_fields",
    "C63_task_source"
   ],
   "note": "Tables of type numbers, slot names, enumeration texts, roles and task sources are literals in ProtocolFacts.v, transcribed from the source independently of Classes.v; the row lemmas compare both. C63_required is about None sent explicitly: leaving a required slot out is not refused (C13)."
  },
  {
   "property": "C64",
   "status": "proved",
   "theorems": [
    "C64_constructed",
    "C64_given",
    "C64_given_refused",
    "C64_returns_refuted",
    "C64_generated",
    "C64_valid_exact",
    "C64_short_coordinate",
    "C64_signed",
    "C64_verify_exact"
   ],
   "note": "pyelliptic's generator and OpenSSL's key check are parameters; check_ok assumes the check accepts exactly the pairs that belong together. C64_returns_refuted exhibits a key for which the constructor never returns."
  },
  {
   "property": "C65",
   "status": "proved",
   "theorems": [
    "C65_one_pair",
    "C65_one_task",
    "C65_one_pair_refuted",
    "C65_evidence",
    "C65_terms",
    "C65_sender"
   ],
   "note": ""
  },
  {
   "property": "C66",
   "status": "proved",
   "theorems": [
    "C66_accepted",
    "C66_inside",
    "C66_arrives",
    "C66_delivered",
    "C66_sender_receiver"
   ],
   "note": ""
  },
  {
   "property": "C67",
   "status": "proved",
   "theorems": [
    "C67_clone",
    "C67_clone_received",
    "C67_hello_clone_refuted",
    "C67_timestamp",
    "C67_uuid",
    "C67_version",
    "C67_signed_task"
   ],
   "note": "The claim that a clone verifies like the original is false for Hello (C67_hello_clone_refuted); the statement names the exception. factory_boy itself is not modelled: the order of declarations and hooks is written out."
  },
  {
   "property": "C68",
   "status": "proved",
   "theorems": [
    "C68_container",
    "C68_node_shown",
    "C68_node_tells_refuted",
    "C68_received",
    "C68_built_refuted"
   ],
   "note": "False for constructed messages (C68_built_refuted); the statement says so. The text is represented by its parts."
  },
  {
   "property": "C69",
   "status": "proved",
   "theorems": [
    "C69_total",
    "C69_accepted",
    "C69_delivered",
    "C69_payment"
   ],
   "note": "The parts of a reply come from the factories themselves; a verdict's acknowledgement and ForceReportComputedTask hold the same report. Delivery needs the receiver's CBOR recursion depth to suffice."
  },
  {
   "property": "C70",
   "status": "proved",
   "theorems": [
    "C70_verifies",
    "C70_reject",
    "C70_response",
    "C70_results_response",
    "C70_token",
    "C70_signed_refuted"
   ],
   "note": "The naive claim that a message from a factory given sign__privkey verifies is false; the statement names the exceptions (C70_signed_refuted)."
  },
  {
   "property": "C71",
   "status": "proved",
   "theorems": [
    "C71_reject",
    "C71_response",
    "C71_response_refuted"
   ],
   "note": "False for with_reject_report_computed_task in the code (C71_response_refuted)."
  },
  {
   "property": "C72",
   "status": "proved",
   "theorems": [
    "C72_names",
    "C72_properties",
    "C72_address",
    "C72_only_slots",
    "C72_order",
    "C72_order_refuted",
    "C72_errors"
   ],
   "note": "That the order of keywords never matters is false in the code (C72_order_refuted)."
  },
  {
   "property": "C73",
   "status": "proved",
   "theorems": [
    "C73_formed",
    "C73_payload",
    "C73_dump",
    "C73_errors",
    "C73_slots"
   ],
   "note": ""
  },
  {
   "property": "C74",
   "status": "proved",
   "theorems": [
    "C74_loads",
    "C74_refused",
    "C74_unique",
    "C74_text",
    "C74_half",
    "C74_single",
    "C74_patterns"
   ],
   "note": ""
  },
  {
   "property": "C75",
   "status": "proved",
   "theorems": [
    "C75_later",
    "C75_sent",
    "C75_other_bytes",
    "C75_appended",
    "C75_verifies_later_refuted"
   ],
   "note": "The converse, that whatever is accepted on arrival verifies afterwards, is false: C75_verifies_later_refuted."
  },
  {
   "property": "C76",
   "status": "proved",
   "theorems": [
    "C76_only_content",
    "C76_in_clear",
    "C76_sealed",
    "C76_no_key",
    "C76_accepted_only_encrypted_refuted"
   ],
   "note": "That a class to be encrypted is accepted only encrypted is false: C76_accepted_only_encrypted_refuted."
  },
  {
   "property": "C77",
   "status": "proved",
   "theorems": [
    "C77_frames",
    "C77_slots",
    "C77_one_reading",
    "C77_one_message",
    "C77_class_checks",
    "C77_containers"
   ],
   "note": ""
  },
  {
   "property": "C78",
   "status": "proved",
   "theorems": [
    "C78_total",
    "C78_accepted",
    "C78_delivered",
    "C78_token_refuted"
   ],
   "note": "C78_token_refuted: an accepted reply need not hold a token that verifies."
  },
  {
   "property": "C79",
   "status": "proved",
   "theorems": [
    "C79_key",
    "C79_built",
    "C79_one",
    "C79_empty",
    "C79_rejected_empty",
    "C79_recipient"
   ],
   "note": ""
  },
  {
   "property": "C80",
   "status": "proved",
   "theorems": [
    "C80_delivered",
    "C80_hello",
    "C80_peer",
    "C80_peers",
    "C80_peer_refuted"
   ],
   "note": "C80_peer_refuted: the factory may draw port 65535, which the validator refuses."
  },
  {
   "property": "C81",
   "status": "proved",
   "theorems": [
    "C81_raised",
    "C81_raises",
    "C81_one_fate"
   ],
   "note": ""
  },
  {
   "property": "C82",
   "status": "proved",
   "theorems": [
    "C82_blame",
    "C82_read_or_blame",
    "C82_nested_field_error"
   ],
   "note": ""
  },
  {
   "property": "C83",
   "status": "proved",
   "theorems": [
    "C83_node",
    "C83_header",
    "C83_stats",
    "C83_dict",
    "C83_file",
    "C83_slot",
    "C83_named"
   ],
   "note": ""
  },
  {
   "property": "C84",
   "status": "proved",
   "theorems": [
    "C84_raised",
    "C84_one_reason",
    "C84_not_both",
    "C84_foreign",
    "C84_hash"
   ],
   "note": ""
  },
  {
   "property": "C85",
   "status": "proved",
   "theorems": [
    "C85_raised",
    "C85_hex",
    "C85_chain",
    "C85_order",
    "C85_owners"
   ],
   "note": ""
  },
  {
   "property": "C86",
   "status": "proved",
   "theorems": [
    "C86_alone",
    "C86_sealed",
    "C86_opened",
    "C86_round_trip",
    "C86_finishes",
    "C86_reused_refuted"
   ],
   "note": "Proved for every interleaving; that one manager shares the ephemeral key between encryptions to one recipient holds only one call at a time (C86_reused_refuted)."
  },
  {
   "property": "C87",
   "status": "proved",
   "theorems": [
    "C87_alone",
    "C87_carries_seed",
    "C87_equal_ids",
    "C87_finishes",
    "C87_unique_refuted",
    "C87_later_refuted"
   ],
   "note": "Seed and termination for every interleaving; uniqueness across threads is refuted by two schedules."
  },
  {
   "property": "C88",
   "status": "proved",
   "theorems": [
    "C88_alone",
    "C88_agreeing",
    "C88_frame",
    "C88_finishes",
    "C88_secret_refuted",
    "C88_readable_refuted",
    "C88_plain_refuted",
    "C88_signed_refuted"
   ],
   "note": "Agreeing calls and the make-up of any frame for every interleaving; the four ways in which disagreeing calls disturb each other are exhibited."
  },
  {
   "property": "C89",
   "status": "proved",
   "theorems": [
    "C89_text",
    "C89_bytes",
    "C89_injective",
    "C89_refused",
    "C89_sign_fails",
    "C89_verify_exact",
    "C89_verify_fails",
    "C89_round_trip",
    "C89_type_refuted",
    "C89_made"
   ],
   "note": "C89_type_refuted: a signature does not distinguish text from the bytes of its encoding. Assumption: rlp 0.6.0's str_to_bytes is bytes(x, 'utf-8') for anything that is not bytes (read from memory of that library, not available in the sandbox)."
  },
  {
   "property": "C90",
   "status": "proved",
   "theorems": [
    "C90_signable",
    "C90_no_comma",
    "C90_text_refuted",
    "C90_missing_refuted",
    "C90_bool_amount"
   ],
   "note": "C90_text_refuted and C90_missing_refuted show the exceptions. Values other than text, numbers, booleans and None are not shown by the model."
  },
  {
   "property": "C91",
   "status": "proved",
   "theorems": [
    "C91_each",
    "C91_one_decryption",
    "C91_decryption_made",
    "C91_again",
    "C91_span",
    "C91_unchecked",
    "C91_once_refuted"
   ],
   "note": "C91_once_refuted: no protection against replays within the window of freshness."
  },
  {
   "property": "C92",
   "status": "proved",
   "theorems": [
    "C92_guaranteed",
    "C92_refused",
    "C92_tight",
    "C92_whole_seconds_refuted"
   ],
   "note": "C92_whole_seconds_refuted contradicts the docstring of verify_time ('deliberately ignores microseconds')."
  },
  {
   "property": "C93",
   "status": "proved",
   "theorems": [
    "C93_independent",
    "C93_only_these",
    "C93_own_key",
    "C93_own_key_refuted",
    "C93_one_answer_refuted",
    "C93_attached_refuted"
   ],
   "note": "The documented rules themselves are refuted (C93_own_key_refuted, C93_one_answer_refuted, C93_attached_refuted); the statement says what holds instead. C93_independent is about decoded slots; the frames of the refutations are actual bytes."
  },
  {
   "property": "C94",
   "status": "proved",
   "theorems": [
    "C94_own",
    "C94_own_ethsig",
    "C94_content_ignored",
    "C94_verified",
    "C94_ethsig_verified",
    "C94_ethsig_made",
    "C94_loading",
    "C94_intact_refuted"
   ],
   "note": "The docstring of verify_signature is refuted for a given hash (C94_intact_refuted). A given hash is bytes in the model."
  },
  {
   "property": "C95",
   "status": "proved",
   "theorems": [
    "C95_copy",
    "C95_own_attributes",
    "C95_untouched",
    "C95_follows",
    "C95_stays_signed_refuted",
    "C95_defaults",
    "C95_defaults_apart"
   ],
   "note": "That a signed copy stays correctly signed whatever is done to the original is refuted (C95_stays_signed_refuted); the statement says which changes are harmless. Containers (Node, TaskHeader, ...) are values here, not objects."
  },
  {
   "property": "C96",
   "status": "proved",
   "theorems": [
    "C96_dump",
    "C96_acyclic",
    "C96_again",
    "C96_contained_refuted"
   ],
   "note": "That dumping a contained message leaves the signature of the containing one valid is refuted (C96_contained_refuted): its flag is covered."
  },
  {
   "property": "C97",
   "status": "proved",
   "theorems": [
    "C97_same_signature",
    "C97_plain",
    "C97_made_ping",
    "C97_retyped"
   ],
   "note": "The type of a frame can be changed to any of the twelve types that are not signed (C97_made_ping, C97_retyped); C97_same_signature and C97_plain therefore ask that both types are signed."
  },
  {
   "property": "C98",
   "status": "proved",
   "theorems": [
    "C98_passed_on",
    "C98_encrypted_for_me_refuted"
   ],
   "note": "Intended reading refuted on a RemoveTask (C98_encrypted_for_me_refuted). Task messages name their parties inside; verify_owners (C27) with one's own key is what tells."
  },
  {
   "property": "C99",
   "status": "proved",
   "theorems": [
    "C99_address",
    "C99_address_refuted",
    "C99_of_the_offer",
    "C99_nothing_else",
    "C99_taken_over",
    "C99_provider_named",
    "C99_one_owner",
    "C99_control_refuted"
   ],
   "note": "Exact condition (C99_of_the_offer), independence of everything else (C99_nothing_else), takeover in general (C99_taken_over, C99_provider_named), what does identify the requestor (C99_one_owner). The docstring's claim that the requestor controls the address is refuted (C99_control_refuted). That the address belongs to the key whose signature is checked is false for keys given as bytes: C99_address_refuted."
  }
 ]
}