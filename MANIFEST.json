{
 "claims": [
  {
   "property": "C01",
   "status": "proved",
   "theorems": [
    "C01_signature_base_layout"
   ],
   "note": ""
  },
  {
   "property": "C02",
   "status": "proved",
   "theorems": [
    "C02_missing_components",
    "C02_derivation_panic"
   ],
   "note": ""
  },
  {
   "property": "C03",
   "status": "proved",
   "theorems": [
    "C03_base_binds_components_and_parameters"
   ],
   "note": "Decimals are compared by value (printing normalises trailing zeros)."
  },
  {
   "property": "C04",
   "status": "proved",
   "theorems": [
    "C04_base_binds_values",
    "C04_base_binds_values_same_config"
   ],
   "note": ""
  },
  {
   "property": "C05",
   "status": "partial",
   "theorems": [
    "C05_query_parameters_bound_partial",
    "C05_query_parameters_bound_mock_partial",
    "C05_query_parameters_bound_refuted",
    "C05_absent_parameter_refuted"
   ],
   "note": "False as stated: values are joined with LF and may contain LF, and an absent parameter gives the same text as one empty value (two refutations). Proved: without line feeds in values, equal bases give equal lists of values, up to absent versus one empty value, for reqwest and MockRequest."
  },
  {
   "property": "C06",
   "status": "proved",
   "theorems": [
    "C06_only_covered_components_matter"
   ],
   "note": ""
  },
  {
   "property": "C07",
   "status": "proved",
   "theorems": [
    "C07_signature_input_round_trip"
   ],
   "note": "Decimals are compared by value."
  },
  {
   "property": "C08",
   "status": "proved",
   "theorems": [
    "C08_parsed_configuration_reserializes"
   ],
   "note": "Decimals are compared by value."
  },
  {
   "property": "C09",
   "status": "proved",
   "theorems": [
    "C09_sign_then_verify",
    "C09_mock_sign_then_verify",
    "C09_crate_algorithms_match"
   ],
   "note": "Covered components must not be the signature or signature-input headers themselves (sign overwrites those)."
  },
  {
   "property": "C10",
   "status": "proved",
   "theorems": [
    "C10_tampering_is_detected",
    "C10_hmac_sha256",
    "C10_hmac_sha512"
   ],
   "note": "Components whose value has line feeds need as many on both sides (see C05)."
  },
  {
   "property": "C100",
   "status": "proved",
   "theorems": [
    "C100_what_was_signed_arrives",
    "C100_the_body_arrives"
   ],
   "note": "Derived components whose value has a line feed are excluded (C05), and labels with an equals sign (C19)."
  },
  {
   "property": "C101",
   "status": "proved",
   "theorems": [
    "C101_accepted_was_signed",
    "C101_parsed_lines"
   ],
   "note": "The runs cover no @query-params (C05). The second theorem is for the modelled URL parser; host name parsers have the laws of SpecUrl.v."
  },
  {
   "property": "C102",
   "status": "partial",
   "theorems": [
    "C102_never_what_is_signed",
    "C102_what_a_run_signs",
    "C102_alike_but_parameters",
    "C102_shown_if_signed",
    "C102_what_is_digested_refuted"
   ],
   "note": "The expectation is false: the two commands put the parameters in different orders. The exact difference and when canonicalize prints are proved."
  },
  {
   "property": "C103",
   "status": "proved",
   "theorems": [
    "C103_signed_elsewhere",
    "C103_last_line",
    "C103_base64",
    "C103_empty_nonce"
   ],
   "note": "An empty nonce is excluded from the statement: what canonicalize shows for it makes verify panic, whatever the signature, keys and options (C103_empty_nonce)."
  },
  {
   "property": "C11",
   "status": "proved",
   "theorems": [
    "C11_accepted_by_a_key_of_the_key_id"
   ],
   "note": ""
  },
  {
   "property": "C12",
   "status": "proved",
   "theorems": [
    "C12_acceptance"
   ],
   "note": "Holds for clock readings between the epoch and the range of i64 seconds / chrono dates."
  },
  {
   "property": "C13",
   "status": "proved",
   "theorems": [
    "C13_created_in_the_future_rejected",
    "C13_expires_in_the_past_rejected",
    "C13_accepting_clocks_are_an_interval"
   ],
   "note": "Finding: a created or expires that is not an integer is ignored by the code."
  },
  {
   "property": "C14",
   "status": "proved",
   "theorems": [
    "C14_times_of_a_successful_sign",
    "C14_errors"
   ],
   "note": ""
  },
  {
   "property": "C15",
   "status": "proved",
   "theorems": [
    "C15_date_parameter_bounds_the_skew"
   ],
   "note": ""
  },
  {
   "property": "C16",
   "status": "partial",
   "theorems": [
    "C16_date_check_rejects_every_signed_request",
    "C16_default_configuration_refuted"
   ],
   "note": "False of the code: sign never writes a date parameter, so the default verifying configuration rejects everything sign produces. Proved for all requests and configurations."
  },
  {
   "property": "C17",
   "status": "proved",
   "theorems": [
    "C17_required_components_are_signed",
    "C17_signed_headers_satisfy_the_requirement"
   ],
   "note": ""
  },
  {
   "property": "C18",
   "status": "partial",
   "theorems": [
    "C18_required_derived_always_rejected",
    "C18_required_derived_satisfiable_refuted"
   ],
   "note": "False of the code: a required derived component makes verify reject every request (the required component is looked up by its printed, quoted form). The negative is proved for all requests, with a witness."
  },
  {
   "property": "C19",
   "status": "partial",
   "theorems": [
    "C19_other_labels_rejected",
    "C19_crate_algorithms_apply",
    "C19_label_refuted",
    "C19_label_sig_partial"
   ],
   "note": "False of the code: Signature-Input always uses the label sig. Every other label is rejected; the label sig works (C09)."
  },
  {
   "property": "C20",
   "status": "proved",
   "theorems": [
    "C20_digest_matches_the_body",
    "C20_mock_request_digest",
    "C20_default_digests"
   ],
   "note": ""
  },
  {
   "property": "C21",
   "status": "proved",
   "theorems": [
    "C21_body_without_digest_rejected",
    "C21_no_body_no_digest_needed"
   ],
   "note": ""
  },
  {
   "property": "C22",
   "status": "partial",
   "theorems": [
    "C22_unsigned_digest_body_replaceable",
    "C22_required_digest_is_covered_refuted",
    "C22_digest_covered_when_required_component"
   ],
   "note": "False of the code: the Digest header need not be signed; any accepted request that does not cover Digest stays accepted with another body. It holds when Digest is configured as a required component (proved)."
  },
  {
   "property": "C23",
   "status": "proved",
   "theorems": [
    "C23_keys_since_forgotten"
   ],
   "note": "For every history of construction, add, remove_all and clear."
  },
  {
   "property": "C24",
   "status": "proved",
   "theorems": [
    "C24_keys_as_a_set"
   ],
   "note": ""
  },
  {
   "property": "C25",
   "status": "proved",
   "theorems": [
    "C25_laws",
    "C25_frame",
    "C25_frame_mock",
    "C25_frame_reqwest"
   ],
   "note": ""
  },
  {
   "property": "C26",
   "status": "proved",
   "theorems": [
    "C26_failed_sign_attaches_nothing"
   ],
   "note": ""
  },
  {
   "property": "C27",
   "status": "proved",
   "theorems": [
    "C27_sign_panics_exactly_on_unprintable_values",
    "C27_printable_parameters",
    "C27_no_panic_on_representable_configurations"
   ],
   "note": ""
  },
  {
   "property": "C28",
   "status": "partial",
   "theorems": [
    "C28_verify_panics_exactly_on_unreadable_input",
    "C28_verify_never_panics_refuted"
   ],
   "note": "False of the code: verify panics on a request whose Signature-Input is malformed. The exact panic condition is proved."
  },
  {
   "property": "C29",
   "status": "proved",
   "theorems": [
    "C29_hmac_text_is_canonical",
    "C29_base64_decoding_is_canonical",
    "C29_ring_text_is_canonical"
   ],
   "note": ""
  },
  {
   "property": "C30",
   "status": "partial",
   "theorems": [
    "C30_several_signatures_always_rejected",
    "C30_verifiers_reject_commas",
    "C30_several_signatures_refuted"
   ],
   "note": "False of the code: any Signature header with a comma is rejected. Proved for all requests and all verifiers of the crate."
  },
  {
   "property": "C31",
   "status": "proved",
   "theorems": [
    "C31_headers_last_write_wins",
    "C31_with_header",
    "C31_with_header_panics"
   ],
   "note": "For both reqwest types and MockRequest (C25_laws), any history of writes. Readable (visible ASCII) values; opaque ones are C39."
  },
  {
   "property": "C32",
   "status": "partial",
   "theorems": [
    "C32_printed_parses_back",
    "C32_accepted_is_valid",
    "C32_headers_exactly",
    "C32_unquoted_at_rejected",
    "C32_other_names_never_parse_back_refuted"
   ],
   "note": "Proved for every representable component and every text. False for derived components constructed with a name without @, which print but never parse back."
  },
  {
   "property": "C33",
   "status": "partial",
   "theorems": [
    "C33_order_of_printed_forms",
    "C33_comparison_panics",
    "C33_total_order",
    "C33_equality",
    "C33_equality_is_an_equivalence",
    "C33_equal_in_order_is_equal",
    "C33_parameter_order_refuted",
    "C33_decimal_digits_refuted",
    "C33_consistent_with_equality_partial",
    "C33_derived_order_partial",
    "C33_derived_order_refuted",
    "C33_derived_mixed_types_refuted",
    "C33_byte_order",
    "C33_partial_order",
    "C33_derived_values_partial"
   ],
   "note": "SignatureComponent: total order, Equal implies ==; the converse is false with several parameters or decimals, and proved otherwise. DerivedComponent: the order looks at names only, and is no order on mixed item types."
  },
  {
   "property": "C34",
   "status": "proved",
   "theorems": [
    "C34_query_parameters_defined",
    "C34_query_params_derive",
    "C34_query_params_derive_mock",
    "C34_encoded_parameters",
    "C34_lossy_decoding"
   ],
   "note": "Form decoding and lossy UTF-8 are specified as relations and shown to be functions; encoding then decoding gives back any UTF-8 names and values."
  },
  {
   "property": "C35",
   "status": "partial",
   "theorems": [
    "C35_request_line_components_partial",
    "C35_request_line_components_mock_partial",
    "C35_url_text_defined",
    "C35_request_target_never_origin_form_refuted",
    "C35_target_uri_fragment_refuted"
   ],
   "note": "All components are characterized exactly. Finding: @request-target is the whole URL, never the origin form, and @target-uri contains the fragment."
  },
  {
   "property": "C36",
   "status": "partial",
   "theorems": [
    "C36_authority_refuted",
    "C36_mock_authority_never_derives_refuted",
    "C36_authority_identifies_host_partial"
   ],
   "note": "False as stated: the port is dropped, and MockRequest never derives @authority. Proved: for reqwest, different hosts give different values."
  },
  {
   "property": "C37",
   "status": "partial",
   "theorems": [
    "C37_repeated_header_refuted",
    "C37_only_first_values_matter",
    "C37_only_first_values_matter_mock",
    "C37_first_value_bound_partial"
   ],
   "note": "False as stated: only the first value is covered. Proved: exactly the first values matter, and they are bound."
  },
  {
   "property": "C38",
   "status": "proved",
   "theorems": [
    "C38_write_then_read",
    "C38_text_written",
    "C38_read_then_write_then_read",
    "C38_version_refuted",
    "C38_headers_refuted"
   ],
   "note": "Method, target, URL, headers and body survive, for every request in text_request and everything that was ever read. The HTTP version, repeated header names and padded values do not (they are outside the claim)."
  },
  {
   "property": "C39",
   "status": "partial",
   "theorems": [
    "C39_opaque_headers_refuted",
    "C39_opaque_header_missing_partial",
    "C39_mock_headers_bound_partial",
    "C37_first_value_bound_partial"
   ],
   "note": "False for MockRequest (opaque values are signed as the empty text). Proved: reqwest treats them as missing, and MockRequest confuses nothing else."
  },
  {
   "property": "C40",
   "status": "proved",
   "theorems": [
    "C40_date_header",
    "C40_date_text_determines_the_second",
    "C40_date_text_always_legal",
    "C40_after_9999"
   ],
   "note": ""
  },
  {
   "property": "C41",
   "status": "proved",
   "theorems": [
    "C41_parameters_are_an_ordered_map",
    "C41_printed_in_order_of_setting",
    "C41_getters"
   ],
   "note": "Every sequence of setter calls."
  },
  {
   "property": "C42",
   "status": "partial",
   "theorems": [
    "C42_canonicalize_config",
    "C42_signing_config",
    "C42_default_signing_config",
    "C42_verifying_config",
    "C42_verifying_config_runs",
    "C42_documented_signing_components_refuted",
    "C42_documented_required_components_refuted"
   ],
   "note": "All getters of the three configurations follow the last call of their setter. False: the documented default component lists are not the actual (empty) ones; setting unprintable required components panics."
  },
  {
   "property": "C43",
   "status": "proved",
   "theorems": [
    "C43_coverage",
    "C43_missing_component_fails"
   ],
   "note": ""
  },
  {
   "property": "C44",
   "status": "partial",
   "theorems": [
    "C44_nonce_is_a_token",
    "C44_other_nonces_panic",
    "C44_any_nonce_signs_refuted",
    "C44_empty_nonce_refuted",
    "C44_empty_nonce_panics"
   ],
   "note": "False of the code: the nonce is written as a token; a nonce that is no token panics; an empty one signs, but every verifier that reads the Signature-Input header then panics, whatever its configuration. The exact behaviour is proved."
  },
  {
   "property": "C45",
   "status": "proved",
   "theorems": [
    "C45_later_members",
    "C45_first_member_only"
   ],
   "note": ""
  },
  {
   "property": "C46",
   "status": "partial",
   "theorems": [
    "C46_field_parameters_ignored",
    "C46_field_parameters_honoured_refuted",
    "C46_derived_parameters_honoured_partial"
   ],
   "note": "False of the code for header fields (their parameters are dropped); true for derived components."
  },
  {
   "property": "C47",
   "status": "partial",
   "theorems": [
    "C47_zero_padded_keys_agree",
    "C47_long_keys_are_hashed",
    "C47_distinct_keys_refuted"
   ],
   "note": "False as stated. Proved: exactly how HMAC identifies keys (zero padding, hashing of long keys). That other keys give different signatures is a cryptographic assumption about SHA-2, not provable."
  },
  {
   "property": "C48",
   "status": "partial",
   "theorems": [
    "C48_sign_options",
    "C48_verify_options",
    "C48_canonicalize_options",
    "C48_no_algorithm_accepts_nothing",
    "C48_nonce_ignored_refuted",
    "C48_documented_algorithms_refuted"
   ],
   "note": "The configurations and errors are exactly characterised. False: the documented hmac algorithms are not supported, and sign ignores the nonce option."
  },
  {
   "property": "C49",
   "status": "partial",
   "theorems": [
    "C49_reading_panics_iff",
    "C49_reading_accepts_iff",
    "C49_reading_panics_refuted",
    "C49_binary_body_panics_when_tracing",
    "C49_reading_panics_on_urls"
   ],
   "note": "False as stated; the exact conditions of the panics are proved."
  },
  {
   "property": "C50",
   "status": "proved",
   "theorems": [
    "C50_text_lengths",
    "C50_accepted_lengths"
   ],
   "note": "For the modelled SHA-2 and HMAC."
  },
  {
   "property": "C51",
   "status": "partial",
   "theorems": [
    "C51_ring_names",
    "C51_ring_type_refuted",
    "C51_openssl_names_partial",
    "C51_openssl_pss_is_pkcs1_refuted",
    "C51_hmac_names"
   ],
   "note": "True of the names ring types report; false of the type RsaPssSha256 (ring) and of the openssl PSS types."
  },
  {
   "property": "C52",
   "status": "partial",
   "theorems": [
    "C52_sign_then_verify",
    "C52_label_refuted",
    "C52_other_labels_never_verify"
   ],
   "note": "Proved with the default label; for every other label (without leading white space) proved that nothing is accepted."
  },
  {
   "property": "C53",
   "status": "proved",
   "theorems": [
    "C53_signature_input",
    "C53_configuration",
    "C53_configuration_panics",
    "C53_derived_component",
    "C53_unambiguous"
   ],
   "note": "Against the grammar relations of SpecGrammar.v."
  },
  {
   "property": "C54",
   "status": "proved",
   "theorems": [
    "C54_spki",
    "C54_pkcs1",
    "C54_same_key",
    "C54_private_pem",
    "C54_private_keys"
   ],
   "note": "PEM and SubjectPublicKeyInfo parsing are modelled; reading a private key is a function of the library."
  },
  {
   "property": "C55",
   "status": "partial",
   "theorems": [
    "C55_spki_structure",
    "C55_spki_pem_structure",
    "C55_kind_of_key_refuted",
    "C55_wrong_key_accepts_nothing",
    "C55_openssl_pkcs8_pem_refuted",
    "C55_pem_exact",
    "C55_one_reading",
    "C55_files_read"
   ],
   "note": "SPKI structure and PEM text are checked exactly; labels, algorithm identifiers and PKCS#1 contents are not, so the expectation is false; what a wrong key then does is proved."
  },
  {
   "property": "C56",
   "status": "partial",
   "theorems": [
    "C56_pkcs1_partial",
    "C56_spki_partial",
    "C56_spki_refuted"
   ],
   "note": "True for PKCS#1; for SPKI true with rsa-v1_5-sha256 only and false with the others."
  },
  {
   "property": "C57",
   "status": "proved",
   "theorems": [
    "C57_accepted_was_signed",
    "C57_single_lines"
   ],
   "note": "A forgery is a request whose own signature a key accepts over its own signature base, a text that no call signed; no cryptographic assumption is made."
  },
  {
   "property": "C58",
   "status": "proved",
   "theorems": [
    "C58_laxer_configurations_accept_more"
   ],
   "note": ""
  },
  {
   "property": "C59",
   "status": "proved",
   "theorems": [
    "C59_verdict_depends_on_covered_parts",
    "C59_uncovered_header"
   ],
   "note": ""
  },
  {
   "property": "C60",
   "status": "proved",
   "theorems": [
    "C60_signing_again",
    "C60_signing_again_later",
    "C60_laws"
   ],
   "note": ""
  },
  {
   "property": "C61",
   "status": "proved",
   "theorems": [
    "C61_unauthentic_body_not_read",
    "C61_handed_back"
   ],
   "note": ""
  },
  {
   "property": "C62",
   "status": "proved",
   "theorems": [
    "C62_base_is_text",
    "C62_reqwest_and_mock"
   ],
   "note": "Method and URL parts are assumed to be UTF-8, which their Rust types guarantee."
  },
  {
   "property": "C63",
   "status": "partial",
   "theorems": [
    "C63_duplicate_components_refuted",
    "C63_any_relisting_is_signed"
   ],
   "note": "False: the witness is signed and accepted; any list with repetitions is signed, and C09 accepts it."
  },
  {
   "property": "C64",
   "status": "proved",
   "theorems": [
    "C64_sha256",
    "C64_sha512",
    "C64_digest_texts",
    "C64_hmac_texts"
   ],
   "note": "SpecSha.v is written from the standards: bits of words, roots of primes, conditions on padding. The hash functions live in dependencies (sha2, hmac) that are modelled, not verified from source."
  },
  {
   "property": "C65",
   "status": "proved",
   "theorems": [
    "C65_completed",
    "C65_reqwest",
    "C65_reqwest_blocking",
    "C65_mock",
    "C65_reqwest_no_digest",
    "C65_reqwest_no_host",
    "C65_mock_no_digest"
   ],
   "note": ""
  },
  {
   "property": "C66",
   "status": "proved",
   "theorems": [
    "C66_outcome",
    "C66_outcome_unique",
    "C66_headers",
    "C66_signed"
   ],
   "note": "For requests that meet the trait laws and whose host and digest are readable texts; C27 says when sign panics."
  },
  {
   "property": "C67",
   "status": "proved",
   "theorems": [
    "C67_verify_is_specified",
    "C67_verify_is_a_function"
   ],
   "note": "For requests whose derive does not panic on string items (the request types of the crate, see C25) and required components that can be printed."
  },
  {
   "property": "C68",
   "status": "proved",
   "theorems": [
    "C68_window",
    "C68_interval",
    "C68_replay"
   ],
   "note": ""
  },
  {
   "property": "C69",
   "status": "proved",
   "theorems": [
    "C69_current_keys",
    "C69_revoked",
    "C69_other_keys",
    "C69_rotation"
   ],
   "note": ""
  },
  {
   "property": "C70",
   "status": "partial",
   "theorems": [
    "C70_reqwest_to_mock",
    "C70_authority_never_verifies",
    "C70_streamed_body_rejected"
   ],
   "note": "False for @authority (MockRequest has no host) and for streamed bodies of the asynchronous client, both shown for all requests; proved for the rest."
  },
  {
   "property": "C71",
   "status": "proved",
   "theorems": [
    "C71_canonicalize_is_specified",
    "C71_sign_is_specified",
    "C71_verify_is_specified"
   ],
   "note": "The URL parser, the file system and the signature primitives are arguments of the model."
  },
  {
   "property": "C72",
   "status": "partial",
   "theorems": [
    "C72_failing_runs_print",
    "C72_successful_runs_print",
    "C72_failing_runs_print_nothing_refuted"
   ],
   "note": "False as stated: sign mode prints a truncated request when a header value is not visible ASCII. Proved: the exact condition and what is printed."
  },
  {
   "property": "C73",
   "status": "partial",
   "theorems": [
    "C73_replaced_headers",
    "C73_replaced_headers_hmac",
    "C73_countersigning_refuted"
   ],
   "note": "False as stated (refuted by an example); proved for all requests: acceptance means the header was replaced by its own value, or a forgery."
  },
  {
   "property": "C74",
   "status": "proved",
   "theorems": [
    "C74_same_result",
    "C74_same_headers",
    "C74_async_and_blocking",
    "C74_reqwest_and_mock",
    "C74_streamed_bodies_refuted",
    "C74_unreadable_headers_refuted"
   ],
   "note": "The two refutations show that the exceptions named in the statement are needed."
  },
  {
   "property": "C75",
   "status": "partial",
   "theorems": [
    "C75_parser_meets_the_url_standard",
    "C75_target_follows_host",
    "C75_path_as_written_iff",
    "C75_query_as_written_iff",
    "C75_target_uri_as_written",
    "C75_targets_not_told_apart",
    "C75_host_refuted"
   ],
   "note": "False as stated; proved: the exact condition under which path and query are signed as written, and that \"/.\" before any target changes nothing. The parser of host names is an argument; C79 instantiates it."
  },
  {
   "property": "C76",
   "status": "proved",
   "theorems": [
    "C76_text_stands_for_its_url",
    "C76_target_uri_determines_the_url",
    "C76_validator_requests",
    "C76_reqwest_requests",
    "C76_accepted_from_reqwest",
    "C76_accepted_from_validator",
    "C76_parsed_urls_have_no_line_feeds"
   ],
   "note": "For the special schemes other than file, and host name parsers with the laws of SpecUrl.v. The acceptance theorems assume that @query-params is not covered (C05)."
  },
  {
   "property": "C77",
   "status": "proved",
   "theorems": [
    "C77_accepted_requests_were_signed",
    "C77_accepted_requests_were_sent",
    "C77_body_added_refuted"
   ],
   "note": "Assumes that the Digest header is absent before signing and @query-params is not covered (C05); host name parsers have the laws of SpecUrl.v. The last theorem is the exception named in the statement."
  },
  {
   "property": "C78",
   "status": "proved",
   "theorems": [
    "C78_logging_changes_nothing",
    "C78_rejection_says_why",
    "C78_one_reason",
    "C78_verdict_and_log",
    "C78_one_line",
    "C78_log_hides_the_keys",
    "C78_texts_of_the_sender",
    "C78_lines_before_a_panic"
   ],
   "note": "One constructor per info! statement with the values it prints; the fixed wording of the lines is not modelled. The clocks are assumed to read after 1970."
  },
  {
   "property": "C79",
   "status": "proved",
   "theorems": [
    "C79_host_parser_meets_the_url_standard",
    "C79_one_host_one_text",
    "C79_text_stands_for_its_host",
    "C79_texts_tell_hosts_apart",
    "C79_host_parser_has_the_laws",
    "C79_urls_address_one_host",
    "C79_authority_tells_hosts_apart",
    "C79_accepted_requests_are_for_the_signed_host"
   ],
   "note": "The IDNA mapping of non-ASCII names is a function with three stated laws (idna_laws); lower-casing of ASCII names is an instance."
  },
  {
   "property": "C80",
   "status": "proved",
   "theorems": [
    "C80_command_lines",
    "C80_program",
    "C80_help",
    "C80_order_and_spelling_do_not_matter",
    "C80_position_does_not_matter",
    "C80_every_configuration_can_be_given",
    "C80_hyphens_are_not_accepted_apart",
    "C80_headers_before_the_mode",
    "C80_any_value_anywhere_refuted",
    "C80_readme_pipeline"
   ],
   "note": "The refuted theorem shows the two exceptions named in the statement. The parser is clap 2.34 as structopt 0.3 configures it for Opt, whose source is not part of /repo; arguments that are not UTF-8 are not modelled."
  },
  {
   "property": "C81",
   "status": "proved",
   "theorems": [
    "C81_new",
    "C81_new_panics",
    "C81_new_http",
    "C81_with_body",
    "C81_calls",
    "C81_written_and_read",
    "C81_host_names_the_port_refuted"
   ],
   "note": "The refuted theorem shows the exception in the last sentence of the statement. The parser of host names is an argument with laws; C79 instantiates it."
  },
  {
   "property": "C82",
   "status": "partial",
   "theorems": [
    "C82_openssl_constructors",
    "C82_openssl_no_ecdsa",
    "C82_openssl_round_trip",
    "C82_ring_round_trip",
    "C82_between_libraries_partial",
    "C82_pss_between_libraries_refuted"
   ],
   "note": "False of the PSS types between the back ends: the openssl ones are PKCS#1 (C51), so each rejects what the other signs. The library calls that read private keys and openssl's readers of public keys are arguments."
  },
  {
   "property": "C83",
   "status": "proved",
   "theorems": [
    "C83_parameters",
    "C83_printed",
    "C83_panics",
    "C83_read_back",
    "C83_query_params",
    "C83_header_name",
    "C83_constants"
   ],
   "note": ""
  },
  {
   "property": "C84",
   "status": "partial",
   "theorems": [
    "C84_readme_headers",
    "C84_same_for_every_request_refuted",
    "C84_fits_every_request_refuted",
    "C84_no_components_refuted",
    "C84_streamed_digest",
    "C84_streamed_not_signed",
    "C84_streamed_blocking"
   ],
   "note": "The first sentence is false of the code: the default configuration covers nothing, so every request gets the same signature, and it verifies on every other request. What covering a component gives is C10 and C77. The note on streamed bodies is proved."
  },
  {
   "property": "C85",
   "status": "partial",
   "theorems": [
    "C85_openssl_sign_panics",
    "C85_openssl_sign_text",
    "C85_openssl_verify",
    "C85_openssl_agrees",
    "C85_sign_panics",
    "C85_sign_result",
    "C85_accepted_keys_sign_refuted",
    "C85_openssl_verify_panics",
    "C85_ring_text",
    "C85_ring_sign_panics",
    "C85_ring_agrees"
   ],
   "note": "False of the code: new_pkcs8 takes every private key that openssl reads, but signing unwraps calls that fail for all keys but plain RSA keys of sufficient size. Exactly when it panics is proved, given openssl's rules as a hypothesis."
  },
  {
   "property": "C86",
   "status": "partial",
   "theorems": [
    "C86_one_value",
    "C86_urls",
    "C86_reqwest_values",
    "C86_mock_values",
    "C86_reqwest_base",
    "C86_mock_base",
    "C86_signed",
    "C86_parameter_types",
    "C86_accepts",
    "C86_optional_parameters_refuted",
    "C86_values_refuted"
   ],
   "note": "False of the code for the request target, the target URI with user information or a fragment, the authority with a port, an absent query, repeated or padded header lines, the nonce and requests without alg or keyid. The theorems say exactly for which components and configurations the values, the signature base and acceptance are those of the draft. Components with parameters are not compared."
  },
  {
   "property": "C87",
   "status": "partial",
   "theorems": [
    "C87_canonicalize",
    "C87_sign",
    "C87_missing_header_canonicalize",
    "C87_missing_header_sign",
    "C87_documented_sign_refuted",
    "C87_documented_pipeline_refuted",
    "C87_verify_prints_nothing",
    "C87_der_keys_refuted",
    "C87_documented_verify_refuted",
    "C87_documented_verify_partial"
   ],
   "note": "True of canonicalize, and of sign when the request has the headers (rsa-pss-sha256 goes under another name). False of the documented signing command and pipeline: the documented request has no Digest header and none is computed, so signing fails for every key. False of the documented key command: it writes DER where PEM is read. False of the documented verification command on the shipped file, which ends with a line feed that the digest does not cover."
  },
  {
   "property": "C88",
   "status": "proved",
   "theorems": [
    "C88_sign_reqwest_same",
    "C88_sign_mock_same",
    "C88_verify_mock_same",
    "C88_verify_same",
    "C88_sign_lines",
    "C88_verify_lines",
    "C88_accepted_lines",
    "C88_sign_hides_the_key",
    "C88_verify_hides_the_keys",
    "C88_only_chosen_values",
    "C88_logs_agree"
   ],
   "note": "With the values printed, not the wording. Values are texts because they are Strings in Rust."
  },
  {
   "property": "C89",
   "status": "proved",
   "theorems": [
    "C89_component_item",
    "C89_from_item",
    "C89_item_kept",
    "C89_get_item",
    "C89_get_item_none",
    "C89_lists",
    "C89_list_back",
    "C89_list_text",
    "C89_input_text",
    "C89_same_text",
    "C89_made_of_items"
   ],
   "note": ""
  },
  {
   "property": "C90",
   "status": "partial",
   "theorems": [
    "C90_values",
    "C90_laws",
    "C90_body",
    "C90_broken_body",
    "C90_same_verdict",
    "C90_reqwest_to_actix",
    "C90_targets_differ",
    "C90_no_value_rejected",
    "C90_origin_form",
    "C90_empty_body_rejected",
    "C90_header_values",
    "C90_has_component",
    "C90_handed_back"
   ],
   "note": "The file does not compile; the model is of the file with the smallest repairs. Not every request signed with reqwest verifies at the server: C90_targets_differ, C90_no_value_rejected, C90_origin_form and C90_empty_body_rejected show which do not."
  },
  {
   "property": "C91",
   "status": "partial",
   "theorems": [
    "C91_verify",
    "C91_sign",
    "C91_key_pair",
    "C91_matching",
    "C91_sign_then_verify",
    "C91_one_text",
    "C91_one_tag_per_salt",
    "C91_binds",
    "C91_tampering",
    "C91_public_keys",
    "C91_other_keys",
    "C91_wants_pkcs1",
    "C91_pss_between_libraries_refuted"
   ],
   "note": "The last sentence is false of the code: the openssl types named PSS are PKCS #1 v1.5 (C51). Rsa.v models the standard; how private keys are read is an argument."
  },
  {
   "property": "C92",
   "status": "partial",
   "theorems": [
    "C92_p256",
    "C92_group",
    "C92_verify",
    "C92_other_keys",
    "C92_sign",
    "C92_no_draw",
    "C92_key_pair",
    "C92_matching",
    "C92_sign_then_verify",
    "C92_one_text_per_pair",
    "C92_one_text_refuted",
    "C92_draft_form_refuted",
    "C92_binds",
    "C92_two_texts_refuted",
    "C92_tampering"
   ],
   "note": "The last sentence is false: (r, n - s) is accepted with (r, s), the text is DER, and for two messages there is a key and a text accepted for both. Ecdsa.v models the standard; how private keys are read and which numbers are drawn are arguments."
  },
  {
   "property": "C93",
   "status": "partial",
   "theorems": [
    "C93_reads",
    "C93_signer",
    "C93_sign_then_verify",
    "C93_one_private",
    "C93_one_pair",
    "C93_every_number",
    "C93_without_public_refuted",
    "C93_sec1_refuted"
   ],
   "note": "The last sentence is false. EcdsaKey.v models ring's reader from its published sources."
  },
  {
   "property": "C94",
   "status": "partial",
   "theorems": [
    "C94_reads",
    "C94_one_key",
    "C94_signature",
    "C94_accepted",
    "C94_infallible",
    "C94_same",
    "C94_standard",
    "C94_standard_file",
    "C94_request",
    "C94_sign_then_verify",
    "C94_infallible_refuted",
    "C94_product_refuted",
    "C94_pss_label_refuted"
   ],
   "note": "The last sentence is false. RsaKey.v models ring's reader and its signing from the published sources."
  },
  {
   "property": "C95",
   "status": "proved",
   "theorems": [
    "C95_sign_then_verify",
    "C95_commands",
    "C95_verify",
    "C95_sign_refused"
   ],
   "note": "Signing and checking are those of ring as modelled in Rsa.v and RsaKey.v; SHA-2 is computed."
  },
  {
   "property": "C96",
   "status": "partial",
   "theorems": [
    "C96_failed_read",
    "C96_panics",
    "C96_output",
    "C96_room_enough",
    "C96_errors",
    "C96_success",
    "C96_whole_lines",
    "C96_success_is_complete_refuted",
    "C96_nothing_written_refuted"
   ],
   "note": "Success does not mean that the output is complete. Io.v models the buffer of standard output from the published sources of the standard library."
  },
  {
   "property": "C97",
   "status": "partial",
   "theorems": [
    "C97_cut_short",
    "C97_digest_protects",
    "C97_failed_write",
    "C97_cut_is_rejected_refuted",
    "C97_signed_before_refuted"
   ],
   "note": "A request without a Digest header is accepted with a part of its body. The theorems are for labels that do not begin with white space, and for requests that had no Signature header before (otherwise header fields can be lost too: C97_signed_before_refuted)."
  },
  {
   "property": "C98",
   "status": "partial",
   "theorems": [
    "C98_parser_meets_the_url_standard",
    "C98_other_schemes_follow_the_laws",
    "C98_target_with_a_scheme",
    "C98_target_without_a_scheme",
    "C98_only_the_join_counts",
    "C98_authority_form",
    "C98_port_then_target_panics",
    "C98_asterisk_form",
    "C98_text_stands_for_its_url",
    "C98_target_uri_determines_the_url",
    "C98_validator_requests",
    "C98_accepted_from_reqwest",
    "C98_accepted_from_validator",
    "C98_parsed_urls_have_no_line_feeds",
    "C98_connect_refuted",
    "C98_every_form_is_read_refuted",
    "C98_asterisk_keeps_the_host_refuted"
   ],
   "note": "The authority-form and the asterisk-form are not read as RFC 7230 says. URLs with the scheme file are left out."
  },
  {
   "property": "C99",
   "status": "partial",
   "theorems": [
    "C99_more_body",
    "C99_verdict",
    "C99_digest_protects",
    "C99_signed_with_a_body",
    "C99_more_lines",
    "C99_lines_can_be_added",
    "C99_signed_without_a_body",
    "C99_covered_is_protected",
    "C99_more_body_is_rejected_refuted",
    "C99_lines_are_rejected_refuted"
   ],
   "note": "Added text is accepted without a Digest header, and for headers that are not covered. If the body is empty, the text must end with a line feed, as the output of sign does."
  }
 ]
}