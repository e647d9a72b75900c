{
 "claims": [
  {
   "property": "C01",
   "status": "proved",
   "theorems": [
    "C01_fixed_read_all_or_nothing",
    "C01_reads_are_consecutive",
    "C01_other_sizes"
   ],
   "note": ""
  },
  {
   "property": "C02",
   "status": "proved",
   "theorems": [
    "C02_eof_error_independent_of_contents",
    "C02_eof_messages_are_constant"
   ],
   "note": ""
  },
  {
   "property": "C03",
   "status": "proved",
   "theorems": [
    "C03_written_value_reads_back",
    "C03_bytes_can_be_written",
    "C03_text_can_be_written",
    "C03_text_has_encoding"
   ],
   "note": ""
  },
  {
   "property": "C04",
   "status": "proved",
   "theorems": [
    "C04_mpint_reads_back",
    "C04_nonnegative_mpint_can_be_written"
   ],
   "note": ""
  },
  {
   "property": "C05",
   "status": "partial",
   "theorems": [
    "C05_negative_mpint_refuted",
    "C05_negative_mpint_partial"
   ],
   "note": "The property is false of the code: C05_negative_mpint_refuted. The _partial theorem says exactly which negative integers are accepted."
  },
  {
   "property": "C06",
   "status": "proved",
   "theorems": [
    "C06_mpint_canonical"
   ],
   "note": ""
  },
  {
   "property": "C07",
   "status": "proved",
   "theorems": [
    "C07_string_read_iff_utf8",
    "C07_utf8_is_a_bijection"
   ],
   "note": ""
  },
  {
   "property": "C08",
   "status": "proved",
   "theorems": [
    "C08_record_round_trip",
    "C08_blob_padding_refuted",
    "C08_record_stored_values"
   ],
   "note": "Values of fixed-size byte fields ('Ns') must have exactly N bytes for an exact round trip (C08_blob_padding_refuted); C08_record_stored_values says what is read back for all values."
  },
  {
   "property": "C09",
   "status": "proved",
   "theorems": [
    "C09_read_iff_wire_format"
   ],
   "note": ""
  },
  {
   "property": "C10",
   "status": "proved",
   "theorems": [
    "C10_unambiguous",
    "C10_wire_prefix_free"
   ],
   "note": ""
  },
  {
   "property": "C11",
   "status": "proved",
   "theorems": [
    "C11_truncated_record_is_EOFError"
   ],
   "note": ""
  },
  {
   "property": "C12",
   "status": "proved",
   "theorems": [
    "C12_repeated_round_trip"
   ],
   "note": ""
  },
  {
   "property": "C13",
   "status": "partial",
   "theorems": [
    "C13_repeated_truncation_refuted",
    "C13_repeated_read_partial"
   ],
   "note": "False of the code as first stated (C13_repeated_truncation_refuted). The _partial theorem characterises exactly the accepted streams."
  },
  {
   "property": "C14",
   "status": "partial",
   "theorems": [
    "C14_repeated_read_terminates_partial",
    "C14_zero_size_format_loops_refuted",
    "C14_empty_format_rejected"
   ],
   "note": "False of the code for formats whose fields are all empty (C14_zero_size_format_loops_refuted); proved for all others."
  },
  {
   "property": "C15",
   "status": "proved",
   "theorems": [
    "C15_failed_write_changes_nothing",
    "C15_failed_record_write",
    "C15_write_errors",
    "C15_struct_write_errors",
    "C15_not_an_instruction",
    "C15_size_not_positive"
   ],
   "note": ""
  },
  {
   "property": "C16",
   "status": "proved",
   "theorems": [
    "C16_check_silent_iff_conforms",
    "C16_warnings_exact",
    "C16_silent_then_write_error_is_about_size",
    "C16_write_succeeds_then_silent",
    "C16_silent_check_write_can_fail"
   ],
   "note": ""
  },
  {
   "property": "C17",
   "status": "proved",
   "theorems": [
    "C17_sixteen_types",
    "C17_constructed_keys_have_types",
    "C17_parsed_keys_have_types",
    "C17_public_bytes_roundtrip",
    "C17_constructed_public_key_roundtrip"
   ],
   "note": ""
  },
  {
   "property": "C18",
   "status": "proved",
   "theorems": [
    "C18_public_layout"
   ],
   "note": ""
  },
  {
   "property": "C19",
   "status": "proved",
   "theorems": [
    "C19_no_private_parameter_in_public_bytes"
   ],
   "note": ""
  },
  {
   "property": "C20",
   "status": "proved",
   "theorems": [
    "C20_repack_is_exact",
    "C20_repack_exact_only_if_canonical",
    "C20_repack_without_premise_refuted"
   ],
   "note": "The parenthetical is C20_repack_without_premise_refuted."
  },
  {
   "property": "C21",
   "status": "proved",
   "theorems": [
    "C21_excess_bytes",
    "C21_any_suffix"
   ],
   "note": ""
  },
  {
   "property": "C22",
   "status": "proved",
   "theorems": [
    "C22_private_bytes_roundtrip",
    "C22_private_layout"
   ],
   "note": ""
  },
  {
   "property": "C23",
   "status": "proved",
   "theorems": [
    "C23_unknown_type_rejected",
    "C23_unknown_type_not_constructible",
    "C23_certificates_have_no_private_form",
    "C23_only_supported_types_accepted"
   ],
   "note": ""
  },
  {
   "property": "C24",
   "status": "proved",
   "theorems": [
    "C24_roundtrip",
    "C24_pack_succeeds"
   ],
   "note": ""
  },
  {
   "property": "C25",
   "status": "proved",
   "theorems": [
    "C25_pack_bytes_layout",
    "C25_layout_functional"
   ],
   "note": ""
  },
  {
   "property": "C26",
   "status": "proved",
   "theorems": [
    "C26_padding"
   ],
   "note": ""
  },
  {
   "property": "C27",
   "status": "proved",
   "theorems": [
    "C27_only_value_error"
   ],
   "note": ""
  },
  {
   "property": "C28",
   "status": "proved",
   "theorems": [
    "C28_magic_and_count"
   ],
   "note": ""
  },
  {
   "property": "C29",
   "status": "proved",
   "theorems": [
    "C29_layout_unambiguous",
    "C29_truncated_file_rejected",
    "C29_truncated_output_rejected"
   ],
   "note": ""
  },
  {
   "property": "C30",
   "status": "proved",
   "theorems": [
    "C30_armored_text_is_decoded",
    "C30_other_text_is_rejected",
    "C30_only_value_error",
    "C30_empty_text_refuted"
   ],
   "note": "The empty string is the one text for which another error is raised: C30_empty_text_refuted (IndexError)."
  },
  {
   "property": "C31",
   "status": "proved",
   "theorems": [
    "C31_armor_roundtrip"
   ],
   "note": ""
  },
  {
   "property": "C32",
   "status": "proved",
   "theorems": [
    "C32_armor_format",
    "C32_base64_chars"
   ],
   "note": ""
  },
  {
   "property": "C33",
   "status": "proved",
   "theorems": [
    "C33_selects",
    "C33_default",
    "C33_out_of_range_rejected",
    "C33_out_of_range_index_error"
   ],
   "note": ""
  },
  {
   "property": "C34",
   "status": "proved",
   "theorems": [
    "C34_override",
    "C34_no_override"
   ],
   "note": ""
  },
  {
   "property": "C35",
   "status": "proved",
   "theorems": [
    "C35_pack_without_kdf",
    "C35_pack_with_passphrase",
    "C35_pack_prompts_once",
    "C35_pack_answer_is_used",
    "C35_parse_prompt_only_if_needed",
    "C35_parse_not_prompted_no_effect",
    "C35_parse_answer_is_used",
    "C35_parse_without_kdf",
    "C35_parse_prompts_once"
   ],
   "note": ""
  },
  {
   "property": "C36",
   "status": "proved",
   "theorems": [
    "C36_only_genuine_ciphertexts",
    "C36_anything_else_raises",
    "C36_no_two_ciphertexts",
    "C36_wrong_tag"
   ],
   "note": ""
  },
  {
   "property": "C37",
   "status": "proved",
   "theorems": [
    "C37_supported_ciphers",
    "C37_key_and_iv",
    "C37_decrypt_inverts_encrypt",
    "C37_encrypt_succeeds",
    "C37_no_kdf"
   ],
   "note": ""
  },
  {
   "property": "C38",
   "status": "proved",
   "theorems": [
    "C38_inconsistencies_reported"
   ],
   "note": ""
  },
  {
   "property": "C39",
   "status": "proved",
   "theorems": [
    "C39_options_retained",
    "C39_fresh_options",
    "C39_options_survive",
    "C39_retain_default_options_refuted"
   ],
   "note": "from_list's default options break retaining: C39_retain_default_options_refuted."
  },
  {
   "property": "C40",
   "status": "partial",
   "theorems": [
    "C40_trailing_bytes_ignored",
    "C40_options_junk_ignored",
    "C40_rest_of_the_file_matters_partial",
    "C40_every_byte_matters_refuted"
   ],
   "note": "The property is false of the code (C40_trailing_bytes_ignored, C40_options_junk_ignored, C40_every_byte_matters_refuted); the _partial theorem says that nothing else of the file is ignored."
  },
  {
   "property": "C41",
   "status": "proved",
   "theorems": [
    "C41_public_string_roundtrip",
    "C41_constructed_public_key_string_roundtrip",
    "C41_public_string_format",
    "C41_public_string_made",
    "C41_comment_preserved_refuted"
   ],
   "note": "The newline kept in the comment is C41_comment_preserved_refuted. Comments of other classes than str, int and bytes are not modelled when they are written; integers are written without the digit limit of Python 3.11 (see C85)."
  },
  {
   "property": "C42",
   "status": "proved",
   "theorems": [
    "C42_type_mismatch_reported",
    "C42_line_is_unambiguous",
    "C42_without_space"
   ],
   "note": ""
  },
  {
   "property": "C43",
   "status": "proved",
   "theorems": [
    "C43_encode_is_base64",
    "C43_decode_inverts_encode",
    "C43_noise_is_ignored",
    "C43_decode_errors"
   ],
   "note": ""
  },
  {
   "property": "C44",
   "status": "proved",
   "theorems": [
    "C44_get_principals",
    "C44_principals_roundtrip",
    "C44_encodable_principals_accepted",
    "C44_other_principals_rejected",
    "C44_not_bytes"
   ],
   "note": ""
  },
  {
   "property": "C45",
   "status": "proved",
   "theorems": [
    "C45_get_option",
    "C45_not_bytes",
    "C45_get_after_set",
    "C45_sequence_of_sets",
    "C45_set_succeeds"
   ],
   "note": ""
  },
  {
   "property": "C46",
   "status": "proved",
   "theorems": [
    "C46_canonical_options",
    "C46_order_of_sets_is_irrelevant"
   ],
   "note": ""
  },
  {
   "property": "C47",
   "status": "proved",
   "theorems": [
    "C47_guard_refuses",
    "C47_guard_admits",
    "C47_names_bypass_guard",
    "C47_get_type",
    "C47_set_type"
   ],
   "note": ""
  },
  {
   "property": "C48",
   "status": "proved",
   "theorems": [
    "C48_signed_bytes",
    "C48_signed_layout",
    "C48_initial_string_refuted"
   ],
   "note": "C48_initial_string_refuted: pack_signed_bytes omits the initial type string that PROTOCOL.certkeys includes in the signed data."
  },
  {
   "property": "C49",
   "status": "proved",
   "theorems": [
    "C49_authority_roundtrip",
    "C49_certificate_authority_refused",
    "C49_get_authority",
    "C49_no_authority",
    "C49_nested_parsing_terminates"
   ],
   "note": ""
  },
  {
   "property": "C50",
   "status": "partial",
   "theorems": [
    "C50_construction_raises_partial",
    "C50_bad_contents_reported",
    "C50_good_contents_accepted",
    "C50_never_raises_refuted",
    "C50_truncation_reported_refuted"
   ],
   "note": "The full statement is false of the code (C50_never_raises_refuted, C50_truncation_reported_refuted). C50_construction_raises_partial gives the exact condition under which construction raises."
  },
  {
   "property": "C51",
   "status": "proved",
   "theorems": [
    "C51_get_flag",
    "C51_set_flag",
    "C51_sequence",
    "C51_sets_succeed",
    "C51_not_an_integer"
   ],
   "note": ""
  },
  {
   "property": "C52",
   "status": "proved",
   "theorems": [
    "C52_public_warnings",
    "C52_private_warnings"
   ],
   "note": ""
  },
  {
   "property": "C53",
   "status": "partial",
   "theorems": [
    "C53_generate_partial",
    "C53_not_generable",
    "C53_public_half_refuted"
   ],
   "note": "The last part is false of the code (C53_public_half_refuted: the public half's parameters contain the private values); the rest is C53_generate_partial."
  },
  {
   "property": "C54",
   "status": "proved",
   "theorems": [
    "C54_dict_equality",
    "C54_key_equality",
    "C54_key_equality_is_equivalence",
    "C54_pair_equality",
    "C54_pair_equality_is_equivalence",
    "C54_parsed_keys_are_well_formed"
   ],
   "note": ""
  },
  {
   "property": "C55",
   "status": "partial",
   "theorems": [
    "C55_lines_parsed_or_reported_partial",
    "C55_reported_lines_partial",
    "C55_aborts",
    "C55_bad_line_skipped_refuted"
   ],
   "note": "Full property is false (C55_bad_line_skipped_refuted); proved: exact results when no line aborts, and which lines abort."
  },
  {
   "property": "C56",
   "status": "proved",
   "theorems": [
    "C56_convert_from",
    "C56_fields",
    "C56_security_keys_and_certificates",
    "C56_not_a_class",
    "C56_unsupported_destination",
    "C56_convert_to",
    "C56_not_integers",
    "C56_rsa_exponents",
    "C56_roundtrip",
    "C56_object_roundtrip",
    "C56_inconsistent_refuted",
    "C56_point_encoding",
    "C56_refusals",
    "C56_not_bytes",
    "C56_numbers_as_bytes_refuted",
    "C56_point_warning",
    "C56_abstract_classes",
    "C56_abstract_outcomes",
    "C56_ecdsa_class",
    "C56_subclasses"
   ],
   "note": "Round trip needs parameters that describe a key that exists (uncompressed point, Ed25519 public half matching the seed); C56_inconsistent_refuted and C56_point_encoding show what happens otherwise. Key objects of other packages are modelled by what their accessors return."
  },
  {
   "property": "C57",
   "status": "proved",
   "theorems": [
    "C57_from_bytes_errors",
    "C57_from_string_errors",
    "C57_constructor_errors"
   ],
   "note": ""
  },
  {
   "property": "C58",
   "status": "proved",
   "theorems": [
    "C58_from_bytes_exact"
   ],
   "note": ""
  },
  {
   "property": "C59",
   "status": "proved",
   "theorems": [
    "C59_repack_is_identity"
   ],
   "note": ""
  },
  {
   "property": "C60",
   "status": "partial",
   "theorems": [
    "C60_set_known_option_partial",
    "C60_x11_name_refuted"
   ],
   "note": "False of the code for PERMIT_X11_FORWARDING (C60_x11_name_refuted); proved for the other eight options."
  },
  {
   "property": "C61",
   "status": "proved",
   "theorems": [
    "C61_curve_and_point",
    "C61_certificates_are_checked"
   ],
   "note": ""
  },
  {
   "property": "C62",
   "status": "proved",
   "theorems": [
    "C62_construction_reports"
   ],
   "note": ""
  },
  {
   "property": "C63",
   "status": "proved",
   "theorems": [
    "C63_set_then_get",
    "C63_whole_seconds_roundtrip",
    "C63_set_what_was_got",
    "C63_no_number",
    "C63_packing_after_set",
    "C63_forever_refuted"
   ],
   "note": "datetime is a parameter (fromtimestamp and int(timestamp())); the laws used are hypotheses of the theorems, met by the UTC instance. The parenthetical is C63_forever_refuted."
  },
  {
   "property": "C64",
   "status": "proved",
   "theorems": [
    "C64_from_list_exact",
    "C64_build_pack_parse"
   ],
   "note": ""
  },
  {
   "property": "C65",
   "status": "proved",
   "theorems": [
    "C65_output_is_json",
    "C65_output_exactly_on_success",
    "C65_output_determines_keys",
    "C65_layout"
   ],
   "note": "From the bytes of the file to the printed text; json.JSONEncoder, bytes.__repr__ and int.__repr__ are modelled, the JSON grammar is specified separately (SpecJson.v)."
  },
  {
   "property": "C66",
   "status": "proved",
   "theorems": [
    "C66_line_endings"
   ],
   "note": "Proved for parsing a private key text and for the parsing done by the command."
  },
  {
   "property": "C67",
   "status": "proved",
   "theorems": [
    "C67_edits_contents",
    "C67_sort_any_keys",
    "C67_edit_errors",
    "C67_edits_keep_protection",
    "C67_edit_session"
   ],
   "note": ""
  },
  {
   "property": "C68",
   "status": "partial",
   "theorems": [
    "C68_derived_lists_are_written_in_the_clear",
    "C68_derived_contents",
    "C68_history_protection",
    "C68_derived_lists_are_protected_refuted",
    "C68_shallow_copy_is_protected_partial"
   ],
   "note": "The full statement is false of the code (C68_derived_lists_are_protected_refuted: a slice, copy, sum or product of an encrypted list is packed in the clear); C68_history_protection says exactly which histories keep the protection."
  },
  {
   "property": "C69",
   "status": "proved",
   "theorems": [
    "C69_packing_uses_current_values",
    "C69_key_bytes_use_current_values"
   ],
   "note": ""
  },
  {
   "property": "C70",
   "status": "proved",
   "theorems": [
    "C70_set_private_parameter",
    "C70_set_public_parameter",
    "C70_set_certificate_parameter",
    "C70_set_unknown_parameter",
    "C70_ill_typed_value_is_refused",
    "C70_ill_typed_public_value_is_refused",
    "C70_set_comment",
    "C70_set_key_type_refuted"
   ],
   "note": "The exception header['key_type'] is C70_set_key_type_refuted."
  },
  {
   "property": "C71",
   "status": "proved",
   "theorems": [
    "C71_generate",
    "C71_single_request",
    "C71_rsa_size",
    "C71_dss_size",
    "C71_converts_back",
    "C71_generic_ecdsa",
    "C71_not_generable"
   ],
   "note": "The generator of the cryptography package is an argument of the model; the theorem holds for every generator that answers what it was asked."
  },
  {
   "property": "C72",
   "status": "proved",
   "theorems": [
    "C72_private_values_only_in_ciphertext"
   ],
   "note": "Non-interference, as a statement about two runs of pack_bytes."
  },
  {
   "property": "C73",
   "status": "proved",
   "theorems": [
    "C73_rewriting_keeps_the_keys",
    "C73_rewriting_is_identity",
    "C73_changing_the_passphrase_works"
   ],
   "note": "Success of re-encryption needs the premise that no number of the file is one of the negative integers of C05."
  },
  {
   "property": "C74",
   "status": "partial",
   "theorems": [
    "C74_signed_bytes_determine_the_fields_partial",
    "C74_signature_is_not_covered",
    "C74_every_other_change_shows",
    "C74_signed_bytes_survive",
    "C74_signed_bytes_determine_the_type_refuted"
   ],
   "note": "False across certificate types (C74_signed_bytes_determine_the_type_refuted); proved for certificates of the same type."
  },
  {
   "property": "C75",
   "status": "proved",
   "theorems": [
    "C75_generate_store_load"
   ],
   "note": "Composition of generation, building, packing, parsing and conversion, for lists of any length."
  },
  {
   "property": "C76",
   "status": "proved",
   "theorems": [
    "C76_nesting_needs_bytes",
    "C76_depth_is_nesting",
    "C76_depth_bound",
    "C76_bound_attained"
   ],
   "note": "parse_pub_fuel d is PublicKey.from_bytes with at most d calls inside each other; how many Python frames one such call takes is not modelled."
  },
  {
   "property": "C77",
   "status": "proved",
   "theorems": [
    "C77_warnings_exact",
    "C77_ed25519_private_warnings_exact",
    "C77_key_warnings",
    "C77_certificate_base_class"
   ],
   "note": "That warnings are repeated for security keys and certificates is what the code does (two super() chains), not a documented intention."
  },
  {
   "property": "C78",
   "status": "proved",
   "theorems": [
    "C78_keys_share_nothing",
    "C78_lists_show_changes",
    "C78_new_keys_are_fresh",
    "C78_generated_pairs_are_fresh",
    "C78_parsed_lists_are_fresh",
    "C78_edits_change_one_list",
    "C78_derived_lists_share_the_keys",
    "C78_copies",
    "C78_shared_headers",
    "C78_made_lists_share_the_arguments"
   ],
   "note": "Programs change dictionaries in place, edit lists and make deep copies; copy.copy of a key and assigning a new object to an attribute (key.header = d) are the subject of C98. That copies of lists made with copy.copy share the header is proved as what the code does (C78_copies with C78_shared_headers)."
  },
  {
   "property": "C79",
   "status": "proved",
   "theorems": [
    "C79_private_key_outcome",
    "C79_file_outcome",
    "C79_text_outcome",
    "C79_compared_fields_refuted"
   ],
   "note": "Exceptions of the model carry the arguments they have in Python where those come from the input (the bytes of a UnicodeDecodeError, the key of a KeyError, the text of an EOFError); texts of other exceptions are constants of the code or come from the libraries. That the comparison of RSA factors with a DSA public key shows in a warning is proved as C79_compared_fields_refuted."
  },
  {
   "property": "C80",
   "status": "proved",
   "theorems": [
    "C80_format_unambiguous",
    "C80_typed_formats",
    "C80_read_exact",
    "C80_read_short",
    "C80_read_empty_pascal",
    "C80_bad_format",
    "C80_write_exact",
    "C80_write_rejects",
    "C80_single_value_writes",
    "C80_tuples_refuted",
    "C80_write_then_read",
    "C80_check"
   ],
   "note": "Which strings are formats, and for what layout, is given by a separate grammar (SpecStruct.format); layouts, not the parser, appear in the theorems. Codes for floats, and '?' in native mode, are outside the grammar and excluded by 'supported' where a theorem says that a format is refused. The failure of '0p' is C80_read_empty_pascal. That tuples cannot be written back is C80_tuples_refuted."
  },
  {
   "property": "C81",
   "status": "partial",
   "theorems": [
    "C81_private_file",
    "C81_public_file_partial",
    "C81_line_boundary_in_comment",
    "C81_comments_refuted"
   ],
   "note": "False of the code for comments that contain a line boundary (C81_comments_refuted, C81_line_boundary_in_comment); proved for all others, and for private key files."
  },
  {
   "property": "C82",
   "status": "proved",
   "theorems": [
    "C82_keys",
    "C82_key_in_stream",
    "C82_certificates",
    "C82_conversion",
    "C82_generation",
    "C82_private_key_lists",
    "C82_command",
    "C82_error_mode",
    "C82_accepted_files_are_consistent"
   ],
   "note": "Strict.v has every function that can warn once more, over runs that may end with a raised warning; the theorems relate the two versions for an arbitrary set of raised warnings. Warnings of other packages (cryptography) are not modelled."
  },
  {
   "property": "C83",
   "status": "proved",
   "theorems": [
    "C83_algorithms_sound",
    "C83_aes_tables",
    "C83_sha512_constants",
    "C83_sha512_padding",
    "C83_bcrypt_hash",
    "C83_bcrypt_pbkdf",
    "C83_points",
    "C83_compressed_points",
    "C83_decrypt_inverts_encrypt",
    "C83_protected_keys_survive",
    "C83_changing_the_passphrase_works"
   ],
   "note": "Std.v transcribes the standards; Props_Std.v checks its tables against their definitions and published vectors. Acceptance of all compressed points is proved from the primality of the field's order, which is a hypothesis of C83_compressed_points only."
  },
  {
   "property": "C84",
   "status": "proved",
   "theorems": [
    "C84_unknown_cipher_class",
    "C84_unknown_kdf_class",
    "C84_pack_unsupported_kdf",
    "C84_pack_prompts_iff",
    "C84_pack_unsupported_cipher",
    "C84_pack_unknown_cipher_name",
    "C84_parse_prompts_iff",
    "C84_parse_unsupported"
   ],
   "note": "Not covered by the guarantee, as the code asks before: a missing authentication tag, a wrong ciphertext length, and what is inside the ciphertext (C84_example shows the first)."
  },
  {
   "property": "C85",
   "status": "proved",
   "theorems": [
    "C85_output_iff_within",
    "C85_other_runs_unchanged",
    "C85_one_long_integer_hides_all"
   ],
   "note": "An exact characterisation: the output of C65 exists exactly if no integer is longer than the limit."
  },
  {
   "property": "C86",
   "status": "proved",
   "theorems": [
    "C86_first_getter",
    "C86_derived_getter",
    "C86_other_getters",
    "C86_no_attribute",
    "C86_subclass",
    "C86_override",
    "C86_plain_subclass",
    "C86_depth",
    "C86_assignment",
    "C86_readonly_refuted",
    "C86_instance_hides",
    "C86_library_ciphers",
    "C86_library_params",
    "C86_library_defaults"
   ],
   "note": "Class statements, C3, attribute lookup, descriptor and assignment are modelled generically (Objects.v); Library.v has the library's class statements. Getters return constants or attributes of their class; metaclass attributes and deletion of attributes are not modelled."
  },
  {
   "property": "C87",
   "status": "proved",
   "theorems": [
    "C87_mro",
    "C87_class_statement",
    "C87_abstract",
    "C87_subclass",
    "C87_library_world",
    "C87_library_params",
    "C87_library_abstract",
    "C87_library_left_abstract"
   ],
   "note": "For hierarchies in which abstract methods occur only in classes made by ABCMeta, as everywhere in the library (C87_library_world); __abstractmethods__ is computed as by ABCMeta.__new__, along the bases."
  },
  {
   "property": "C88",
   "status": "proved",
   "theorems": [
    "C88_accepted",
    "C88_others_exit",
    "C88_help",
    "C88_attached_any",
    "C88_separate_exactly_plain",
    "C88_no_passphrase",
    "C88_last_passphrase",
    "C88_program"
   ],
   "note": "argparse is modelled after its source in Python 3.11, for this parser; the model was compared with the installed argparse on 4582 command lines. The classification of decimal digits is a parameter."
  },
  {
   "property": "C89",
   "status": "proved",
   "theorems": [
    "C89_same_options_reveal_differences",
    "C89_fresh_salt_by_default",
    "C89_counter_mode_is_malleable"
   ],
   "note": "The primitives are parameters (sound_prims); that key streams of different salts are unrelated is cryptography and not claimed. For the authenticated ciphers C36 says which sections are accepted."
  },
  {
   "property": "C90",
   "status": "proved",
   "theorems": [
    "C90_interrupted_parsing",
    "C90_interrupted_text",
    "C90_interrupted_command",
    "C90_interrupted_packing"
   ],
   "note": "KeyboardInterrupt and other exceptions that the code never raises itself are the constructor OtherError of the model."
  },
  {
   "property": "C91",
   "status": "proved",
   "theorems": [
    "C91_not_interrupted",
    "C91_interrupted_write",
    "C91_early_end_goes_unnoticed"
   ],
   "note": ""
  },
  {
   "property": "C92",
   "status": "proved",
   "theorems": [
    "C92_same_options_reveal_common_beginnings",
    "C92_altered_blocks",
    "C92_appended_blocks_accepted",
    "C92_other_body"
   ],
   "note": ""
  },
  {
   "property": "C93",
   "status": "proved",
   "theorems": [
    "C93_undisturbed",
    "C93_appending",
    "C93_other_threads",
    "C93_values_of_the_time_of_the_call",
    "C93_one_moment_refuted",
    "C93_readable_refuted"
   ],
   "note": "Threads switch between accesses to objects, as under CPython's global lock; the copy of the options and self[i] are single accesses. Other methods than pack_bytes are not run concurrently."
  },
  {
   "property": "C94",
   "status": "proved",
   "theorems": [
    "C94_uninterleaved",
    "C94_single_fields",
    "C94_writers",
    "C94_records_mix_refuted",
    "C94_readers_mix_refuted"
   ],
   "note": "Threads switch between operations on the stream (BytesIO.read and BytesIO.write are one each). read_repeatedly_from_format_instructions_dict is not run concurrently."
  },
  {
   "property": "C95",
   "status": "proved",
   "theorems": [
    "C95_pairs",
    "C95_tuples",
    "C95_pair_and_tuple",
    "C95_not_equal_is_the_opposite_refuted",
    "C95_lists",
    "C95_lists_equivalence",
    "C95_equal_lists_pack_alike",
    "C95_equal_lists_are_protected_alike_refuted",
    "C95_tuple_order",
    "C95_order",
    "C95_index",
    "C95_count"
   ],
   "note": "The two refuted theorems show what equality does not promise: != between a pair and a tuple, and equal protection of equal lists."
  },
  {
   "property": "C96",
   "status": "proved",
   "theorems": [
    "C96_seek",
    "C96_huge_arguments",
    "C96_truncate",
    "C96_going_back",
    "C96_reads_are_local",
    "C96_record_reads_are_local",
    "C96_writes_put_bytes",
    "C96_record_writes_put_bytes",
    "C96_untouched_values_stay",
    "C96_untouched_records_stay",
    "C96_cut_values_are_gone",
    "C96_written_values_are_there",
    "C96_places",
    "C96_any_order"
   ],
   "note": "BytesIO.seek, tell and truncate are modelled from CPython's implementation. read1, readline, readinto and iteration over a stream are not modelled; positions are below 2^63."
  },
  {
   "property": "C97",
   "status": "proved",
   "theorems": [
    "C97_set",
    "C97_delete",
    "C97_popitem",
    "C97_clear",
    "C97_update",
    "C97_setdefault",
    "C97_programs",
    "C97_parts",
    "C97_packs_fields",
    "C97_missing_fields",
    "C97_delete_and_restore",
    "C97_merge",
    "C97_not_merged",
    "C97_copy_and_fromkeys",
    "C97_equality"
   ],
   "note": "Keys of the mappings are str. The operators | and |= exist from Python 3.9 on. The mappings are described by contents here; which are shared is the subject of C78."
  },
  {
   "property": "C98",
   "status": "proved",
   "theorems": [
    "C98_change_seen_through_references",
    "C98_shallow_copy",
    "C98_shallow_copy_follows",
    "C98_assignment",
    "C98_assigned_params",
    "C98_shared_parts_follow",
    "C98_list_assignment",
    "C98_header_follows",
    "C98_unreached_changes",
    "C98_deep_copy",
    "C98_deep_copy_apart",
    "C98_deep_copy_independent"
   ],
   "note": "Assignments are those of dictionaries to header, footer and clear of a key, of the params of a key to params, and of dictionaries or None to header and kdf_options of a list. Values inside dictionaries are immutable, except opaque ones, which are not copied in the model."
  },
  {
   "property": "C99",
   "status": "proved",
   "theorems": [
    "C99_same_results",
    "C99_same_list_results",
    "C99_records",
    "C99_repeated",
    "C99_repeated_exact",
    "C99_sum",
    "C99_public_key",
    "C99_private_key",
    "C99_list"
   ],
   "note": "The count is of calls of BytesIO.read, which every loop of the parsers makes in each round. The bytes that are copied are not counted (for nested certificates their number grows with the depth), nor the work of the KDF, whose rounds the file decides."
  },
  {
   "property": "C100",
   "status": "proved",
   "theorems": [
    "C100_key",
    "C100_list"
   ],
   "note": "Names of fields and the overhead of Python's objects are not counted. from_bytes with clear given keeps the given mapping besides."
  },
  {
   "property": "C101",
   "status": "proved",
   "theorems": [
    "C101_shown",
    "C101_always",
    "C101_again",
    "C101_told",
    "C101_first_call",
    "C101_lines",
    "C101_new_filter",
    "C101_new_once_filter_refuted",
    "C101_every_defect_shown_refuted"
   ],
   "note": "The refuted theorem shows that a second defective key goes unnoticed by the default filter. Warnings as errors are C82."
  },
  {
   "property": "C102",
   "status": "proved",
   "theorems": [
    "C102_public",
    "C102_private",
    "C102_key_classes",
    "C102_list",
    "C102_list_fails",
    "C102_list_iff",
    "C102_list_string",
    "C102_list_classes",
    "C102_list_first",
    "C102_public_string",
    "C102_only_index_error_refuted"
   ],
   "note": "The first fault decides for a key (iff), and for a list the first of an ordered list of checks that fails (C102_list_first, iff). str() of comments other than text, integers and byte strings is not modelled."
  },
  {
   "property": "C103",
   "status": "proved",
   "theorems": [
    "C103_field",
    "C103_record",
    "C103_private",
    "C103_public",
    "C103_line"
   ],
   "note": "Exact (iff) for fields, records, private and public keys and lines. The exception of base64 decoding in C103_line is characterised in C104."
  },
  {
   "property": "C104",
   "status": "proved",
   "theorems": [
    "C104_accepted",
    "C104_refused",
    "C104_rest_ignored",
    "C104_padding_suffices"
   ],
   "note": "Exact (iff) in both directions; base64.b64decode is modelled as CPython's non-strict decoder."
  },
  {
   "property": "C105",
   "status": "proved",
   "theorems": [
    "C105_private_text",
    "C105_private_refused",
    "C105_line_raises",
    "C105_line_accepted",
    "C105_file_aborts",
    "C105_file_read"
   ],
   "note": "Exact (iff) in both directions, stated with the specifications of C58, C103 and C104; for texts up to sys.maxsize characters. A passphrase prompt that itself fails is assumed to raise an ordinary exception in C105_private_refused."
  }
 ]
}
