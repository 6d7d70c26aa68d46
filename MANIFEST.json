{
 "claims": [
  {
   "property": "C01",
   "status": "proved",
   "theorems": [
    "C01_pae_injective",
    "C01_pae_prefix_free"
   ],
   "note": ""
  },
  {
   "property": "C02",
   "status": "proved",
   "theorems": [
    "C02_pae_is_spec",
    "C02_fragmentation"
   ],
   "note": ""
  },
  {
   "property": "C03",
   "status": "proved",
   "theorems": [
    "C03_base64_roundtrip"
   ],
   "note": ""
  },
  {
   "property": "C04",
   "status": "proved",
   "theorems": [
    "C04_base64_canonical",
    "C04_base64_buf_canonical",
    "C04_base64_strict"
   ],
   "note": ""
  },
  {
   "property": "C05",
   "status": "proved",
   "theorems": [
    "C05_write_b64_total"
   ],
   "note": ""
  },
  {
   "property": "C06",
   "status": "proved",
   "theorems": [
    "C06_read_b64_exact"
   ],
   "note": ""
  },
  {
   "property": "C07",
   "status": "proved",
   "theorems": [
    "C07_token_text_roundtrip",
    "C07_token_text_identity",
    "C07_token_text_spec"
   ],
   "note": ""
  },
  {
   "property": "C08",
   "status": "proved",
   "theorems": [
    "C08_token_language"
   ],
   "note": ""
  },
  {
   "property": "C09",
   "status": "proved",
   "theorems": [
    "C09_unique_text_refuted",
    "C09_only_final_dot"
   ],
   "note": "The ideal uniqueness claim is false of the code (trailing dot); refuted with a witness and the exact redundancy proved."
  },
  {
   "property": "C10",
   "status": "proved",
   "theorems": [
    "C10_kinds_disjoint"
   ],
   "note": ""
  },
  {
   "property": "C11",
   "status": "proved",
   "theorems": [
    "C11_parse_no_panic"
   ],
   "note": ""
  },
  {
   "property": "C12",
   "status": "proved",
   "theorems": [
    "C12_token_errors",
    "C12_paserk_errors"
   ],
   "note": ""
  },
  {
   "property": "C13",
   "status": "proved",
   "theorems": [
    "C13_raw_footer_authenticated",
    "C13_raw_footer_verified",
    "C13_footer_types",
    "C13_footer_acceptance"
   ],
   "note": ""
  },
  {
   "property": "C14",
   "status": "proved",
   "theorems": [
    "C14_local_roundtrip",
    "C14_local_roundtrip_raw"
   ],
   "note": ""
  },
  {
   "property": "C15",
   "status": "proved",
   "theorems": [
    "C15_encrypt_is_spec"
   ],
   "note": "v3 equality holds where the 64-bit counter does not overflow; C55 gives the exact disagreement."
  },
  {
   "property": "C16",
   "status": "proved",
   "theorems": [
    "C16_decrypt_is_spec"
   ],
   "note": "v3: as C15."
  },
  {
   "property": "C17",
   "status": "proved",
   "theorems": [
    "C17_no_decoding_before_authentication",
    "C17_no_decoding_before_verification"
   ],
   "note": ""
  },
  {
   "property": "C18",
   "status": "proved",
   "theorems": [
    "C18_tamper_detection",
    "C18_honest_token_tampered"
   ],
   "note": ""
  },
  {
   "property": "C19",
   "status": "proved",
   "theorems": [
    "C19_decrypt_panic_iff",
    "C19_decrypt_no_panic_refuted"
   ],
   "note": "The ideal no-panic claim is false of the code; the exact panic condition is proved and a witness given."
  },
  {
   "property": "C20",
   "status": "proved",
   "theorems": [
    "C20_encrypt_outcome",
    "C20_json_footer_panics"
   ],
   "note": ""
  },
  {
   "property": "C21",
   "status": "proved",
   "theorems": [
    "C21_nonces_are_fresh_blocks",
    "C21_nonce_reuse_means_repeated_block"
   ],
   "note": ""
  },
  {
   "property": "C22",
   "status": "proved",
   "theorems": [
    "C22_public_roundtrip",
    "C22_sign_outcome"
   ],
   "note": ""
  },
  {
   "property": "C23",
   "status": "proved",
   "theorems": [
    "C23_sign_is_spec"
   ],
   "note": ""
  },
  {
   "property": "C24",
   "status": "proved",
   "theorems": [
    "C24_verify_is_spec"
   ],
   "note": ""
  },
  {
   "property": "C25",
   "status": "proved",
   "theorems": [
    "C25_signed_bytes_injective",
    "C25_no_transplant"
   ],
   "note": ""
  },
  {
   "property": "C26",
   "status": "proved",
   "theorems": [
    "C26_verify_panic_iff",
    "C26_verify_no_panic_refuted",
    "C26_v3_zero_signature_refuted"
   ],
   "note": "The ideal no-panic claim is false of the code; the exact panic condition is proved and witnesses given."
  },
  {
   "property": "C27",
   "status": "proved",
   "theorems": [
    "C27_local_short_entry_points",
    "C27_assertion_not_droppable",
    "C27_public_short_entry_points",
    "C27_assertion_not_droppable_public"
   ],
   "note": ""
  },
  {
   "property": "C28",
   "status": "proved",
   "theorems": [
    "C28_suffix_text_disjoint",
    "C28_header_determines_encoding"
   ],
   "note": ""
  },
  {
   "property": "C29",
   "status": "proved",
   "theorems": [
    "C29_key_bytes_roundtrip",
    "C29_key_bytes_exact",
    "C29_constructors",
    "C29_constructors_lengths"
   ],
   "note": ""
  },
  {
   "property": "C30",
   "status": "proved",
   "theorems": [
    "C30_key_equality_equivalence",
    "C30_key_equality_is_identity"
   ],
   "note": ""
  },
  {
   "property": "C31",
   "status": "proved",
   "theorems": [
    "C31_debug_constant"
   ],
   "note": ""
  },
  {
   "property": "C32",
   "status": "proved",
   "theorems": [
    "C32_plaintext_roundtrip",
    "C32_plaintext_language",
    "C32_plaintext_canonical"
   ],
   "note": ""
  },
  {
   "property": "C33",
   "status": "proved",
   "theorems": [
    "C33_id_text",
    "C33_id_language"
   ],
   "note": ""
  },
  {
   "property": "C34",
   "status": "proved",
   "theorems": [
    "C34_id_is_spec"
   ],
   "note": ""
  },
  {
   "property": "C35",
   "status": "proved",
   "theorems": [
    "C35_hashed_string_identifies_key",
    "C35_equal_ids"
   ],
   "note": ""
  },
  {
   "property": "C36",
   "status": "proved",
   "theorems": [
    "C36_id_equality",
    "C36_id_total_order",
    "C36_id_order_lexicographic"
   ],
   "note": ""
  },
  {
   "property": "C37",
   "status": "proved",
   "theorems": [
    "C37_pie_roundtrip",
    "C37_pie_text"
   ],
   "note": ""
  },
  {
   "property": "C38",
   "status": "proved",
   "theorems": [
    "C38_pie_wrap_is_spec",
    "C38_pie_unwrap_is_spec"
   ],
   "note": ""
  },
  {
   "property": "C39",
   "status": "proved",
   "theorems": [
    "C39_pie_unwrap_no_panic"
   ],
   "note": ""
  },
  {
   "property": "C40",
   "status": "proved",
   "theorems": [
    "C40_pie_binding"
   ],
   "note": ""
  },
  {
   "property": "C41",
   "status": "proved",
   "theorems": [
    "C41_pw_roundtrip",
    "C41_pw_default_settings"
   ],
   "note": ""
  },
  {
   "property": "C42",
   "status": "proved",
   "theorems": [
    "C42_pw_wrap_is_spec",
    "C42_pw_unwrap_is_spec"
   ],
   "note": ""
  },
  {
   "property": "C43",
   "status": "proved",
   "theorems": [
    "C43_pw_unwrap_panic_iff",
    "C43_pw_unwrap_no_panic_refuted",
    "C43_pw_wrap_outcome"
   ],
   "note": "False of the code for k4 (witness); exact panic condition proved, k3 never panics."
  },
  {
   "property": "C44",
   "status": "proved",
   "theorems": [
    "C44_pw_text_unique_refuted",
    "C44_k4_pw_language",
    "C44_pw_text"
   ],
   "note": "False of the code for k4 (witness); exact language proved, k3 canonical."
  },
  {
   "property": "C45",
   "status": "proved",
   "theorems": [
    "C45_pw_binding"
   ],
   "note": ""
  },
  {
   "property": "C46",
   "status": "proved",
   "theorems": [
    "C46_seal_roundtrip",
    "C46_seal_terminates"
   ],
   "note": ""
  },
  {
   "property": "C47",
   "status": "proved",
   "theorems": [
    "C47_seal_is_spec",
    "C47_unseal_is_spec"
   ],
   "note": ""
  },
  {
   "property": "C48",
   "status": "proved",
   "theorems": [
    "C48_unseal_panic_iff",
    "C48_unseal_no_panic_refuted"
   ],
   "note": "False of the code for k3 (witness); exact panic condition proved, k4 never panics."
  },
  {
   "property": "C49",
   "status": "proved",
   "theorems": [
    "C49_seal_binding"
   ],
   "note": ""
  },
  {
   "property": "C50",
   "status": "proved",
   "theorems": [
    "C50_serialize_is_display",
    "C50_deserialize_is_parse",
    "C50_deserialize_errors",
    "C50_deserialize_type_errors",
    "C50_serde_roundtrip"
   ],
   "note": ""
  },
  {
   "property": "C51",
   "status": "proved",
   "theorems": [
    "C51_builders",
    "C51_builder_end_to_end"
   ],
   "note": ""
  },
  {
   "property": "C52",
   "status": "proved",
   "theorems": [
    "C52_rotation_local",
    "C52_rotation_public"
   ],
   "note": ""
  },
  {
   "property": "C53",
   "status": "proved",
   "theorems": [
    "C53_local_text_length",
    "C53_public_text_length",
    "C53_paserk_text_length",
    "C53_values_well_sized"
   ],
   "note": ""
  },
  {
   "property": "C54",
   "status": "proved",
   "theorems": [
    "C54_fixed_draws",
    "C54_rejection_sampling",
    "C54_locality",
    "C54_history_disjoint"
   ],
   "note": ""
  },
  {
   "property": "C55",
   "status": "proved",
   "theorems": [
    "C55_counter_blocks",
    "C55_cipher_agrees",
    "C55_cipher_differs_on_overflow",
    "C55_token_is_spec_iff"
   ],
   "note": "Ideal claim false of the code; exact agreement condition proved."
  },
  {
   "property": "C56",
   "status": "proved",
   "theorems": [
    "C56_error_texts",
    "C56_deserialize_texts",
    "C56_errors"
   ],
   "note": ""
  },
  {
   "property": "C57",
   "status": "proved",
   "theorems": [
    "C57_authenticated_data_determines_everything",
    "C57_auth_data_is_implemented"
   ],
   "note": ""
  },
  {
   "property": "C58",
   "status": "proved",
   "theorems": [
    "C58_v4_length_limit"
   ],
   "note": ""
  },
  {
   "property": "C59",
   "status": "proved",
   "theorems": [
    "C59_v3_token_text_unique_refuted",
    "C59_tags_are_unique"
   ],
   "note": "Ideal claim false of the code for v3.public (refuted for every accepted token, given the symmetry of ECDSA verification); uniqueness of tags proved for the rest."
  },
  {
   "property": "C60",
   "status": "proved",
   "theorems": [
    "C60_features_disjoint",
    "C60_headers_disjoint",
    "C60_token_operations_confined",
    "C60_paserk_operations_confined"
   ],
   "note": ""
  },
  {
   "property": "C61",
   "status": "proved",
   "theorems": [
    "C61_k3_public_text_unique_refuted"
   ],
   "note": "Ideal claim false of the code (refuted for every compact point the curve library accepts)."
  },
  {
   "property": "C62",
   "status": "proved",
   "theorems": [
    "C62_printed_texts_are_url_safe"
   ],
   "note": ""
  },
  {
   "property": "C63",
   "status": "proved",
   "theorems": [
    "C63_token_commits_to_key",
    "C63_pie_commits_to_key",
    "C63_pw_commits_to_password",
    "C63_seal_commits_to_recipient"
   ],
   "note": ""
  },
  {
   "property": "C64",
   "status": "proved",
   "theorems": [
    "C64_fuzz_local_never_fails",
    "C64_fuzz_public_never_fails",
    "C64_fuzz_wrap_never_fails",
    "C64_fuzz_seal_never_fails",
    "C64_fuzz_parse_never_fails",
    "C64_token_targets_check",
    "C64_key_targets_check"
   ],
   "note": ""
  },
  {
   "property": "C65",
   "status": "proved",
   "theorems": [
    "C65_arbitrary_keys",
    "C65_arbitrary_complete"
   ],
   "note": ""
  },
  {
   "property": "C66",
   "status": "proved",
   "theorems": [
    "C66_json_string_reader",
    "C66_json_roundtrip",
    "C66_json_only_utf8",
    "C66_written_text_shortest"
   ],
   "note": ""
  },
  {
   "property": "C67",
   "status": "proved",
   "theorems": [
    "C67_documented_rotation_public",
    "C67_documented_rotation_local"
   ],
   "note": ""
  },
  {
   "property": "C68",
   "status": "proved",
   "theorems": [
    "C68_local_history"
   ],
   "note": ""
  },
  {
   "property": "C69",
   "status": "proved",
   "theorems": [
    "C69_public_history"
   ],
   "note": ""
  },
  {
   "property": "C70",
   "status": "proved",
   "theorems": [
    "C70_pie_history",
    "C70_pw_history"
   ],
   "note": ""
  },
  {
   "property": "C71",
   "status": "proved",
   "theorems": [
    "C71_unit_footer_error",
    "C71_parse_reports_footer",
    "C71_json_header"
   ],
   "note": ""
  },
  {
   "property": "C72",
   "status": "proved",
   "theorems": [
    "C72_verdict_without_cipher"
   ],
   "note": ""
  },
  {
   "property": "C73",
   "status": "proved",
   "theorems": [
    "C73_document_language",
    "C73_document_deterministic",
    "C73_codecs"
   ],
   "note": ""
  },
  {
   "property": "C74",
   "status": "proved",
   "theorems": [
    "C74_decrypt_accepts_iff_encrypted",
    "C74_standard_local_text_opens",
    "C74_verify_accepts_iff_signed",
    "C74_standard_public_text_opens",
    "C74_pie_accepts_iff_wrapped",
    "C74_pw_accepts_iff_wrapped",
    "C74_standard_pw_text_opens",
    "C74_unseal_accepts_iff_sealed"
   ],
   "note": ""
  },
  {
   "property": "C75",
   "status": "proved",
   "theorems": [
    "C75_token_fits_any_message",
    "C75_pie_fits_any_key",
    "C75_pw_fits_any_key",
    "C75_seal_fits_any_key"
   ],
   "note": ""
  },
  {
   "property": "C76",
   "status": "proved",
   "theorems": [
    "C76_display_into_any_sink",
    "C76_sinks",
    "C76_stops_at_first_refusal"
   ],
   "note": ""
  },
  {
   "property": "C77",
   "status": "proved",
   "theorems": [
    "C77_any_generator_is_a_tape",
    "C77_tapes_are_generators",
    "C77_requests",
    "C77_generator_failure"
   ],
   "note": ""
  },
  {
   "property": "C78",
   "status": "proved",
   "theorems": [
    "C78_published_is_display",
    "C78_local_text",
    "C78_public_text",
    "C78_pie_text",
    "C78_pw_text"
   ],
   "note": ""
  },
  {
   "property": "C79",
   "status": "proved",
   "theorems": [
    "C79_id_fits_any_key"
   ],
   "note": ""
  },
  {
   "property": "C80",
   "status": "proved",
   "theorems": [
    "C80_real_sizes",
    "C80_real_aes_injective",
    "C80_real_v3_token_is_spec_iff",
    "C80_real_roundtrips",
    "C80_real_no_panic",
    "C80_real_pie_text",
    "C80_real_local_text",
    "C80_real_public_text"
   ],
   "note": ""
  },
  {
   "property": "C81",
   "status": "proved",
   "theorems": [
    "C81_weak_key_accepted",
    "C81_signature_needs_secret_refuted",
    "C81_sealing_needs_secret_refuted"
   ],
   "note": "No hypotheses: the Ed25519 and X25519 algorithms are the executable ones. Only the neutral element is treated, not the other points of small order."
  },
  {
   "property": "C82",
   "status": "proved",
   "theorems": [
    "C82_real_laws",
    "C82_real_sign_verify",
    "C82_real_seal",
    "C82_real_keys",
    "C82_real_accepted_keys",
    "C82_real_fuzz"
   ],
   "note": "No hypotheses on primitives. That the dependency crates compute the executable functions is trusted (test vectors replayed)."
  }
 ]
}