{
 "claims": [
  {
   "property": "C01",
   "status": "proved",
   "theorems": [
    "C01_usernames_unique",
    "C01_usernames_unique_ascii"
   ],
   "note": ""
  },
  {
   "property": "C02",
   "status": "proved",
   "theorems": [
    "C02_addresses_unique"
   ],
   "note": ""
  },
  {
   "property": "C03",
   "status": "proved",
   "theorems": [
    "C03_ids_unique",
    "C03_id_length",
    "C03_ids_unique_refuted"
   ],
   "note": "the unrestricted wish is false of the code, as the statement says; witness: C03_ids_unique_refuted; the other theorems prove what does hold for all inputs"
  },
  {
   "property": "C04",
   "status": "proved",
   "theorems": [
    "C04_add_user_accepts"
   ],
   "note": ""
  },
  {
   "property": "C05",
   "status": "proved",
   "theorems": [
    "C05_add_user_appends"
   ],
   "note": ""
  },
  {
   "property": "C06",
   "status": "proved",
   "theorems": [
    "C06_rejected_unchanged"
   ],
   "note": ""
  },
  {
   "property": "C07",
   "status": "proved",
   "theorems": [
    "C07_username_lookup",
    "C07_address_lookup",
    "C07_login_lookup",
    "C07_identity_lookup"
   ],
   "note": ""
  },
  {
   "property": "C08",
   "status": "proved",
   "theorems": [
    "C08_added_found",
    "C08_short_username_lost",
    "C08_short_address_lost",
    "C08_short_username_refuted",
    "C08_short_address_refuted",
    "C08_at_username_refuted"
   ],
   "note": "holds under the guards named in the theorems; _refuted shows the stated failures"
  },
  {
   "property": "C09",
   "status": "proved",
   "theorems": [
    "C09_identity_required"
   ],
   "note": ""
  },
  {
   "property": "C10",
   "status": "proved",
   "theorems": [
    "C10_others_untouched"
   ],
   "note": ""
  },
  {
   "property": "C11",
   "status": "proved",
   "theorems": [
    "C11_accounts_stay",
    "C11_delete_user_fails"
   ],
   "note": ""
  },
  {
   "property": "C12",
   "status": "proved",
   "theorems": [
    "C12_password_decision",
    "C12_code"
   ],
   "note": ""
  },
  {
   "property": "C13",
   "status": "proved",
   "theorems": [
    "C13_login",
    "C13_padded_rejected",
    "C13_long_tail",
    "C13_refuted"
   ],
   "note": "the unrestricted wish is false of the code, as the statement says; witness: C13_refuted; the other theorems prove what does hold for all inputs"
  },
  {
   "property": "C14",
   "status": "proved",
   "theorems": [
    "C14_wrong_password",
    "C14_other_password"
   ],
   "note": ""
  },
  {
   "property": "C15",
   "status": "proved",
   "theorems": [
    "C15_reads_change_nothing"
   ],
   "note": ""
  },
  {
   "property": "C16",
   "status": "proved",
   "theorems": [
    "C16_change_iff",
    "C16_switched"
   ],
   "note": ""
  },
  {
   "property": "C17",
   "status": "proved",
   "theorems": [
    "C17_one_active",
    "C17_kept",
    "C17_no_reactivation"
   ],
   "note": ""
  },
  {
   "property": "C18",
   "status": "proved",
   "theorems": [
    "C18_bounded",
    "C18_change",
    "C18_keep_versions_refuted"
   ],
   "note": "the unrestricted wish is false of the code, as the statement says; witness: C18_keep_versions_refuted; the other theorems prove what does hold for all inputs"
  },
  {
   "property": "C19",
   "status": "proved",
   "theorems": [
    "C19_length_policy",
    "C19_secret_length_refuted"
   ],
   "note": "the unrestricted wish is false of the code, as the statement says; witness: C19_secret_length_refuted; the other theorems prove what does hold for all inputs"
  },
  {
   "property": "C20",
   "status": "proved",
   "theorems": [
    "C20_limits",
    "C20_new",
    "C20_stored"
   ],
   "note": ""
  },
  {
   "property": "C21",
   "status": "proved",
   "theorems": [
    "C21_username_length",
    "C21_characters_refuted"
   ],
   "note": "the unrestricted wish is false of the code, as the statement says; witness: C21_characters_refuted; the other theorems prove what does hold for all inputs"
  },
  {
   "property": "C22",
   "status": "proved",
   "theorems": [
    "C22_issued_key_works"
   ],
   "note": ""
  },
  {
   "property": "C23",
   "status": "proved",
   "theorems": [
    "C23_lookup_iff",
    "C23_reported",
    "C23_else_error"
   ],
   "note": ""
  },
  {
   "property": "C24",
   "status": "proved",
   "theorems": [
    "C24_first_72_bytes",
    "C24_whole_secret_refuted"
   ],
   "note": "the unrestricted wish is false of the code, as the statement says; witness: C24_whole_secret_refuted; the other theorems prove what does hold for all inputs"
  },
  {
   "property": "C25",
   "status": "proved",
   "theorems": [
    "C25_disabled_key_works",
    "C25_refused_refuted"
   ],
   "note": "the unrestricted wish is false of the code, as the statement says; witness: C25_refused_refuted; the other theorems prove what does hold for all inputs"
  },
  {
   "property": "C26",
   "status": "proved",
   "theorems": [
    "C26_deleted_key_dead",
    "C26_others_continue"
   ],
   "note": ""
  },
  {
   "property": "C27",
   "status": "proved",
   "theorems": [
    "C27_prefixes_unique",
    "C27_index_exact",
    "C27_index_complete",
    "C27_index_exact_refuted"
   ],
   "note": "the unrestricted wish is false of the code, as the statement says; witness: C27_index_exact_refuted; the other theorems prove what does hold for all inputs"
  },
  {
   "property": "C28",
   "status": "proved",
   "theorems": [
    "C28_terminates",
    "C28_hangs",
    "C28_always_returns_refuted"
   ],
   "note": "the unrestricted wish is false of the code, as the statement says; witness: C28_always_returns_refuted; the other theorems prove what does hold for all inputs"
  },
  {
   "property": "C29",
   "status": "proved",
   "theorems": [
    "C29_secret_shape"
   ],
   "note": ""
  },
  {
   "property": "C30",
   "status": "proved",
   "theorems": [
    "C30_no_new_duplicates",
    "C30_no_duplicates",
    "C30_duplicate_refused"
   ],
   "note": ""
  },
  {
   "property": "C31",
   "status": "proved",
   "theorems": [
    "C31_pem_upload",
    "C31_openssh_upload",
    "C31_both_stored",
    "C31_recognised_refuted"
   ],
   "note": "the unrestricted wish is false of the code, as the statement says; witness: C31_recognised_refuted; the other theorems prove what does hold for all inputs"
  },
  {
   "property": "C32",
   "status": "proved",
   "theorems": [
    "C32_get_public_keys",
    "C32_get_api_keys",
    "C32_get_mfa_tokens",
    "C32_picked_determines"
   ],
   "note": ""
  },
  {
   "property": "C33",
   "status": "proved",
   "theorems": [
    "C33_delete_public_key",
    "C33_delete_api_key",
    "C33_delete_mfa_token",
    "C33_unknown_id"
   ],
   "note": ""
  },
  {
   "property": "C34",
   "status": "proved",
   "theorems": [
    "C34_stored_key_shape",
    "C34_ssh_as_gpg",
    "C34_pgp_as_ssh",
    "C34_usage_matches_refuted"
   ],
   "note": "the unrestricted wish is false of the code, as the statement says; witness: C34_usage_matches_refuted; the other theorems prove what does hold for all inputs"
  },
  {
   "property": "C35",
   "status": "proved",
   "theorems": [
    "C35_code",
    "C35_code_iff",
    "C35_code_unique"
   ],
   "note": ""
  },
  {
   "property": "C36",
   "status": "proved",
   "theorems": [
    "C36_window",
    "C36_one_period"
   ],
   "note": ""
  },
  {
   "property": "C37",
   "status": "proved",
   "theorems": [
    "C37_full_period",
    "C37_elsewhere"
   ],
   "note": ""
  },
  {
   "property": "C38",
   "status": "proved",
   "theorems": [
    "C38_new_token",
    "C38_stored",
    "C38_added"
   ],
   "note": ""
  },
  {
   "property": "C39",
   "status": "proved",
   "theorems": [
    "C39_no_new_clash",
    "C39_no_clash",
    "C39_refused"
   ],
   "note": ""
  },
  {
   "property": "C40",
   "status": "proved",
   "theorems": [
    "C40_accepted_again",
    "C40_any_number",
    "C40_once_refuted"
   ],
   "note": "the unrestricted wish is false of the code, as the statement says; witness: C40_once_refuted; the other theorems prove what does hold for all inputs"
  },
  {
   "property": "C41",
   "status": "proved",
   "theorems": [
    "C41_registration",
    "C41_token"
   ],
   "note": ""
  },
  {
   "property": "C42",
   "status": "proved",
   "theorems": [
    "C42_exact",
    "C42_step",
    "C42_bound_needed"
   ],
   "note": "uses the standard library axioms listed in DESIGN.md (Flocq over Coq reals)"
  },
  {
   "property": "C43",
   "status": "proved",
   "theorems": [
    "C43_webauthn_login"
   ],
   "note": ""
  },
  {
   "property": "C44",
   "status": "proved",
   "theorems": [
    "C44_authenticate_keeps_tokens",
    "C44_replay_elsewhere",
    "C44_replay",
    "C44_no_replay_refuted"
   ],
   "note": "the unrestricted wish is false of the code, as the statement says; witness: C44_no_replay_refuted; the other theorems prove what does hold for all inputs"
  },
  {
   "property": "C45",
   "status": "proved",
   "theorems": [
    "C45_panics_iff",
    "C45_well_typed",
    "C45_panic_harmless",
    "C45_rejected_refuted"
   ],
   "note": "the unrestricted wish is false of the code, as the statement says; witness: C45_rejected_refuted; the other theorems prove what does hold for all inputs"
  },
  {
   "property": "C46",
   "status": "proved",
   "theorems": [
    "C46_auth_data",
    "C46_too_short",
    "C46_form"
   ],
   "note": ""
  },
  {
   "property": "C47",
   "status": "proved",
   "theorems": [
    "C47_key",
    "C47_key_unique",
    "C47_cache"
   ],
   "note": ""
  },
  {
   "property": "C48",
   "status": "proved",
   "theorems": [
    "C48_unknown",
    "C48_known",
    "C48_never_fails"
   ],
   "note": ""
  },
  {
   "property": "C49",
   "status": "proved",
   "theorems": [
    "C49_challenge",
    "C49_flags",
    "C49_usable_refuted"
   ],
   "note": "the unrestricted wish is false of the code, as the statement says; witness: C49_usable_refuted; the other theorems prove what does hold for all inputs"
  },
  {
   "property": "C50",
   "status": "proved",
   "theorems": [
    "C50_round_trip",
    "C50_encodable",
    "C50_any_text"
   ],
   "note": ""
  },
  {
   "property": "C51",
   "status": "proved",
   "theorems": [
    "C51_survives",
    "C51_repeated_uuid_refuted"
   ],
   "note": "the unrestricted wish is false of the code, as the statement says; witness: C51_repeated_uuid_refuted; the other theorems prove what does hold for all inputs"
  },
  {
   "property": "C52",
   "status": "proved",
   "theorems": [
    "C52_crash",
    "C52_atomic_refuted"
   ],
   "note": "the unrestricted wish is false of the code, as the statement says; witness: C52_atomic_refuted; the other theorems prove what does hold for all inputs"
  },
  {
   "property": "C53",
   "status": "proved",
   "theorems": [
    "C53_torn"
   ],
   "note": ""
  },
  {
   "property": "C54",
   "status": "proved",
   "theorems": [
    "C54_kept",
    "C54_errors",
    "C54_no_effect_refuted"
   ],
   "note": "the unrestricted wish is false of the code, as the statement says; witness: C54_no_effect_refuted; the other theorems prove what does hold for all inputs"
  },
  {
   "property": "C55",
   "status": "proved",
   "theorems": [
    "C55_revision_counts_commits"
   ],
   "note": ""
  },
  {
   "property": "C56",
   "status": "proved",
   "theorems": [
    "C56_copy"
   ],
   "note": ""
  },
  {
   "property": "C57",
   "status": "proved",
   "theorems": [
    "C57_opened",
    "C57_accounts",
    "C57_exactly"
   ],
   "note": ""
  },
  {
   "property": "C58",
   "status": "proved",
   "theorems": [
    "C58_panics_only",
    "C58_null_refused",
    "C58_null_panics",
    "C58_never_refuted"
   ],
   "note": "the unrestricted wish is false of the code, as the statement says; witness: C58_never_refuted; the other theorems prove what does hold for all inputs"
  },
  {
   "property": "C59",
   "status": "proved",
   "theorems": [
    "C59_ignored",
    "C59_other",
    "C59_missing",
    "C59_plain",
    "C59_reopen_refuted"
   ],
   "note": "the unrestricted wish is false of the code, as the statement says; witness: C59_reopen_refuted; the other theorems prove what does hold for all inputs"
  },
  {
   "property": "C60",
   "status": "proved",
   "theorems": [
    "C60_serial",
    "C60_real_time",
    "C60_final_state",
    "C60_returned_stays"
   ],
   "note": ""
  },
  {
   "property": "C61",
   "status": "proved",
   "theorems": [
    "C61_unchanged",
    "C61_whole",
    "C61_writer_alone"
   ],
   "note": ""
  },
  {
   "property": "C62",
   "status": "proved",
   "theorems": [
    "C62_caches_only",
    "C62_same_key",
    "C62_no_write_refuted"
   ],
   "note": "the unrestricted wish is false of the code, as the statement says; witness: C62_no_write_refuted; the other theorems prove what does hold for all inputs"
  },
  {
   "property": "C63",
   "status": "proved",
   "theorems": [
    "C63_role_parts",
    "C63_role_blank",
    "C63_role_print",
    "C63_role_reparse_refuted"
   ],
   "note": "the unrestricted wish is false of the code, as the statement says; witness: C63_role_reparse_refuted; the other theorems prove what does hold for all inputs"
  },
  {
   "property": "C64",
   "status": "proved",
   "theorems": [
    "C64_has_role",
    "C64_add_role_members",
    "C64_add_role_nodup",
    "C64_add_role_idempotent"
   ],
   "note": ""
  },
  {
   "property": "C65",
   "status": "proved",
   "theorems": [
    "C65_both_orders",
    "C65_accepts",
    "C65_print_parse",
    "C65_print_parse_refuted"
   ],
   "note": "the unrestricted wish is false of the code, as the statement says; witness: C65_print_parse_refuted; the other theorems prove what does hold for all inputs"
  },
  {
   "property": "C66",
   "status": "proved",
   "theorems": [
    "C66_email",
    "C66_email_rejected"
   ],
   "note": ""
  },
  {
   "property": "C67",
   "status": "proved",
   "theorems": [
    "C67_random_string",
    "C67_random_range",
    "C67_random_range_equal_panics",
    "C67_new_random_string",
    "C67_random_onto"
   ],
   "note": ""
  },
  {
   "property": "C68",
   "status": "proved",
   "theorems": [
    "C68_uuid",
    "C68_uuid_length",
    "C68_uuid_lower"
   ],
   "note": ""
  },
  {
   "property": "C69",
   "status": "proved",
   "theorems": [
    "C69_qr_uri"
   ],
   "note": ""
  },
  {
   "property": "C70",
   "status": "proved",
   "theorems": [
    "C70_qr_valid",
    "C70_qr_fields"
   ],
   "note": ""
  },
  {
   "property": "C71",
   "status": "proved",
   "theorems": [
    "C71_bundle_size"
   ],
   "note": ""
  },
  {
   "property": "C72",
   "status": "proved",
   "theorems": [
    "C72_with_args_nil",
    "C72_with_args_is",
    "C72_errors_is"
   ],
   "note": ""
  },
  {
   "property": "C73",
   "status": "proved",
   "theorems": [
    "C73_get_users"
   ],
   "note": ""
  },
  {
   "property": "C74",
   "status": "proved",
   "theorems": [
    "C74_association",
    "C74_association_complete",
    "C74_association_err",
    "C74_issuer"
   ],
   "note": ""
  },
  {
   "property": "C75",
   "status": "proved",
   "theorems": [
    "C75_account_revision"
   ],
   "note": ""
  },
  {
   "property": "C76",
   "status": "proved",
   "theorems": [
    "C76_secret_refuted",
    "C76_replaced"
   ],
   "note": "the unrestricted wish is false of the code, as the statement says; witness: C76_secret_refuted; the other theorems prove what does hold for all inputs"
  },
  {
   "property": "C77",
   "status": "proved",
   "theorems": [
    "C77_progress",
    "C77_comes_back",
    "C77_stuck",
    "C77_always_refuted"
   ],
   "note": "the unrestricted wish is false of the code, as the statement says; witness: C77_always_refuted; the other theorems prove what does hold for all inputs"
  },
  {
   "property": "C78",
   "status": "proved",
   "theorems": [
    "C78_frame",
    "C78_counted",
    "C78_failed",
    "C78_failed_unchanged_refuted",
    "C78_all_counted_refuted"
   ],
   "note": "the unrestricted wish is false of the code, as the statement says; witness: C78_failed_unchanged_refuted, C78_all_counted_refuted; the other theorems prove what does hold for all inputs"
  },
  {
   "property": "C79",
   "status": "proved",
   "theorems": [
    "C79_get_user",
    "C79_set_password",
    "C79_only_password",
    "C79_policy_refuted"
   ],
   "note": "the unrestricted wish is false of the code, as the statement says; witness: C79_policy_refuted; the other theorems prove what does hold for all inputs"
  },
  {
   "property": "C80",
   "status": "proved",
   "theorems": [
    "C80_login_lookup",
    "C80_identity_lookup",
    "C80_names_unique",
    "C80_survives",
    "C80_foreign_address",
    "C80_new_address_unknown",
    "C80_new_key_unknown",
    "C80_all_methods_refuted"
   ],
   "note": "the unrestricted wish is false of the code, as the statement says; witness: C80_all_methods_refuted; the other theorems prove what does hold for all inputs"
  },
  {
   "property": "C81",
   "status": "proved",
   "theorems": [
    "C81_add_email",
    "C81_idempotent"
   ],
   "note": ""
  },
  {
   "property": "C82",
   "status": "proved",
   "theorems": [
    "C82_add_name"
   ],
   "note": ""
  },
  {
   "property": "C83",
   "status": "proved",
   "theorems": [
    "C83_add_roles"
   ],
   "note": ""
  },
  {
   "property": "C84",
   "status": "proved",
   "theorems": [
    "C84_disable",
    "C84_password",
    "C84_token",
    "C84_api_key",
    "C84_code"
   ],
   "note": ""
  },
  {
   "property": "C85",
   "status": "proved",
   "theorems": [
    "C85_accepts",
    "C85_panics",
    "C85_errors"
   ],
   "note": ""
  },
  {
   "property": "C86",
   "status": "proved",
   "theorems": [
    "C86_valid",
    "C86_has",
    "C86_kept"
   ],
   "note": ""
  },
  {
   "property": "C87",
   "status": "proved",
   "theorems": [
    "C87_pattern",
    "C87_summary",
    "C87_accepted"
   ],
   "note": ""
  },
  {
   "property": "C88",
   "status": "proved",
   "theorems": [
    "C88_pattern",
    "C88_summary",
    "C88_required_refuted"
   ],
   "note": "the unrestricted wish is false of the code, as the statement says; witness: C88_required_refuted; the other theorems prove what does hold for all inputs"
  },
  {
   "property": "C89",
   "status": "proved",
   "theorems": [
    "C89_calls",
    "C89_opening",
    "C89_direct",
    "C89_always_refuted"
   ],
   "note": "the unrestricted wish is false of the code, as the statement says; witness: C89_always_refuted; the other theorems prove what does hold for all inputs"
  },
  {
   "property": "C90",
   "status": "proved",
   "theorems": [
    "C90_few",
    "C90_texts"
   ],
   "note": ""
  },
  {
   "property": "C91",
   "status": "proved",
   "theorems": [
    "C91_reveals",
    "C91_hidden_refuted"
   ],
   "note": "the unrestricted wish is false of the code, as the statement says; witness: C91_hidden_refuted; the other theorems prove what does hold for all inputs"
  },
  {
   "property": "C92",
   "status": "proved",
   "theorems": [
    "C92_panic",
    "C92_hang",
    "C92_reading",
    "C92_crash"
   ],
   "note": ""
  },
  {
   "property": "C93",
   "status": "proved",
   "theorems": [
    "C93_layout",
    "C93_times",
    "C93_maps",
    "C93_file"
   ],
   "note": ""
  },
  {
   "property": "C94",
   "status": "proved",
   "theorems": [
    "C94_registration",
    "C94_request",
    "C94_client",
    "C94_unique"
   ],
   "note": ""
  },
  {
   "property": "C95",
   "status": "proved",
   "theorems": [
    "C95_typed",
    "C95_utf8",
    "C95_survives",
    "C95_live_survives"
   ],
   "note": ""
  },
  {
   "property": "C96",
   "status": "proved",
   "theorems": [
    "C96_login",
    "C96_origin_unchecked",
    "C96_origin_refuted",
    "C96_registration_unbound"
   ],
   "note": "the unrestricted wish is false of the code, as the statement says; witness: C96_origin_refuted; the other theorems prove what does hold for all inputs"
  },
  {
   "property": "C97",
   "status": "proved",
   "theorems": [
    "C97_numbers",
    "C97_value",
    "C97_integers"
   ],
   "note": "uses the standard library axioms listed in DESIGN.md (Flocq over Coq reals)"
  },
  {
   "property": "C98",
   "status": "proved",
   "theorems": [
    "C98_accepts",
    "C98_reports",
    "C98_suggestion",
    "C98_others",
    "C98_exported",
    "C98_exported_refuted"
   ],
   "note": "the unrestricted wish is false of the code, as the statement says; witness: C98_exported_refuted; the other theorems prove what does hold for all inputs"
  },
  {
   "property": "C99",
   "status": "proved",
   "theorems": [
    "C99_new_token",
    "C99_totp",
    "C99_unique",
    "C99_add_iff",
    "C99_stored",
    "C99_key",
    "C99_unusable",
    "C99_usable_refuted"
   ],
   "note": "the unrestricted wish is false of the code, as the statement says; witness: C99_usable_refuted; the other theorems prove what does hold for all inputs"
  },
  {
   "property": "C100",
   "status": "proved",
   "theorems": [
    "C100_reads",
    "C100_writes",
    "C100_nobody",
    "C100_lookup"
   ],
   "note": ""
  },
  {
   "property": "C101",
   "status": "proved",
   "theorems": [
    "C101_login",
    "C101_lookup",
    "C101_never_set",
    "C101_no_lockout",
    "C101_enforced_refuted"
   ],
   "note": "the unrestricted wish is false of the code, as the statement says; witness: C101_enforced_refuted; the other theorems prove what does hold for all inputs"
  },
  {
   "property": "C102",
   "status": "proved",
   "theorems": [
    "C102_add_user",
    "C102_change_password",
    "C102_login",
    "C102_api_key",
    "C102_totp_refuted"
   ],
   "note": "the unrestricted wish is false of the code, as the statement says; witness: C102_totp_refuted; the other theorems prove what does hold for all inputs"
  },
  {
   "property": "C103",
   "status": "proved",
   "theorems": [
    "C103_accounts",
    "C103_answers",
    "C103_reads",
    "C103_same_account_refuted"
   ],
   "note": "the unrestricted wish is false of the code, as the statement says; witness: C103_same_account_refuted; the other theorems prove what does hold for all inputs"
  },
  {
   "property": "C104",
   "status": "proved",
   "theorems": [
    "C104_call",
    "C104_history",
    "C104_reopen",
    "C104_any_clock_refuted"
   ],
   "note": "the unrestricted wish is false of the code, as the statement says; witness: C104_any_clock_refuted; the other theorems prove what does hold for all inputs"
  },
  {
   "property": "C105",
   "status": "proved",
   "theorems": [
    "C105_public_key",
    "C105_api_key",
    "C105_mfa_token",
    "C105_any_id_refuted"
   ],
   "note": "the unrestricted wish is false of the code, as the statement says; witness: C105_any_id_refuted; the other theorems prove what does hold for all inputs"
  },
  {
   "property": "C106",
   "status": "proved",
   "theorems": [
    "C106_order",
    "C106_edits",
    "C106_opened",
    "C106_last_refuted",
    "C106_times",
    "C106_shallow"
   ],
   "note": "the unrestricted wish is false of the code, as the statement says; witness: C106_last_refuted; the other theorems prove what does hold for all inputs"
  },
  {
   "property": "C107",
   "status": "proved",
   "theorems": [
    "C107_meaning",
    "C107_one",
    "C107_names",
    "C107_opened",
    "C107_opens"
   ],
   "note": ""
  },
  {
   "property": "C108",
   "status": "proved",
   "theorems": [
    "C108_as_if_alone",
    "C108_blind",
    "C108_answers",
    "C108_last_writer",
    "C108_single_writer",
    "C108_acknowledged_refuted"
   ],
   "note": "the unrestricted wish is false of the code, as the statement says; witness: C108_acknowledged_refuted; the other theorems prove what does hold for all inputs"
  },
  {
   "property": "C109",
   "status": "proved",
   "theorems": [
    "C109_opened",
    "C109_rebuilt",
    "C109_determined",
    "C109_restart",
    "C109_any_draws_refuted"
   ],
   "note": "the unrestricted wish is false of the code, as the statement says; witness: C109_any_draws_refuted; the other theorems prove what does hold for all inputs"
  },
  {
   "property": "C110",
   "status": "proved",
   "theorems": [
    "C110_hidden",
    "C110_compared",
    "C110_erased",
    "C110_tokens_refuted",
    "C110_keys_refuted",
    "C110_account_refuted"
   ],
   "note": "the unrestricted wish is false of the code, as the statement says; witness: C110_tokens_refuted, C110_keys_refuted, C110_account_refuted; the other theorems prove what does hold for all inputs"
  },
  {
   "property": "C111",
   "status": "proved",
   "theorems": [
    "C111_uuid",
    "C111_uuid_onto",
    "C111_random_string",
    "C111_random_range",
    "C111_new_random_string"
   ],
   "note": ""
  },
  {
   "property": "C112",
   "status": "proved",
   "theorems": [
    "C112_accepted",
    "C112_passcodes"
   ],
   "note": ""
  },
  {
   "property": "C113",
   "status": "proved",
   "theorems": [
    "C113_reads",
    "C113_one",
    "C113_file",
    "C113_written",
    "C113_cut",
    "C113_times"
   ],
   "note": ""
  },
  {
   "property": "C114",
   "status": "proved",
   "theorems": [
    "C114_digest_size",
    "C114_hmac_size",
    "C114_codes",
    "C114_same_codes",
    "C114_same_tokens",
    "C114_duplicate_refuted",
    "C114_keys_differ"
   ],
   "note": "the unrestricted wish is false of the code, as the statement says; witness: C114_duplicate_refuted; the other theorems prove what does hold for all inputs"
  },
  {
   "property": "C115",
   "status": "proved",
   "theorems": [
    "C115_accepted",
    "C115_error",
    "C115_client_data",
    "C115_token",
    "C115_agrees",
    "C115_registered"
   ],
   "note": ""
  },
  {
   "property": "C116",
   "status": "proved",
   "theorems": [
    "C116_accepted",
    "C116_refused",
    "C116_answered",
    "C116_login"
   ],
   "note": ""
  },
  {
   "property": "C117",
   "status": "proved",
   "theorems": [
    "C117_opened",
    "C117_refused",
    "C117_says",
    "C117_files",
    "C117_untouched_refuted"
   ],
   "note": "the unrestricted wish is false of the code, as the statement says; witness: C117_untouched_refuted; the other theorems prove what does hold for all inputs"
  },
  {
   "property": "C118",
   "status": "proved",
   "theorems": [
    "C118_accounts",
    "C118_one_entry",
    "C118_login",
    "C118_key",
    "C118_change",
    "C118_determined",
    "C118_reachable"
   ],
   "note": ""
  },
  {
   "property": "C119",
   "status": "proved",
   "theorems": [
    "C119_public_keys",
    "C119_api_keys",
    "C119_tokens",
    "C119_deletes",
    "C119_asked",
    "C119_reachable"
   ],
   "note": ""
  },
  {
   "property": "C120",
   "status": "proved",
   "theorems": [
    "C120_decode",
    "C120_open",
    "C120_blind",
    "C120_calls",
    "C120_panics",
    "C120_methods",
    "C120_methods_same",
    "C120_open_means_sound_refuted"
   ],
   "note": "the unrestricted wish is false of the code, as the statement says; witness: C120_open_means_sound_refuted; the other theorems prove what does hold for all inputs"
  },
  {
   "property": "C121",
   "status": "proved",
   "theorems": [
    "C121_memory",
    "C121_effect",
    "C121_accepted",
    "C121_refused",
    "C121_same_as_accepted"
   ],
   "note": ""
  },
  {
   "property": "C122",
   "status": "proved",
   "theorems": [
    "C122_login",
    "C122_determined",
    "C122_codes",
    "C122_registers",
    "C122_reachable"
   ],
   "note": ""
  },
  {
   "property": "C123",
   "status": "proved",
   "theorems": [
    "C123_entry",
    "C123_one",
    "C123_added",
    "C123_origin",
    "C123_line"
   ],
   "note": ""
  },
  {
   "property": "C124",
   "status": "proved",
   "theorems": [
    "C124_returned",
    "C124_determined",
    "C124_accepted",
    "C124_reachable"
   ],
   "note": ""
  },
  {
   "property": "C125",
   "status": "proved",
   "theorems": [
    "C125_listed",
    "C125_claims",
    "C125_reachable"
   ],
   "note": ""
  },
  {
   "property": "C126",
   "status": "proved",
   "theorems": [
    "C126_returned",
    "C126_other",
    "C126_one",
    "C126_determined",
    "C126_reachable"
   ],
   "note": ""
  },
  {
   "property": "C127",
   "status": "proved",
   "theorems": [
    "C127_returned",
    "C127_one",
    "C127_determined",
    "C127_reachable"
   ],
   "note": ""
  },
  {
   "property": "C128",
   "status": "proved",
   "theorems": [
    "C128_kept",
    "C128_one",
    "C128_determined",
    "C128_reachable"
   ],
   "note": ""
  },
  {
   "property": "C129",
   "status": "proved",
   "theorems": [
    "C129_content",
    "C129_answers",
    "C129_file",
    "C129_determined",
    "C129_reachable",
    "C129_any_draws_refuted"
   ],
   "note": "the unrestricted wish is false of the code, as the statement says; witness: C129_any_draws_refuted; the other theorems prove what does hold for all inputs"
  },
  {
   "property": "C130",
   "status": "proved",
   "theorems": [
    "C130_file",
    "C130_recovered",
    "C130_live",
    "C130_acknowledged",
    "C130_never_lost",
    "C130_short_write_refuted"
   ],
   "note": "the unrestricted wish is false of the code, as the statement says; witness: C130_short_write_refuted; the other theorems prove what does hold for all inputs"
  },
  {
   "property": "C131",
   "status": "proved",
   "theorems": [
    "C131_backup",
    "C131_path",
    "C131_apart"
   ],
   "note": ""
  }
 ]
}