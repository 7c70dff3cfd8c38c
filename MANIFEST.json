{
 "claims": [
  {
   "property": "C01",
   "status": "proved",
   "theorems": [
    "C01_api_histories_are_store_histories",
    "C01_items_read_back_last_write_wins",
    "C01_operation_results_refine_abstract_machine",
    "C01_json_roundtrip"
   ],
   "note": ""
  },
  {
   "property": "C02",
   "status": "proved",
   "theorems": [
    "C02_sessions_do_not_interfere",
    "C02_index_entries_do_not_interfere"
   ],
   "note": ""
  },
  {
   "property": "C03",
   "status": "proved",
   "theorems": [
    "C03_generated_keys_are_a_family",
    "C03_index_lookup_is_last_binding"
   ],
   "note": ""
  },
  {
   "property": "C04",
   "status": "proved",
   "theorems": [
    "C04_remove_state_is_clean",
    "C04_remove_without_index_values_raises_refuted",
    "C04_dangling_nonce_after_remove_refuted",
    "C04_shared_subject_refuted"
   ],
   "note": "Theorems ending in _refuted prove the deviations of the code that the statement names."
  },
  {
   "property": "C05",
   "status": "proved",
   "theorems": [
    "C05_plain_keys_are_a_family",
    "C05_caller_key_shadows_index_refuted",
    "C05_nonce_shaped_key_rejected"
   ],
   "note": "Theorems ending in _refuted prove the deviations of the code that the statement names."
  },
  {
   "property": "C06",
   "status": "proved",
   "theorems": [
    "C06_single_item_precedence",
    "C06_missing_item_leaves_arguments",
    "C06_last_item_type_wins"
   ],
   "note": ""
  },
  {
   "property": "C07",
   "status": "proved",
   "theorems": [
    "C07_response_accepted_only_for_known_session_of_issuer",
    "C07_unknown_state_and_wrong_issuer_raise",
    "C07_accepted_response_was_asked_for"
   ],
   "note": ""
  },
  {
   "property": "C08",
   "status": "proved",
   "theorems": [
    "C08_route_is_a_recorded_issuer",
    "C08_key_routes_back",
    "C08_routed_client_has_the_session",
    "C08_unknown_key"
   ],
   "note": ""
  },
  {
   "property": "C09",
   "status": "proved",
   "theorems": [
    "C09_existing_client_is_reused",
    "C09_failed_setup_leaves_clients",
    "C09_setup_touches_one_client",
    "C09_filed_under_its_issuer",
    "C09_discovered_setup_is_harmless",
    "C09_pending_sessions_stay_reachable",
    "C09_webfinger_login_drops_sessions_refuted",
    "C09_issuer_with_slash_drops_sessions_refuted",
    "C09_other_issuer_in_provider_info_refuted"
   ],
   "note": "Theorems ending in _refuted prove the deviations of the code that the statement names."
  },
  {
   "property": "C10",
   "status": "proved",
   "theorems": [
    "C10_request_has_state_and_nonce",
    "C10_chosen_nonce_is_bound"
   ],
   "note": ""
  },
  {
   "property": "C11",
   "status": "proved",
   "theorems": [
    "C11_front_channel_id_token_nonce",
    "C11_token_response_with_foreign_nonce_rejected",
    "C11_exceptions",
    "C11_accepted_token_response",
    "C11_known_nonces_were_sent"
   ],
   "note": ""
  },
  {
   "property": "C12",
   "status": "proved",
   "theorems": [
    "C12_tokens_come_from_the_prescribed_response"
   ],
   "note": ""
  },
  {
   "property": "C13",
   "status": "proved",
   "theorems": [
    "C13_token_request_of_session",
    "C13_redirect_uri_in_url",
    "C13_error_answer_stores_nothing"
   ],
   "note": ""
  },
  {
   "property": "C14",
   "status": "proved",
   "theorems": [
    "C14_verifier_of_session",
    "C14_challenge_matches_verifier",
    "C14_verifier_added",
    "C14_unsupported_method_raises",
    "C14_unsupported_method_no_request"
   ],
   "note": ""
  },
  {
   "property": "C15",
   "status": "proved",
   "theorems": [
    "C15_token_never_expired",
    "C15_error_means_no_token",
    "C15_no_other_error"
   ],
   "note": ""
  },
  {
   "property": "C16",
   "status": "proved",
   "theorems": [
    "C16_active_iff_unexpired"
   ],
   "note": ""
  },
  {
   "property": "C17",
   "status": "proved",
   "theorems": [
    "C17_user_info_subject",
    "C17_wrong_subject_stores_nothing",
    "C17_wrong_subject_exception",
    "C17_aggregated_subject_refuted"
   ],
   "note": "Theorems ending in _refuted prove the deviations of the code that the statement names."
  },
  {
   "property": "C18",
   "status": "proved",
   "theorems": [
    "C18_only_for_verified_logout_token",
    "C18_unverified_raises",
    "C18_subject_before_session_id",
    "C18_session_of_this_client"
   ],
   "note": ""
  },
  {
   "property": "C19",
   "status": "proved",
   "theorems": [
    "C19_end_session_request",
    "C19_logout_states_were_sent"
   ],
   "note": ""
  },
  {
   "property": "C20",
   "status": "proved",
   "theorems": [
    "C20_request_header",
    "C20_token_request_credentials",
    "C20_basic_header_decodes_to_credentials",
    "C20_distinct_credentials_distinct_headers",
    "C20_header_is_standard_base64_refuted",
    "C20_code_grant_request_names_the_client"
   ],
   "note": "Theorems ending in _refuted prove the deviations of the code that the statement names."
  },
  {
   "property": "C21",
   "status": "proved",
   "theorems": [
    "C21_secret_not_in_body",
    "C21_client_secret_post_body",
    "C21_refresh_sends_secret_in_body_refuted"
   ],
   "note": "Theorems ending in _refuted prove the deviations of the code that the statement names."
  },
  {
   "property": "C22",
   "status": "proved",
   "theorems": [
    "C22_request_header",
    "C22_bearer_header_carries_the_token_in_force",
    "C22_token_in_force_is_unique",
    "C22_given_token_is_used",
    "C22_no_token_no_header",
    "C22_bearer_body_carries_the_token_in_force",
    "C22_receiver_reads_the_token",
    "C22_bearer_body_ignores_refresh_token_refuted"
   ],
   "note": "Theorems ending in _refuted prove the deviations of the code that the statement names."
  },
  {
   "property": "C23",
   "status": "proved",
   "theorems": [
    "C23_request_assertion",
    "C23_token_request_assertion",
    "C23_assertion",
    "C23_client_secret_jwt_algorithm_refuted",
    "C23_registration_without_alg_raises_refuted",
    "C23_unknown_method_raises"
   ],
   "note": "Theorems ending in _refuted prove the deviations of the code that the statement names."
  },
  {
   "property": "C24",
   "status": "proved",
   "theorems": [
    "C24_value_encoding_roundtrip",
    "C24_comparison_is_equality",
    "C24_signed_cookie_reads_back",
    "C24_encrypted_cookie_reads_back",
    "C24_accepted_means_verified",
    "C24_wrong_signature_refused",
    "C24_dealer_reads_back",
    "C24_dealer_returns_only_what_was_created",
    "C24_boundary_not_authenticated_refuted",
    "C24_name_not_authenticated_refuted",
    "C24_tampered_encrypted_cookie_exception_refuted",
    "C24_unreadable_values_refuted"
   ],
   "note": "Theorems ending in _refuted prove the deviations of the code that the statement names."
  },
  {
   "property": "C25",
   "status": "proved",
   "theorems": [
    "C25_base64_roundtrip",
    "C25_base64_injective",
    "C25_base64_shape",
    "C25_unpadded_base64url_roundtrip",
    "C25_unpadded_base64url_alphabet",
    "C25_quote_plus_roundtrip",
    "C25_quote_plus_alphabet",
    "C25_urlencode_roundtrip",
    "C25_base64_is_rfc4648",
    "C25_unpadded_base64url_is_rfc4648",
    "C25_quote_plus_is_form_quoting"
   ],
   "note": ""
  },
  {
   "property": "C26",
   "status": "proved",
   "theorems": [
    "C26_change_only_after_verification",
    "C26_error_answers_change_nothing",
    "C26_returned_error_means_unchanged",
    "C26_client_error_without_error_member_is_stored_refuted"
   ],
   "note": "Theorems ending in _refuted prove the deviations of the code that the statement names."
  },
  {
   "property": "C27",
   "status": "proved",
   "theorems": [
    "C27_only_from_configured_issuer",
    "C27_issuer_and_keys_stay_with_configured_name",
    "C27_discovery_outcome",
    "C27_mismatch_disallowed_by_false_refuted"
   ],
   "note": "Theorems ending in _refuted prove the deviations of the code that the statement names."
  },
  {
   "property": "C28",
   "status": "proved",
   "theorems": [
    "C28_discovery_url",
    "C28_discovery_asks_only_there",
    "C28_discovered_endpoints_are_used",
    "C28_configured_provider_info_is_used",
    "C28_request_goes_to_configured_or_published_endpoint",
    "C28_no_endpoint_no_request"
   ],
   "note": ""
  },
  {
   "property": "C29",
   "status": "proved",
   "theorems": [
    "C29_negotiated_values_supported_by_both",
    "C29_other_preferences_adopted",
    "C29_chosen_is_preferred_and_supported",
    "C29_no_overlap_in_a_list_is_no_error_refuted",
    "C29_part_of_default_name_accepted_refuted",
    "C29_earlier_setting_survives_refuted"
   ],
   "note": "Theorems ending in _refuted prove the deviations of the code that the statement names."
  },
  {
   "property": "C30",
   "status": "proved",
   "theorems": [
    "C30_grant_types_as_prescribed",
    "C30_word_order_irrelevant",
    "C30_registration_request_grant_types"
   ],
   "note": ""
  },
  {
   "property": "C31",
   "status": "proved",
   "theorems": [
    "C31_never_both",
    "C31_never_both_on_the_wire",
    "C31_reference_wins",
    "C31_value_without_reference"
   ],
   "note": ""
  },
  {
   "property": "C32",
   "status": "proved",
   "theorems": [
    "C32_callbacks_under_base_url",
    "C32_callbacks_issuer_specific",
    "C32_callbacks_usable",
    "C32_code_id_token_unusable_refuted",
    "C32_callers_redirect_uris_not_selected_refuted",
    "C32_request_uris_issuer_specific"
   ],
   "note": "Theorems ending in _refuted prove the deviations of the code that the statement names."
  },
  {
   "property": "C33",
   "status": "proved",
   "theorems": [
    "C33_answer_without_issuer_uses_previous_one_refuted",
    "C33_query_is_https_to_host",
    "C33_query_acct",
    "C33_query_url",
    "C33_query_hostport",
    "C33_query_user_at_host",
    "C33_query_bare_host",
    "C33_query_refusals",
    "C33_resource_precedence",
    "C33_issuer_from_first_matching_link",
    "C33_answers",
    "C33_only_https_refuted",
    "C33_host_nonempty_refuted"
   ],
   "note": "Theorems ending in _refuted prove the deviations of the code that the statement names."
  },
  {
   "property": "C34",
   "status": "proved",
   "theorems": [
    "C34_get_parameters_in_query",
    "C34_get_every_parameter_in_query",
    "C34_endpoint_query_overrides_request",
    "C34_post_parameters_in_body",
    "C34_post_every_parameter_in_body",
    "C34_required_parameters_present",
    "C34_put_sends_no_parameters_refuted",
    "C34_values_as_text"
   ],
   "note": "Theorems ending in _refuted prove the deviations of the code that the statement names."
  },
  {
   "property": "C35",
   "status": "proved",
   "theorems": [
    "C35_outside_base_rejected",
    "C35_name_under_base",
    "C35_file_name_determines_web_name",
    "C35_request_uri_files_differ",
    "C35_not_one_to_one_refuted",
    "C35_look_alike_host_refuted",
    "C35_any_file_refuted"
   ],
   "note": "Theorems ending in _refuted prove the deviations of the code that the statement names."
  },
  {
   "property": "C36",
   "status": "proved",
   "theorems": [
    "C36_request_has_its_own_proof",
    "C36_proof_names_the_url_of_the_request",
    "C36_key_never_changes",
    "C36_key_choice",
    "C36_proof_is_accepted",
    "C36_accepted_proof",
    "C36_provider_without_dpop_refuted",
    "C36_no_common_algorithm_no_proof_refuted",
    "C36_configured_endpoint_refuted",
    "C36_symmetric_key_accepted_refuted"
   ],
   "note": "Theorems ending in _refuted prove the deviations of the code that the statement names."
  },
  {
   "property": "C37",
   "status": "proved",
   "theorems": [
    "C37_only_the_reference_is_left",
    "C37_pushed_form_is_the_request",
    "C37_pushed_object_is_the_request",
    "C37_push_changes_nothing",
    "C37_refused_push_is_ignored_refuted",
    "C37_strict_rule_makes_no_url_refuted"
   ],
   "note": "Theorems ending in _refuted prove the deviations of the code that the statement names."
  },
  {
   "property": "C38",
   "status": "proved",
   "theorems": [
    "C38_status_classification",
    "C38_other_statuses_raise",
    "C38_client_error_without_error_member_refuted"
   ],
   "note": "Theorems ending in _refuted prove the deviations of the code that the statement names."
  },
  {
   "property": "C39",
   "status": "proved",
   "theorems": [
    "C39_caller_redirect_uri_wins",
    "C39_first_registered_redirect_uri_is_next",
    "C39_callback_by_response_mode_and_type",
    "C39_nothing_to_pick_raises",
    "C39_never_invents_a_uri"
   ],
   "note": ""
  },
  {
   "property": "C40",
   "status": "proved",
   "theorems": [
    "C40_refresh_request",
    "C40_refresh_result",
    "C40_refresh_token_lost_refuted"
   ],
   "note": "Theorems ending in _refuted prove the deviations of the code that the statement names."
  },
  {
   "property": "C41",
   "status": "proved",
   "theorems": [
    "C41_argument_precedence",
    "C41_authorization_precedence",
    "C41_standard_parameters",
    "C41_constructed_request",
    "C41_nothing_undeclared_leaks"
   ],
   "note": ""
  },
  {
   "property": "C42",
   "status": "proved",
   "theorems": [
    "C42_openid_scope",
    "C42_openid_scope_refuted",
    "C42_service_request_refuted"
   ],
   "note": "Theorems ending in _refuted prove the deviations of the code that the statement names."
  },
  {
   "property": "C43",
   "status": "proved",
   "theorems": [
    "C43_clear_session",
    "C43_logout_at_the_sessions_client",
    "C43_no_end_session_service_raises"
   ],
   "note": ""
  },
  {
   "property": "C44",
   "status": "proved",
   "theorems": [
    "C44_explicit_token_is_sent",
    "C44_without_token_always_fails_refuted"
   ],
   "note": "Theorems ending in _refuted prove the deviations of the code that the statement names."
  },
  {
   "property": "C45",
   "status": "proved",
   "theorems": [
    "C45_response_adopted",
    "C45_registering",
    "C45_registered_uris_and_method_unused_refuted",
    "C45_reading_the_registration",
    "C45_no_registration_token_no_reading"
   ],
   "note": "Theorems ending in _refuted prove the deviations of the code that the statement names."
  },
  {
   "property": "C46",
   "status": "proved",
   "theorems": [
    "C46_each_call_has_its_own_arguments",
    "C46_redirects_are_not_followed",
    "C46_certificates_are_checked",
    "C46_parameters_from_configuration",
    "C46_cookies_are_kept",
    "C46_quotes_are_taken_off",
    "C46_jar_cookies_never_sent_refuted",
    "C46_request_callback_is_ignored_refuted",
    "C46_max_age_zero_keeps_cookie_refuted"
   ],
   "note": "Theorems ending in _refuted prove the deviations of the code that the statement names."
  },
  {
   "property": "C47",
   "status": "proved",
   "theorems": [
    "C47_behaviour_is_not_shared",
    "C47_shared_default_behaviour_refuted"
   ],
   "note": "Theorems ending in _refuted prove the deviations of the code that the statement names."
  },
  {
   "property": "C48",
   "status": "proved",
   "theorems": [
    "C48_algorithm",
    "C48_request_object_covers_the_request",
    "C48_reference_registered",
    "C48_reference_unregistered",
    "C48_encryption_not_skipped",
    "C48_encryption_impossible_refuted",
    "C48_second_login_replaces_object_refuted",
    "C48_provider_chooses_the_file_refuted"
   ],
   "note": "Theorems ending in _refuted prove the deviations of the code that the statement names."
  },
  {
   "property": "C49",
   "status": "proved",
   "theorems": [
    "C49_exactly_one_slash",
    "C49_slashes_do_not_matter"
   ],
   "note": ""
  },
  {
   "property": "C50",
   "status": "proved",
   "theorems": [
    "C50_dotted_name",
    "C50_colon_name",
    "C50_two_colons_are_refused",
    "C50_anything_else_is_refused"
   ],
   "note": ""
  },
  {
   "property": "C51",
   "status": "proved",
   "theorems": [
    "C51_stored_id_tokens_are_believable",
    "C51_finalize_id_token_is_believable",
    "C51_verification_arguments",
    "C51_refreshed_id_token_algorithm_refuted"
   ],
   "note": "Theorems ending in _refuted prove the deviations of the code that the statement names."
  },
  {
   "property": "C52",
   "status": "proved",
   "theorems": [
    "C52_id_token_carries_the_nonce_of_the_login",
    "C52_nonce_of_the_url",
    "C52_user_info_is_about_the_id_token_subject",
    "C52_user_info_of_the_id_token"
   ],
   "note": ""
  },
  {
   "property": "C53",
   "status": "proved",
   "theorems": [
    "C53_aggregated_claims",
    "C53_distributed_claims",
    "C53_requests_to_sources",
    "C53_subject_kept_by_fetch_refuted"
   ],
   "note": "Theorems ending in _refuted prove the deviations of the code that the statement names."
  },
  {
   "property": "C54",
   "status": "proved",
   "theorems": [
    "C54_token_request",
    "C54_answer_stored",
    "C54_refresh_answer_stored",
    "C54_refresh_request",
    "C54_refresh_follows_token",
    "C54_default_key_refuted"
   ],
   "note": "Theorems ending in _refuted prove the deviations of the code that the statement names."
  },
  {
   "property": "C55",
   "status": "proved",
   "theorems": [
    "C55_algorithms_in_force",
    "C55_jwt_answers",
    "C55_claims_are_the_unpacked_ones",
    "C55_not_unpackable_is_refused",
    "C55_marked_as_json_refuted"
   ],
   "note": "Theorems ending in _refuted prove the deviations of the code that the statement names."
  },
  {
   "property": "C56",
   "status": "proved",
   "theorems": [
    "C56_request_settings",
    "C56_method_and_body",
    "C56_registered_method_first",
    "C56_answer_format",
    "C56_html_answer",
    "C56_no_settings",
    "C56_authentication_off"
   ],
   "note": ""
  },
  {
   "property": "C57",
   "status": "proved",
   "theorems": [
    "C57_session_token",
    "C57_unknown_session",
    "C57_no_endpoint_refuted"
   ],
   "note": "Theorems ending in _refuted prove the deviations of the code that the statement names."
  },
  {
   "property": "C58",
   "status": "proved",
   "theorems": [
    "C58_settings",
    "C58_http_arguments",
    "C58_verification",
    "C58_client_certificate",
    "C58_upper_case_refuted"
   ],
   "note": "Theorems ending in _refuted prove the deviations of the code that the statement names."
  },
  {
   "property": "C59",
   "status": "proved",
   "theorems": [
    "C59_logout_of_the_named_user",
    "C59_completed_login_can_be_logged_out",
    "C59_after_clearing_an_older_session_refuted"
   ],
   "note": "Theorems ending in _refuted prove the deviations of the code that the statement names."
  },
  {
   "property": "C60",
   "status": "proved",
   "theorems": [
    "C60_calls_of_other_sessions_do_not_matter",
    "C60_any_two_schedules",
    "C60_what_is_read_is_the_same",
    "C60_shared_nonce_refuted",
    "C60_clearing_refuted"
   ],
   "note": "Theorems ending in _refuted prove the deviations of the code that the statement names."
  },
  {
   "property": "C61",
   "status": "proved",
   "theorems": [
    "C61_earlier_attempts_do_not_matter",
    "C61_stopped_anywhere",
    "C61_any_partial_writes",
    "C61_a_response_can_be_used_again",
    "C61_other_source_refuted"
   ],
   "note": "Theorems ending in _refuted prove the deviations of the code that the statement names."
  },
  {
   "property": "C62",
   "status": "proved",
   "theorems": [
    "C62_request_begins_a_session",
    "C62_scope_left_alone",
    "C62_challenge_matches_verifier",
    "C62_response_is_checked",
    "C62_accepted_was_begun",
    "C62_code_redeemed_for_its_session",
    "C62_token_answer_is_stored",
    "C62_rejected_token_answer_stores_nothing",
    "C62_unlabelled_token_answer",
    "C62_bearer_token",
    "C62_github_token_in_url",
    "C62_user_info_is_stored",
    "C62_login_result",
    "C62_other_sessions_untouched",
    "C62_no_subject_no_login",
    "C62_github_login_refuted",
    "C62_unsigned_subject_refuted",
    "C62_behaviour_args_state_refuted"
   ],
   "note": "Theorems ending in _refuted prove the deviations of the code that the statement names."
  },
  {
   "property": "C63",
   "status": "proved",
   "theorems": [
    "C63_uninterrupted_is_the_call",
    "C63_threads_of_other_sessions_do_not_matter",
    "C63_as_if_alone",
    "C63_what_is_read_is_the_same",
    "C63_every_call_ends",
    "C63_clearing_during_a_call_refuted"
   ],
   "note": "Theorems ending in _refuted prove the deviations of the code that the statement names."
  },
  {
   "property": "C64",
   "status": "proved",
   "theorems": [
    "C64_service_is_the_defined_one",
    "C64_usable_definitions_suffice",
    "C64_clients_do_not_share_services",
    "C64_configuration_otherwise_unchanged",
    "C64_configuration_unchanged_refuted",
    "C64_lookup_by_endpoint",
    "C64_every_definition_gives_a_service_refuted",
    "C64_default_services",
    "C64_configured_services_only",
    "C64_pkce",
    "C64_dpop",
    "C64_par",
    "C64_pkce_and_par_in_any_order",
    "C64_add_on_is_added_or_refused_refuted"
   ],
   "note": "Theorems ending in _refuted prove the deviations of the code that the statement names."
  },
  {
   "property": "C65",
   "status": "proved",
   "theorems": [
    "C65_header_is_read_as_meant",
    "C65_header_is_one_line",
    "C65_dealer_cookie",
    "C65_deleted_cookie",
    "C65_zero_minutes_refuted",
    "C65_same_site_refuted",
    "C65_any_domain_refuted"
   ],
   "note": "Theorems ending in _refuted prove the deviations of the code that the statement names."
  },
  {
   "property": "C66",
   "status": "proved",
   "theorems": [
    "C66_form",
    "C66_no_escaping",
    "C66_no_bias",
    "C66_three_words_determine_one_refuted",
    "C66_past_words_determine_the_next_values_refuted"
   ],
   "note": "Theorems ending in _refuted prove the deviations of the code that the statement names."
  },
  {
   "property": "C67",
   "status": "proved",
   "theorems": [
    "C67_expected_format",
    "C67_found_format",
    "C67_media_types_refuted",
    "C67_value_type_refuted",
    "C67_replace_other_settings",
    "C67_replace",
    "C67_replace_loses_a_setting_refuted",
    "C67_set_param",
    "C67_setting",
    "C67_tls_context"
   ],
   "note": "Theorems ending in _refuted prove the deviations of the code that the statement names."
  },
  {
   "property": "C68",
   "status": "proved",
   "theorems": [
    "C68_where_keys_come_from",
    "C68_no_keys_for_others",
    "C68_own_keys_are_its_own",
    "C68_keys_are_kept",
    "C68_published_keys_are_used",
    "C68_listed_keys_are_used",
    "C68_registration",
    "C68_import_keys",
    "C68_handler_keys",
    "C68_configured_secret_is_no_key",
    "C68_client_secret_jwt_fails",
    "C68_handler_publishes",
    "C68_where_keys_are_published",
    "C68_handler_keys_are_published_refuted"
   ],
   "note": "Theorems ending in _refuted prove the deviations of the code that the statement names."
  },
  {
   "property": "C69",
   "status": "proved",
   "theorems": [
    "C69_header_is_understood",
    "C69_dealer_cookie_comes_back",
    "C69_set_cookie_value_reads_back",
    "C69_any_header",
    "C69_attribute_name_first_refuted",
    "C69_nameless_cookie_refuted",
    "C69_json_value_refuted",
    "C69_foreign_name_raises_refuted",
    "C69_dollar_name_refuted"
   ],
   "note": "Theorems ending in _refuted prove the deviations of the code that the statement names."
  },
  {
   "property": "C70",
   "status": "proved",
   "theorems": [
    "C70_as_if_the_only_provider",
    "C70_what_is_told_is_the_same",
    "C70_other_clients_untouched",
    "C70_only_the_client_matters",
    "C70_shared_key_refuted"
   ],
   "note": "Theorems ending in _refuted prove the deviations of the code that the statement names."
  },
  {
   "property": "C71",
   "status": "proved",
   "theorems": [
    "C71_writes_are_the_operation",
    "C71_sessions_all_or_nothing",
    "C71_only_bound_values",
    "C71_index_lookup",
    "C71_other_sessions_untouched",
    "C71_other_values_untouched",
    "C71_repeating_heals",
    "C71_removal_cannot_be_repeated",
    "C71_interrupted_removal_refuted",
    "C71_interrupted_bind_refuted",
    "C71_found_sessions_were_begun",
    "C71_accepted_response_was_asked_for",
    "C71_nonce_leads_to_its_request",
    "C71_logout_state_leads_to_its_logout",
    "C71_crashed_calls_of_others_do_not_matter"
   ],
   "note": "Theorems ending in _refuted prove the deviations of the code that the statement names."
  },
  {
   "property": "C72",
   "status": "proved",
   "theorems": [
    "C72_pages_only_call_the_handler",
    "C72_one_call_per_visit",
    "C72_user_page",
    "C72_unknown_state",
    "C72_browsers_do_not_interfere",
    "C72_state_of_the_browser",
    "C72_logout",
    "C72_callback_by_address",
    "C72_callback_client_has_the_address",
    "C72_callback_by_name",
    "C72_fragment_arguments",
    "C72_login_bound_to_browser_refuted",
    "C72_failing_callback_keeps_the_session_refuted",
    "C72_channel_logout_does_nothing",
    "C72_backchannel_logout_refuted",
    "C72_session_change_fails",
    "C72_page_after_logout"
   ],
   "note": "Theorems ending in _refuted prove the deviations of the code that the statement names."
  },
  {
   "property": "C73",
   "status": "proved",
   "theorems": [
    "C73_token_requests",
    "C73_refresh_requests",
    "C73_userinfo_requests",
    "C73_finishing_a_login",
    "C73_any_call",
    "C73_silent_calls",
    "C73_nothing_published_nothing_sent",
    "C73_call_of_a_handler",
    "C73_any_history",
    "C73_setting_up",
    "C73_beginning"
   ],
   "note": ""
  },
  {
   "property": "C74",
   "status": "proved",
   "theorems": [
    "C74_first_login"
   ],
   "note": ""
  },
  {
   "property": "C75",
   "status": "proved",
   "theorems": [
    "C75_honest_login_completes",
    "C75_nonce_of_the_login_is_known"
   ],
   "note": ""
  },
  {
   "property": "C76",
   "status": "proved",
   "theorems": [
    "C76_login_begins",
    "C76_from_the_url_to_the_user",
    "C76_the_url_says_all_that"
   ],
   "note": ""
  },
  {
   "property": "C77",
   "status": "proved",
   "theorems": [
    "C77_token_of_the_login",
    "C77_user_stays_logged_in",
    "C77_user_info_again",
    "C77_refresh_at_an_honest_provider",
    "C77_logged_in_after_refresh_refuted"
   ],
   "note": "Theorems ending in _refuted prove the deviations of the code that the statement names."
  },
  {
   "property": "C78",
   "status": "proved",
   "theorems": [
    "C78_login_begins",
    "C78_login_completes",
    "C78_login_is_kept",
    "C78_user_info_by_the_key",
    "C78_refresh_by_the_key"
   ],
   "note": ""
  },
  {
   "property": "C79",
   "status": "proved",
   "theorems": [
    "C79_logout_after_a_login",
    "C79_logout_by_the_key"
   ],
   "note": ""
  }
 ]
}