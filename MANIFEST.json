{
 "claims": [
  {
   "property": "C01",
   "status": "proved",
   "theorems": [
    "C01_bonded_and_unbonding_stay_locked"
   ],
   "note": ""
  },
  {
   "property": "C02",
   "status": "proved",
   "theorems": [
    "C02_unlock_period_can_be_skipped_refuted",
    "C02_unbonding_tokens_stay_until_due"
   ],
   "note": ""
  },
  {
   "property": "C03",
   "status": "proved",
   "theorems": [
    "C03_withdraw_only_what_is_due",
    "C03_withdraw_succeeds_when_due",
    "C03_due_time_of_unbond"
   ],
   "note": ""
  },
  {
   "property": "C04",
   "status": "proved",
   "theorems": [
    "C04_token_time_is_the_integral",
    "C04_update_frequency_irrelevant"
   ],
   "note": ""
  },
  {
   "property": "C05",
   "status": "proved",
   "theorems": [
    "C05_unbond_burns_pro_rata",
    "C05_event_understates_burn_on_dust_refuted"
   ],
   "note": ""
  },
  {
   "property": "C06",
   "status": "proved",
   "theorems": [
    "C06_bond_within_free_balance",
    "C06_bond_extra_within_free_balance"
   ],
   "note": ""
  },
  {
   "property": "C07",
   "status": "proved",
   "theorems": [
    "C07_unbond_conserves_the_bond",
    "C07_dust_stays_locked_refuted"
   ],
   "note": ""
  },
  {
   "property": "C08",
   "status": "proved",
   "theorems": [
    "C08_only_the_owner_changes_a_bond"
   ],
   "note": ""
  },
  {
   "property": "C09",
   "status": "proved",
   "theorems": [
    "C09_unshield_pays_at_most_once",
    "C09_counter_counts_accepted_calls",
    "C09_repeated_unshield_moves_nothing"
   ],
   "note": ""
  },
  {
   "property": "C10",
   "status": "proved",
   "theorems": [
    "C10_only_authorised_enclave_releases_vault"
   ],
   "note": ""
  },
  {
   "property": "C11",
   "status": "proved",
   "theorems": [
    "C11_hash_burnt_on_another_shard_refuted",
    "C11_fresh_hash_pays"
   ],
   "note": ""
  },
  {
   "property": "C12",
   "status": "proved",
   "theorems": [
    "C12_vault_ledger",
    "C12_payouts_never_exceed_deposits",
    "C12_every_account_ledger"
   ],
   "note": ""
  },
  {
   "property": "C13",
   "status": "proved",
   "theorems": [
    "C13_operator_changed_only_by_operator_or_root",
    "C13_implicit_shard_takeover_refuted"
   ],
   "note": ""
  },
  {
   "property": "C14",
   "status": "proved",
   "theorems": [
    "C14_upgrade_enacted_exactly_on_time",
    "C14_first_configuration_is_immediate",
    "C14_lookup_returns_what_is_in_force"
   ],
   "note": ""
  },
  {
   "property": "C15",
   "status": "proved",
   "theorems": [
    "C15_status_bounded_and_unique"
   ],
   "note": ""
  },
  {
   "property": "C16",
   "status": "proved",
   "theorems": [
    "C16_touching_changes_exactly_the_callers_entry",
    "C16_other_calls_leave_status_alone",
    "C16_touch_fails_exactly_when_full"
   ],
   "note": ""
  },
  {
   "property": "C17",
   "status": "proved",
   "theorems": [
    "C17_purge_removes_exactly_the_subject",
    "C17_purge_outcome"
   ],
   "note": ""
  },
  {
   "property": "C18",
   "status": "proved",
   "theorems": [
    "C18_most_recent_is_a_maximum"
   ],
   "note": ""
  },
  {
   "property": "C19",
   "status": "proved",
   "theorems": [
    "C19_publish_hash_limited_and_attributable",
    "C19_replaced_enclave_enters_status_refuted"
   ],
   "note": ""
  },
  {
   "property": "C20",
   "status": "proved",
   "theorems": [
    "C20_maintenance_limits_authorities_not_enforced",
    "C20_erase_keeps_everything_else"
   ],
   "note": ""
  },
  {
   "property": "C21",
   "status": "proved",
   "theorems": [
    "C21_finalised_numbers_strictly_increase"
   ],
   "note": ""
  },
  {
   "property": "C22",
   "status": "proved",
   "theorems": [
    "C22_finalisation_extends_the_previous_one",
    "C22_other_shards_unaffected",
    "C22_confirmation_outcome"
   ],
   "note": ""
  },
  {
   "property": "C23",
   "status": "proved",
   "theorems": [
    "C23_only_the_first_listed_finalises",
    "C23_others_only_refresh_activity",
    "C23_confirmation_never_panics"
   ],
   "note": ""
  },
  {
   "property": "C24",
   "status": "proved",
   "theorems": [
    "C24_first_signer_stays_first",
    "C24_finalisation_stalls",
    "C24_only_first_signer_or_purge_helps",
    "C24_stall_after_upgrade_refuted"
   ],
   "note": ""
  },
  {
   "property": "C25",
   "status": "proved",
   "theorems": [
    "C25_only_whitelisted_enclaves_change_rates",
    "C25_only_whitelisted_enclaves_change_data",
    "C25_environment_leaves_oracle_alone"
   ],
   "note": ""
  },
  {
   "property": "C26",
   "status": "proved",
   "theorems": [
    "C26_whitelists_bounded_and_unique",
    "C26_only_root_changes_whitelists",
    "C26_removed_enclave_cannot_write"
   ],
   "note": ""
  },
  {
   "property": "C27",
   "status": "proved",
   "theorems": [
    "C27_stored_rates_and_keys_well_formed",
    "C27_submitted_rate_is_stored_or_deleted"
   ],
   "note": ""
  },
  {
   "property": "C28",
   "status": "proved",
   "theorems": [
    "C28_sovereign_registration_belongs_to_attested_key",
    "C28_the_signer_of_an_enclave_is_its_key"
   ],
   "note": ""
  },
  {
   "property": "C29",
   "status": "proved",
   "theorems": [
    "C29_proxied_key_is_content_and_registrar",
    "C29_only_the_registrar_writes_proxied",
    "C29_only_the_account_writes_sovereign"
   ],
   "note": ""
  },
  {
   "property": "C30",
   "status": "proved",
   "theorems": [
    "C30_skipping_needs_the_flag",
    "C30_debug_enclave_needs_the_flag",
    "C30_debug_quote_needs_the_flag",
    "C30_only_root_changes_the_flags",
    "C30_never_allowed_never_stored"
   ],
   "note": ""
  },
  {
   "property": "C31",
   "status": "proved",
   "theorems": [
    "C31_active_sovereign_enclave_stays",
    "C31_active_proxied_enclave_stays",
    "C31_anyone_removes_exactly_expired",
    "C31_removal_removes_only_the_subject"
   ],
   "note": ""
  },
  {
   "property": "C32",
   "status": "proved",
   "theorems": [
    "C32_ias_timestamp_is_fresh",
    "C32_timestamps_never_in_the_future",
    "C32_dcap_quote_is_replayable"
   ],
   "note": ""
  },
  {
   "property": "C33",
   "status": "proved",
   "theorems": [
    "C33_collateral_is_valid_when_stored",
    "C33_expired_collateral_keeps_being_used",
    "C33_last_collateral_wins",
    "C33_older_collateral_replaces_newer_refuted"
   ],
   "note": ""
  },
  {
   "property": "C34",
   "status": "proved",
   "theorems": [
    "C34_recorded_status_is_of_first_matching_level",
    "C34_matching_is_monotone",
    "C34_accepted_registration_has_a_matching_level"
   ],
   "note": ""
  },
  {
   "property": "C35",
   "status": "proved",
   "theorems": [
    "C35_dcap_quote_accepted_iff_genuine",
    "C35_authentication_data_beyond_32_bytes_unbound"
   ],
   "note": ""
  },
  {
   "property": "C36",
   "status": "proved",
   "theorems": [
    "C36_dcap_and_ias_verification_never_panic",
    "C36_slice_margin",
    "C36_raw_helper_panics_without_certificates",
    "C36_raw_helper_refuted",
    "C36_registration_never_panics"
   ],
   "note": ""
  },
  {
   "property": "C37",
   "status": "proved",
   "theorems": [
    "C37_old_versions_refused_if_not_listed",
    "C37_old_versions_refused_refuted",
    "C37_every_listed_level_is_trusted",
    "C37_only_up_to_date_refuted",
    "C37_unset_quoting_enclave_rejects_everything",
    "C37_flags_outside_the_mask_reject_everything"
   ],
   "note": ""
  },
  {
   "property": "C38",
   "status": "proved",
   "theorems": [
    "C38_quoting_enclave_is_stored_as_documented",
    "C38_tcb_info_is_stored_as_documented",
    "C38_panic_iff_unrepresentable_date",
    "C38_only_authentic_collateral_is_stored"
   ],
   "note": ""
  },
  {
   "property": "C39",
   "status": "proved",
   "theorems": [
    "C39_der_encoding_is_minimal_and_faithful",
    "C39_der_encoding_is_injective",
    "C39_other_lengths_are_rejected"
   ],
   "note": ""
  },
  {
   "property": "C40",
   "status": "proved",
   "theorems": [
    "C40_length_read_correctly",
    "C40_one_byte_long_form_misread",
    "C40_long_form_refuted",
    "C40_error_iff_out_of_bounds"
   ],
   "note": ""
  },
  {
   "property": "C41",
   "status": "proved",
   "theorems": [
    "C41_platform_data_extracted_iff",
    "C41_fmspc_read_in_place",
    "C41_cpusvn_read_in_place",
    "C41_pcesvn_below_2_15_read_in_place",
    "C41_pcesvn_from_2_15_rejected",
    "C41_extraction_never_panics"
   ],
   "note": ""
  },
  {
   "property": "C42",
   "status": "proved",
   "theorems": [
    "C42_upgrade_from_v0",
    "C42_upgrade_from_v1_clears_only_tcb_info",
    "C42_upgrade_from_v2_on_changes_nothing",
    "C42_upgrade_again_changes_nothing",
    "C42_second_alone_strands_v0_data",
    "C42_second_alone_refuted"
   ],
   "note": ""
  },
  {
   "property": "C43",
   "status": "proved",
   "theorems": [
    "C43_claims_ledger",
    "C43_payouts_never_exceed_claims",
    "C43_pot_never_underflows",
    "C43_paid_at_most_once",
    "C43_payout_consumes_the_claim",
    "C43_total_equals_open_claims_refuted",
    "C43_wrapped_total_refuted"
   ],
   "note": ""
  },
  {
   "property": "C44",
   "status": "proved",
   "theorems": [
    "C44_payout_goes_to_the_named_account",
    "C44_no_payout_without_claim",
    "C44_amount_arrives",
    "C44_small_claim_is_lost_refuted"
   ],
   "note": ""
  },
  {
   "property": "C45",
   "status": "proved",
   "theorems": [
    "C45_statement_is_required",
    "C45_requirement_is_not_dropped"
   ],
   "note": ""
  },
  {
   "property": "C46",
   "status": "proved",
   "theorems": [
    "C46_accepted_calls_dispatch",
    "C46_tags_identify_addresses",
    "C46_same_tag_conflicts",
    "C46_validation_is_complete_refuted"
   ],
   "note": ""
  },
  {
   "property": "C47",
   "status": "proved",
   "theorems": [
    "C47_stale_preclaim_passes_and_fails",
    "C47_stale_preclaim_stays",
    "C47_prevalidated_attest_with_claim",
    "C47_prevalidated_attest_succeeds_refuted"
   ],
   "note": ""
  },
  {
   "property": "C48",
   "status": "proved",
   "theorems": [
    "C48_panic_iff",
    "C48_validated_panic_is_reachable"
   ],
   "note": ""
  },
  {
   "property": "C49",
   "status": "proved",
   "theorems": [
    "C49_move_claim",
    "C49_unauthorised_move_fails",
    "C49_moved_claim_keeps_its_terms_refuted"
   ],
   "note": ""
  },
  {
   "property": "C50",
   "status": "proved",
   "theorems": [
    "C50_hex_doubles_the_length",
    "C50_hex_injective",
    "C50_decimal_is_canonical",
    "C50_message_is_unambiguous",
    "C50_unambiguous_for_all_lengths_refuted",
    "C50_signature_authorises_one_destination"
   ],
   "note": ""
  },
  {
   "property": "C51",
   "status": "proved",
   "theorems": [
    "C51_round_trip",
    "C51_parses_iff",
    "C51_letter_case_does_not_matter",
    "C51_panics_iff",
    "C51_wrong_length_or_character_is_rejected",
    "C51_parser_never_panics_refuted"
   ],
   "note": ""
  },
  {
   "property": "C52",
   "status": "proved",
   "theorems": [
    "C52_reverse_lookup_is_registered",
    "C52_reverse_lookup_is_injective",
    "C52_inverse_if_locations_are_fresh",
    "C52_maps_are_inverse_refuted",
    "C52_only_the_origin_changes_the_registry"
   ],
   "note": ""
  },
  {
   "property": "C53",
   "status": "proved",
   "theorems": [
    "C53_registration_accepts_exactly",
    "C53_registration_errors"
   ],
   "note": ""
  },
  {
   "property": "C54",
   "status": "proved",
   "theorems": [
    "C54_what_is_trapped",
    "C54_trap_neither_creates_nor_loses",
    "C54_destroyed_assets_are_trapped"
   ],
   "note": ""
  },
  {
   "property": "C55",
   "status": "proved",
   "theorems": [
    "C55_matching_agrees_with_the_registry",
    "C55_matching_errors",
    "C55_matched_id_converts_back"
   ],
   "note": ""
  },
  {
   "property": "C56",
   "status": "proved",
   "theorems": [
    "C56_swap_sends_exactly_one_message",
    "C56_equal_configured_ids_disable_the_swap",
    "C56_swap_errors",
    "C56_payloads_are_distinct",
    "C56_all_messages_are_swaps"
   ],
   "note": ""
  },
  {
   "property": "C57",
   "status": "proved",
   "theorems": [
    "C57_failing_calls_have_no_effect",
    "C57_bodies_fail_before_writing",
    "C57_four_bodies_write_before_failing"
   ],
   "note": ""
  },
  {
   "property": "C58",
   "status": "proved",
   "theorems": [
    "C58_parts_cover_the_state",
    "C58_pallets_write_only_their_parts",
    "C58_bridge_moves_funds_only_by_shielding",
    "C58_sidechain_leaves_executed_calls"
   ],
   "note": ""
  },
  {
   "property": "C59",
   "status": "proved",
   "theorems": [
    "C59_spending_respects_the_lock",
    "C59_lock_always_covered"
   ],
   "note": ""
  },
  {
   "property": "C60",
   "status": "proved",
   "theorems": [
    "C60_bridge_never_panics_below_counter_limit",
    "C60_teerdays_amounts_bounded",
    "C60_teerdays_panics_only_on_clock_overflow"
   ],
   "note": ""
  },
  {
   "property": "C61",
   "status": "proved",
   "theorems": [
    "C61_token_time_accrues_on_unlocked_tokens_refuted"
   ],
   "note": ""
  },
  {
   "property": "C62",
   "status": "proved",
   "theorems": [
    "C62_events_are_attributable",
    "C62_bond_events_are_of_the_signer",
    "C62_enclave_events_are_of_the_signer",
    "C62_administrative_events_need_root"
   ],
   "note": ""
  },
  {
   "property": "C63",
   "status": "proved",
   "theorems": [
    "C63_chain_is_read_entry_by_entry",
    "C63_round_trip",
    "C63_damaged_entry_is_dropped",
    "C63_comments_are_ignored_refuted"
   ],
   "note": ""
  },
  {
   "property": "C64",
   "status": "proved",
   "theorems": [
    "C64_vesting_claim_locks_the_schedule",
    "C64_unvested_part_stays_locked",
    "C64_payout_freezes_no_own_funds",
    "C64_large_schedule_freezes_own_funds_refuted"
   ],
   "note": ""
  },
  {
   "property": "C65",
   "status": "proved",
   "theorems": [
    "C65_message_locations_as_seen_by_the_relay_refuted"
   ],
   "note": ""
  },
  {
   "property": "C66",
   "status": "proved",
   "theorems": [
    "C66_ias_report_accepted_iff_genuine"
   ],
   "note": ""
  },
  {
   "property": "C67",
   "status": "proved",
   "theorems": [
    "C67_ias_registration_stores_exactly_the_report",
    "C67_dcap_registration_stores_exactly_the_quote",
    "C67_skipped_registration_stores_exactly_the_claim"
   ],
   "note": ""
  },
  {
   "property": "C68",
   "status": "proved",
   "theorems": [
    "C68_teerdays_calls_accepted_exactly",
    "C68_bridge_calls_accepted_exactly",
    "C68_sidechain_calls_accepted_exactly",
    "C68_teeracle_calls_accepted_exactly",
    "C68_claims_calls_accepted_exactly",
    "C68_removals_accepted_exactly"
   ],
   "note": ""
  },
  {
   "property": "C69",
   "status": "proved",
   "theorems": [
    "C69_teerdays_calls_do_exactly_this",
    "C69_bridge_calls_do_exactly_this",
    "C69_sidechain_confirmation_does_exactly_this",
    "C69_oracle_calls_do_exactly_this",
    "C69_registry_upkeep_does_exactly_this",
    "C69_claims_calls_do_exactly_this",
    "C69_asset_registry_calls_do_exactly_this",
    "C69_swap_does_exactly_this"
   ],
   "note": ""
  },
  {
   "property": "C70",
   "status": "proved",
   "theorems": [
    "C70_teerdays_answers",
    "C70_bridge_answers",
    "C70_sidechain_answers",
    "C70_teeracle_answers",
    "C70_claims_answers",
    "C70_teerex_answers",
    "C70_registry_answers",
    "C70_swap_answers"
   ],
   "note": ""
  },
  {
   "property": "C71",
   "status": "proved",
   "theorems": [
    "C71_first_check_accepts_iff",
    "C71_first_migration_passes_its_checks",
    "C71_second_migration_checks",
    "C71_second_check_is_handed_the_count",
    "C71_both_checks_pass_iff_below_version_2",
    "C71_checks_pass_wherever_upgrade_is_noop_refuted",
    "C71_check_notices_left_enclaves_refuted"
   ],
   "note": ""
  },
  {
   "property": "C72",
   "status": "proved",
   "theorems": [
    "C72_free_iff",
    "C72_free_call_with_effect",
    "C72_purge_by_anyone_is_free",
    "C72_admitted_free_failures",
    "C72_failing_calls_cost_a_fee_refuted",
    "C72_publication_charged_with_swapped_sizes",
    "C72_publication_charged_as_measured_refuted"
   ],
   "note": ""
  },
  {
   "property": "C73",
   "status": "proved",
   "theorems": [
    "C73_calls_write_only_these_entries",
    "C73_declared_writes_are_what_is_priced",
    "C73_declared_writes_cover_the_changes",
    "C73_declared_writes_cover_the_changes_refuted",
    "C73_publication_index_covered_iff"
   ],
   "note": ""
  },
  {
   "property": "C74",
   "status": "proved",
   "theorems": [
    "C74_key_read_at_its_place",
    "C74_key_is_an_uncompressed_point_refuted",
    "C74_raw_helper_answers",
    "C74_raw_helper_result",
    "C74_raw_helper_agrees_with_verification",
    "C74_raw_helper_checks_no_signature",
    "C74_raw_helper_authenticates_refuted",
    "C74_signers_of_keys"
   ],
   "note": ""
  },
  {
   "property": "C75",
   "status": "proved",
   "theorems": [
    "C75_identity_read_iff",
    "C75_tcb_read_iff",
    "C75_report_read_iff",
    "C75_order_and_unknown_entries_do_not_matter",
    "C75_values_are_typed",
    "C75_hex_round_trip",
    "C75_unlisted_status_spoils_the_document",
    "C75_every_status_of_intel_is_read_refuted",
    "C75_kind_and_evaluation_number_not_used",
    "C75_stored_collateral_is_what_the_document_says"
   ],
   "note": ""
  },
  {
   "property": "C76",
   "status": "proved",
   "theorems": [
    "C76_quoting_enclave_comes_from_the_last_document",
    "C76_tcb_levels_come_from_the_last_document",
    "C76_flags_come_from_root_or_genesis",
    "C76_sovereign_enclaves_trace_back",
    "C76_proxied_enclaves_trace_back",
    "C76_enclave_calls_trace_back",
    "C76_payouts_are_backed_by_a_measurement"
   ],
   "note": ""
  },
  {
   "property": "C77",
   "status": "proved",
   "theorems": [
    "C77_only_the_measurement_counts",
    "C77_agreement_is_about_the_registry_only",
    "C77_expired_enclaves_lose_their_powers_refuted",
    "C77_forbidding_revokes_refuted",
    "C77_status_restricts_powers_refuted"
   ],
   "note": ""
  },
  {
   "property": "C78",
   "status": "proved",
   "theorems": [
    "C78_the_bond_can_always_be_taken_out",
    "C78_nobody_is_locked_in",
    "C78_unlocked_means_spendable",
    "C78_leaving_returns_the_bond"
   ],
   "note": ""
  },
  {
   "property": "C79",
   "status": "proved",
   "theorems": [
    "C79_builds_agree_unless_panic",
    "C79_builds_differ_only_on_overflow",
    "C79_histories_agree"
   ],
   "note": ""
  },
  {
   "property": "C80",
   "status": "proved",
   "theorems": [
    "C80_keys_never_overlap",
    "C80_written_is_read",
    "C80_removed_is_gone",
    "C80_others_untouched",
    "C80_stores_follow_the_model",
    "C80_clear_is_exact",
    "C80_every_state_is_stored",
    "C80_store_determines_the_state",
    "C80_empty_store_is_an_empty_chain",
    "C80_broken_entries_count_as_absent"
   ],
   "note": ""
  },
  {
   "property": "C81",
   "status": "proved",
   "theorems": [
    "C81_stored_values_unambiguous",
    "C81_calls_unambiguous",
    "C81_vault_account_of_a_shard",
    "C81_relay_call",
    "C81_pool_tag",
    "C81_upgrade_state",
    "C81_upgrade_state_reader",
    "C81_blob_limit_is_dead"
   ],
   "note": ""
  },
  {
   "property": "C82",
   "status": "proved",
   "theorems": [
    "C82_storage_stays_typed",
    "C82_storage_is_always_readable"
   ],
   "note": ""
  },
  {
   "property": "C83",
   "status": "proved",
   "theorems": [
    "C83_first_migration_exactly",
    "C83_second_migration_exactly",
    "C83_newer_stores_are_left_alone",
    "C83_upgrade_touches_teerex_only",
    "C83_upgrade_keeps_enclaves",
    "C83_first_migration_is_the_model",
    "C83_second_migration_is_the_model",
    "C83_upgrade_is_the_model",
    "C83_old_tcb_info_is_not_misread",
    "C83_no_tcb_info_survives",
    "C83_no_v0_data_survives",
    "C83_first_checks_pass",
    "C83_second_checks",
    "C83_second_weight_covers_changes",
    "C83_first_weight_is_short_by_at_most_one",
    "C83_first_weight_refuted"
   ],
   "note": ""
  },
  {
   "property": "C84",
   "status": "proved",
   "theorems": [
    "C84_every_item_is_a_history",
    "C84_chains_are_histories",
    "C84_chain_states_are_reachable",
    "C84_unsigned_included_iff",
    "C84_unsigned_outcome",
    "C84_paid_claims_are_not_accepted_again",
    "C84_failed_unsigned_stays_includable",
    "C84_unsigned_extrinsics_have_an_effect_refuted",
    "C84_failed_signed_costs_exactly_the_fee",
    "C84_moves_are_refunded"
   ],
   "note": ""
  },
  {
   "property": "C85",
   "status": "proved",
   "theorems": [
    "C85_values_are_stored_as_these_bytes",
    "C85_keys_are_these_bytes",
    "C85_calls_are_these_bytes",
    "C85_asset_registry_entries_fit"
   ],
   "note": ""
  },
  {
   "property": "C86",
   "status": "proved",
   "theorems": [
    "C86_entries_make_up_the_state",
    "C86_operations_depend_only_on_their_reads",
    "C86_operations_change_only_their_writes",
    "C86_independent_operations_commute",
    "C86_what_touches_nothing_makes_no_difference",
    "C86_bonds_of_others_make_no_difference",
    "C86_teerdays_calls_about_different_accounts_commute",
    "C86_calls_on_different_shards_commute"
   ],
   "note": ""
  },
  {
   "property": "C87",
   "status": "proved",
   "theorems": [
    "C87_base64_round_trip",
    "C87_json_round_trip",
    "C87_reader_never_lacks_fuel",
    "C87_dates_round_trip",
    "C87_documents_round_trip",
    "C87_texts_determine_documents",
    "C87_pallet_reads_what_was_written",
    "C87_accepted_documents_survive_rewriting",
    "C87_rewriting_keeps_the_bytes_refuted"
   ],
   "note": ""
  },
  {
   "property": "C88",
   "status": "proved",
   "theorems": [
    "C88_every_account_has_a_statement",
    "C88_issuance_follows_the_log",
    "C88_only_claims_create_tokens",
    "C88_calls_destroy_only_dust",
    "C88_supply_is_capped",
    "C88_nothing_overflows_below_the_cap",
    "C88_claims_arrive_in_full",
    "C88_stakes_are_backed",
    "C88_stakes_are_backed_refuted"
   ],
   "note": ""
  },
  {
   "property": "C89",
   "status": "proved",
   "theorems": [
    "C89_root_can_hand_over_a_shard",
    "C89_vault_can_be_paid_out",
    "C89_finality_can_be_restored",
    "C89_oracle_can_be_restored",
    "C89_minting_keeps_the_schedule",
    "C89_claim_can_be_repaired"
   ],
   "note": ""
  },
  {
   "property": "C90",
   "status": "proved",
   "theorems": [
    "C90_token_time_is_bounded_by_the_supply",
    "C90_token_time_is_capped",
    "C90_power_can_be_farmed",
    "C90_token_time_is_bounded_by_the_supply_refuted"
   ],
   "note": ""
  },
  {
   "property": "C91",
   "status": "proved",
   "theorems": [
    "C91_bonds_can_be_followed",
    "C91_finality_can_be_followed",
    "C91_rates_and_whitelists_can_be_followed",
    "C91_registry_can_be_followed",
    "C91_asset_registry_can_be_followed",
    "C91_everything_can_be_followed_refuted",
    "C91_published_hashes_are_found",
    "C91_published_hashes_are_genuine",
    "C91_topic_tells_the_publisher_refuted"
   ],
   "note": ""
  },
  {
   "property": "C92",
   "status": "proved",
   "theorems": [
    "C92_teerdays_benchmarks_pass_iff",
    "C92_bridge_benchmarks_pass_iff",
    "C92_upkeep_benchmarks_pass_iff",
    "C92_asset_benchmarks_pass_iff",
    "C92_registration_benchmarks_pass_iff",
    "C92_oracle_benchmarks_pass_iff",
    "C92_update_other_benchmark_changes_nothing",
    "C92_due_upgrades_are_not_measured",
    "C92_claims_benchmarks_pass_iff",
    "C92_claims_benchmarks_hold_two_claims"
   ],
   "note": ""
  },
  {
   "property": "C93",
   "status": "proved",
   "theorems": [
    "C93_quotes_that_decode",
    "C93_reports_exactly",
    "C93_signature_target_searches_forgeries",
    "C93_reports_mean_forgeries_refuted",
    "C93_reports_that_mean_forgeries",
    "C93_zeros_decode"
   ],
   "note": ""
  },
  {
   "property": "C94",
   "status": "proved",
   "theorems": [
    "C94_declared_reads_are_what_is_priced",
    "C94_declared_weights",
    "C94_declared_reads_cover_what_calls_depend_on",
    "C94_declared_reads_cover_what_calls_depend_on_refuted",
    "C94_proof_sizes_are_declared_refuted",
    "C94_listed_reads_are_needed",
    "C94_listed_writes_happen"
   ],
   "note": ""
  },
  {
   "property": "C95",
   "status": "proved",
   "theorems": [
    "C95_events_unambiguous",
    "C95_events_are_these_bytes",
    "C95_deposited_events_have_their_types",
    "C95_records_are_read_back",
    "C95_records_differ",
    "C95_the_bytes_of_the_log_suffice",
    "C95_logs_are_written"
   ],
   "note": ""
  },
  {
   "property": "C96",
   "status": "proved",
   "theorems": [
    "C96_errors_are_these_bytes",
    "C96_errors_differ",
    "C96_errors_are_read_back",
    "C96_no_other_errors",
    "C96_errors_of_each_call",
    "C96_numbers_on_chain",
    "C96_pool_refusals",
    "C96_attest_refusals"
   ],
   "note": ""
  },
  {
   "property": "C97",
   "status": "proved",
   "theorems": [
    "C97_no_call_panics_within_the_limits",
    "C97_builds_agree_within_the_limits",
    "C97_each_limit_is_needed"
   ],
   "note": ""
  },
  {
   "property": "C98",
   "status": "proved",
   "theorems": [
    "C98_outsiders_cannot_steer_a_shard",
    "C98_outsiders_cannot_spend",
    "C98_any_enclave_takes_any_account",
    "C98_outsiders_cannot_touch_a_stake",
    "C98_outsiders_cannot_take_a_claim",
    "C98_outsiders_cannot_forge_a_source",
    "C98_outsiders_cannot_administrate",
    "C98_only_the_owner_spends_refuted"
   ],
   "note": ""
  },
  {
   "property": "C99",
   "status": "proved",
   "theorems": [
    "C99_operators_keep_their_shard",
    "C99_oracles_keep_their_source",
    "C99_stakers_can_leave",
    "C99_claims_stay_collectable",
    "C99_a_taken_shard_stays_taken",
    "C99_ten_operators_lock_out_all_others",
    "C99_preclaims_cannot_be_blocked_refuted"
   ],
   "note": ""
  },
  {
   "property": "C100",
   "status": "proved",
   "theorems": [
    "C100_a_staker_keeps_their_own_book",
    "C100_others_do_not_matter_to_a_staker"
   ],
   "note": ""
  },
  {
   "property": "C101",
   "status": "proved",
   "theorems": [
    "C101_rates_are_the_last_fed",
    "C101_oracle_data_is_the_last_fed",
    "C101_whitelists_are_what_root_said_last",
    "C101_assets_are_as_registered_last",
    "C101_sidechain_head_is_the_last_the_leader_confirmed",
    "C101_listed_operators_are_who_worked_last",
    "C101_shard_is_under_the_last_update_that_came_into_force",
    "C101_claims_are_as_granted_or_moved_last"
   ],
   "note": ""
  },
  {
   "property": "C102",
   "status": "proved",
   "theorems": [
    "C102_who_can_change_an_entry",
    "C102_the_matrix_is_exact",
    "C102_root_changes_only",
    "C102_unsigned_extrinsics_only_pay_claims",
    "C102_ordinary_accounts_change_only"
   ],
   "note": ""
  },
  {
   "property": "C103",
   "status": "proved",
   "theorems": [
    "C103_what_a_second_submission_does",
    "C103_between_two_submissions_something_undoes_the_first",
    "C103_claims_are_paid_once_per_grant"
   ],
   "note": ""
  },
  {
   "property": "C104",
   "status": "proved",
   "theorems": [
    "C104_what_appears_and_disappears",
    "C104_growth_is_bounded_by_the_accepted_calls",
    "C104_kinds_that_are_never_removed",
    "C104_every_other_kind_can_be_removed",
    "C104_what_outsiders_can_add",
    "C104_one_enclave_can_fill_storage"
   ],
   "note": ""
  },
  {
   "property": "C105",
   "status": "proved",
   "theorems": [
    "C105_what_the_build_does",
    "C105_the_last_entry_counts",
    "C105_total_against_open_claims",
    "C105_the_order_does_not_matter",
    "C105_a_wrapped_total_cannot_pay_all",
    "C105_a_checked_start_can_pay_all",
    "C105_nothing_else_is_stored"
   ],
   "note": ""
  },
  {
   "property": "C106",
   "status": "proved",
   "theorems": [
    "C106_valid_is_a_sequence_of_characters",
    "C106_calls_read_by_std_builds",
    "C106_events_read_by_std_clients",
    "C106_who_writes_what_is_not_text",
    "C106_text_in_text_out",
    "C106_root_decides_about_sources",
    "C106_clients_of_a_chain_with_text_only",
    "C106_std_clients_read_all_events_refuted"
   ],
   "note": ""
  },
  {
   "property": "C107",
   "status": "proved",
   "theorems": [
    "C107_never_older_than_its_oldest_tokens",
    "C107_hardly_younger_than_its_youngest_tokens",
    "C107_exact_without_unbonds",
    "C107_splitting_without_unbonds",
    "C107_splitting_does_not_matter_refuted"
   ],
   "note": ""
  },
  {
   "property": "C108",
   "status": "proved",
   "theorems": [
    "C108_most_answers_do_not_depend_on_time",
    "C108_stakers_wait",
    "C108_removals_wait",
    "C108_shard_calls_wait",
    "C108_reports_wait",
    "C108_quotes_wait",
    "C108_collateral_waits",
    "C108_accepted_in_one_window",
    "C108_chains_are_valid_in_one_period",
    "C108_accepted_in_one_window_on_real_strings",
    "C108_accepted_for_good",
    "C108_waiting_never_hurts_refuted"
   ],
   "note": ""
  },
  {
   "property": "C109",
   "status": "proved",
   "theorems": [
    "C109_upgrades_add_nothing",
    "C109_upgraded_chains_are_reachable",
    "C109_invariants_survive_upgrades",
    "C109_vaults_are_solvent_through_upgrades",
    "C109_what_the_upgrade_costs",
    "C109_registering_again_makes_it_good",
    "C109_upgrades_are_free_refuted"
   ],
   "note": ""
  },
  {
   "property": "C110",
   "status": "proved",
   "theorems": [
    "C110_the_line_is_in_order_of_joining",
    "C110_nobody_overtakes",
    "C110_those_taken_out_start_again",
    "C110_newcomers_join_at_the_end",
    "C110_who_finalises_has_outlasted_the_others",
    "C110_without_root_the_line_only_grows",
    "C110_being_taken_out_revokes_nothing"
   ],
   "note": ""
  },
  {
   "property": "C111",
   "status": "proved",
   "theorems": [
    "C111_token_time_is_proportional_to_the_stake",
    "C111_more_stake_means_more_token_time_up_to_rounding",
    "C111_more_stake_never_means_less_refuted"
   ],
   "note": ""
  },
  {
   "property": "C112",
   "status": "proved",
   "theorems": [
    "C112_a_shard_keeps_its_own_book",
    "C112_others_do_not_matter_to_a_shard",
    "C112_payments_do_not_matter_refuted"
   ],
   "note": ""
  },
  {
   "property": "C113",
   "status": "proved",
   "theorems": [
    "C113_an_oracle_entry_keeps_its_own_book",
    "C113_others_do_not_matter_to_an_oracle_entry",
    "C113_the_rate_is_the_last_accepted_one"
   ],
   "note": ""
  },
  {
   "property": "C114",
   "status": "proved",
   "theorems": [
    "C114_a_claim_keeps_its_own_book",
    "C114_the_pot_is_never_short",
    "C114_others_do_not_matter_to_a_claim",
    "C114_paid_is_what_was_filed"
   ],
   "note": ""
  }
 ]
}