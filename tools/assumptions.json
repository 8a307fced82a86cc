{
 "C01_always_prefix": "Closed under the global context",
 "C01_exact_prefix": "Closed under the global context",
 "C02_fin_exact": "Closed under the global context",
 "C02_fin_once_and_last": "Closed under the global context",
 "C03_defined": "Closed under the global context",
 "C03_exact": "Closed under the global context",
 "C03_fin": "Closed under the global context",
 "C03_kept": "Closed under the global context",
 "C03_prefix": "Closed under the global context",
 "C04_counters_exact": "Closed under the global context",
 "C04_duplicate_report": "Closed under the global context",
 "C04_highest_kept": "Closed under the global context",
 "C04_never_invents": "Closed under the global context",
 "C04_ranges_separated": "Closed under the global context",
 "C04_record_exact": "Closed under the global context",
 "C05_no_reaccept_partial": "Closed under the global context",
 "C05_replay_refuted": "Closed under the global context",
 "C06_ack_frame_sound": "Closed under the global context",
 "C06_all_ranges_named": "Closed under the global context",
 "C06_path_ack_ecn_refuted": "Closed under the global context",
 "C06_peer_releases_received": "Closed under the global context",
 "C06_sending_is_history": "Closed under the global context",
 "C07_accepted_is_well_formed": "Closed under the global context",
 "C07_old_ack_refuted": "Closed under the global context",
 "C07_releases_exactly": "Closed under the global context",
 "C07_releases_only_named": "Closed under the global context",
 "C07_trap_rejected": "Closed under the global context",
 "C07_unsent_rejected": "Closed under the global context",
 "C08_codecs_agree": "Closed under the global context",
 "C08_decode_exact": "Closed under the global context",
 "C08_decode_in_bounds": "Closed under the global context",
 "C08_encode_shortest": "Closed under the global context",
 "C08_large_values_refuted": "Closed under the global context",
 "C08_round_trip": "Closed under the global context",
 "C08_second_decode": "Closed under the global context",
 "C08_skip_exact": "Closed under the global context",
 "C08_two_bytes": "Closed under the global context",
 "C09_cid_length_mismatch_refuted": "Closed under the global context",
 "C09_long_loss_run_refuted": "Closed under the global context",
 "C09_restore_exact": "Closed under the global context",
 "C09_sender_length_sufficient": "Closed under the global context",
 "C10_dispatch_terminates": "Closed under the global context",
 "C10_skip_agrees": "Closed under the global context",
 "C10_skip_agrees_refuted": "Closed under the global context",
 "C10_skip_safe": "Closed under the global context",
 "C10_walk_terminates": "Closed under the global context",
 "C11_forbidden_stops": "Closed under the global context",
 "C11_forbidden_stops_later": "Closed under the global context",
 "C11_only_permitted": "Closed under the global context",
 "C11_unnegotiated_refuted": "Closed under the global context",
 "C12_connection_within_limit": "Closed under the global context",
 "C12_reset_refused": "Closed under the global context",
 "C12_stream_accepted": "Closed under the global context",
 "C12_stream_refused": "Closed under the global context",
 "C12_stream_within_limit": "Closed under the global context",
 "C12_total_is_sum": "Closed under the global context",
 "C13_connection_limit": "Closed under the global context",
 "C13_stream_limit": "Closed under the global context",
 "C14_connection_credits": "Closed under the global context",
 "C14_max_streams_zero_refuted": "Closed under the global context",
 "C14_stream_credits": "Closed under the global context",
 "C15_client_limit_refuted": "Closed under the global context",
 "C15_local_stream_error_refuted": "Closed under the global context",
 "C15_opened_streams": "Closed under the global context",
 "C15_unopened_refused_partial": "Closed under the global context",
 "C15_zero_limit_refuted": "Closed under the global context",
 "C16_comparators": "Closed under the global context",
 "C16_find": "Closed under the global context",
 "C16_find_previous": "Closed under the global context",
 "C16_history": "Closed under the global context",
 "C16_sub_compare_refuted": "Closed under the global context",
 "C16_walk": "Closed under the global context",
 "C17_found_iff": "Closed under the global context",
 "C17_live_inserted": "Closed under the global context",
 "C17_lookup": "Closed under the global context",
 "C18_bucket": "Closed under the global context",
 "C18_changes": "Closed under the global context",
 "C18_interval": "Closed under the global context",
 "C18_rate_across_changes": "Closed under the global context",
 "C18_wait": "Closed under the global context",
 "C18_zero_rtt_refuted": "Closed under the global context",
 "C19_drains": "Closed under the global context",
 "C19_enqueue": "Closed under the global context",
 "C19_fin_lost_refuted": "Closed under the global context",
 "C19_pieces": "Closed under the global context",
 "C19_queue": "Closed under the global context",
 "C20_ack_frequency_refuted": "Closed under the global context",
 "C20_checked_partial": "Closed under the global context",
 "C20_exact_partial": "Closed under the global context",
 "C20_max_path_id_refuted": "Closed under the global context",
 "C20_packet_partial": "Closed under the global context",
 "C20_path_response_refuted": "Closed under the global context",
 "C20_paths_blocked_refuted": "Closed under the global context",
 "C20_preemptive_partial": "Closed under the global context",
 "C20_reset_refuted": "Closed under the global context",
 "C21_data_after_reset_refuted": "Closed under the global context",
 "C21_fin_below_data_refuted": "Closed under the global context",
 "C21_final_size_constant_partial": "Closed under the global context",
 "C21_reset_after_final_partial": "Closed under the global context",
 "C21_reset_below_data_refuted": "Closed under the global context",
 "C21_stream_after_fin_partial": "Closed under the global context",
 "C22_interval": "Closed under the global context",
 "C22_oversize_refuted": "Closed under the global context",
 "C22_shape": "Closed under the global context",
 "C23_accept": "Closed under the global context",
 "C23_count": "Closed under the global context",
 "C23_create": "Closed under the global context",
 "C23_token": "Closed under the global context",
 "C24_available": "Closed under the global context",
 "C24_defined": "Closed under the global context",
 "C24_exact": "Closed under the global context",
 "C24_once_partial": "Closed under the global context",
 "C24_reachable": "Closed under the global context",
 "C24_reload_refuted": "Closed under the global context",
 "C24_valid": "Closed under the global context",
 "C25_empty_refuted": "Closed under the global context",
 "C25_file": "Closed under the global context",
 "C25_file_refuted": "Closed under the global context",
 "C25_load_safe": "Closed under the global context",
 "C25_malformed_refuted": "Closed under the global context",
 "C25_round_trip": "Closed under the global context",
 "C25_safe": "Closed under the global context",
 "C26_config_overflow_refuted": "Closed under the global context",
 "C26_config_safe_partial": "Closed under the global context",
 "C26_decodes": "Closed under the global context",
 "C26_distinct": "Closed under the global context",
 "C26_length_change_refuted": "Closed under the global context",
 "C26_parse_round_trip": "Closed under the global context",
 "C26_parse_safe": "Closed under the global context",
 "C26_parse_unterminated_refuted": "Closed under the global context",
 "C26_stays_decodable": "Closed under the global context",
 "C27_address": "Closed under the global context",
 "C27_published": "Closed under the global context",
 "C27_sorted_list": "Closed under the global context",
 "C28_backoff": "Closed under the global context",
 "C28_backoff_strict": "Closed under the global context",
 "C28_cap": "Closed under the global context",
 "C28_handshake": "Closed under the global context",
 "C28_handshake_cap": "Closed under the global context",
 "C28_handshake_long": "Closed under the global context",
 "C28_idle_cap": "Closed under the global context",
 "C28_long_path_refuted": "Closed under the global context",
 "C28_minimum": "Closed under the global context",
 "C28_sample": "Closed under the global context",
 "C28_shift_refuted": "Closed under the global context",
 "C28_short_idle_refuted": "Closed under the global context",
 "C28_smoothed": "Closed under the global context",
 "C28_timer": "Closed under the global context",
 "C29_avoidance": "Closed under the global context",
 "C29_delay": "Closed under the global context",
 "C29_growth": "Closed under the global context",
 "C29_halved": "Closed under the global context",
 "C29_minimum": "Closed under the global context",
 "C29_once_per_round": "Closed under the global context",
 "C29_undo": "Closed under the global context",
 "C29_undo_refuted": "Closed under the global context",
 "C30_unsent_refuted": "Closed under the global context",
 "C30_validated": "Closed under the global context",
 "C31_below_refuted": "Closed under the global context",
 "C31_consistent": "Closed under the global context",
 "C31_deleted_tuple_refuted": "Closed under the global context",
 "C31_demoted_refuted": "Closed under the global context",
 "C31_frame": "Closed under the global context",
 "C31_limit": "Closed under the global context",
 "C31_multipath_dangling_refuted": "Closed under the global context",
 "C31_multipath_full_refuted": "Closed under the global context",
 "C31_multipath_null_refuted": "Closed under the global context",
 "C31_no_migration_refuted": "Closed under the global context",
 "C31_one_tuple": "Closed under the global context",
 "C31_retire_prior_to": "Closed under the global context",
 "C31_reused_number_refuted": "Closed under the global context",
 "C31_safe": "Closed under the global context",
 "C31_safe_refuted": "Closed under the global context",
 "C32_long": "Closed under the global context",
 "C32_predicted": "Closed under the global context",
 "C32_predicted_short": "Closed under the global context",
 "C32_retry": "Closed under the global context",
 "C32_safe": "Closed under the global context",
 "C32_short": "Closed under the global context",
 "C32_wire": "Closed under the global context",
 "C33_abandon_reason_refuted": "Closed under the global context",
 "C33_bdp_empty_refuted": "Closed under the global context",
 "C33_last_immediate_ack_refuted": "Closed under the global context",
 "C33_round_trip": "Closed under the global context",
 "C33_skip_exact": "Closed under the global context",
 "C33_written_if_room": "Closed under the global context",
 "C34_always_prefix": "Closed under the global context",
 "C34_bounded": "Closed under the global context",
 "C34_exact": "Closed under the global context",
 "C35_accepted": "Closed under the global context",
 "C35_accepted_iff": "Closed under the global context",
 "C35_ack_delay_refuted": "Closed under the global context",
 "C35_agreement": "Closed under the global context",
 "C35_cid_limit_refuted": "Closed under the global context",
 "C35_datagram_refuted": "Closed under the global context",
 "C35_duplicate_refuted": "Closed under the global context",
 "C35_exponent_refuted": "Closed under the global context",
 "C35_fits": "Closed under the global context",
 "C35_hang_refuted": "Closed under the global context",
 "C35_limit_zero_refuted": "Closed under the global context",
 "C35_port_refuted": "Closed under the global context",
 "C35_preferred_empty_refuted": "Closed under the global context",
 "C35_refused_partial": "Closed under the global context",
 "C35_round_trip": "Closed under the global context",
 "C35_silent_refuted": "Closed under the global context",
 "C35_streams_refuted": "Closed under the global context",
 "C35_streams_zero_refuted": "Closed under the global context",
 "C36_buffers_bounded": "Closed under the global context",
 "C36_reassembly_defined": "Closed under the global context",
 "C37_discard_refuted": "Closed under the global context",
 "C37_ends_partial": "Closed under the global context",
 "C37_lower_limit_refuted": "Closed under the global context",
 "C37_reset_active_refuted": "Closed under the global context",
 "C38_absent_refuted": "Closed under the global context",
 "C38_stream_count_partial": "Closed under the global context",
 "C38_zero_refuted": "Closed under the global context",
 "C39_after_fin_refuted": "Closed under the global context",
 "C39_next_bytes": "Closed under the global context",
 "C39_reset": "Closed under the global context",
 "C40_wire": "Closed under the global context",
 "C41_scheduled": "Closed under the global context",
 "C41_sent": "Closed under the global context",
 "C42_authentic": "Closed under the global context",
 "C42_long": "Closed under the global context",
 "C42_oversize_refuted": "Closed under the global context",
 "C42_safe": "Closed under the global context",
 "C42_short": "Closed under the global context",
 "C43_authentic": "Closed under the global context",
 "C43_exact": "Closed under the global context",
 "C43_malformed_refuted": "Closed under the global context",
 "C43_once": "Closed under the global context",
 "C43_table": "Closed under the global context",
 "C44_busy_amplification_refuted": "Closed under the global context",
 "C44_busy_bound": "Closed under the global context",
 "C44_no_amplification": "Closed under the global context",
 "C44_overread_refuted": "Closed under the global context",
 "C44_reply": "Closed under the global context",
 "C44_safe": "Closed under the global context",
 "C45_client": "Closed under the global context",
 "C45_end_to_end": "Closed under the global context",
 "C45_server": "Closed under the global context",
 "C46_client": "Closed under the global context",
 "C46_end_to_end": "Closed under the global context",
 "C46_short_cid": "Closed under the global context",
 "C46_short_cid_refuted": "Closed under the global context",
 "C47_empty_crypto_refuted": "Closed under the global context",
 "C47_exact_partial": "Closed under the global context",
 "C47_max_path_id_refuted": "Closed under the global context",
 "C47_observed_refuted": "Closed under the global context",
 "C47_path_retire_refuted": "Closed under the global context",
 "C48_crossed_refuted": "Closed under the global context",
 "C48_defined": "Closed under the global context",
 "C48_failure_limit": "Closed under the global context",
 "C48_forged": "Closed under the global context",
 "C48_hole_refuted": "Closed under the global context",
 "C48_in_sync_partial": "Closed under the global context",
 "C48_limit_refuted": "Closed under the global context",
 "C48_multipath_refuted": "Closed under the global context",
 "C48_reordered": "Closed under the global context",
 "C48_reply_refuted": "Closed under the global context",
 "C49_close_refuted": "Closed under the global context",
 "C49_closing_partial": "Closed under the global context",
 "C49_defined": "Closed under the global context",
 "C49_empty_refuted": "Closed under the global context",
 "C49_exact": "Closed under the global context",
 "C49_limit_partial": "Closed under the global context",
 "C49_probe_refuted": "Closed under the global context",
 "C49_released": "Closed under the global context",
 "C50_ecn_null_refuted": "Closed under the global context",
 "C50_lost_for_a_reason": "Closed under the global context",
 "C50_multipath_null_refuted": "Closed under the global context",
 "C50_nothing_left": "Closed under the global context",
 "C50_one_fate": "Closed under the global context",
 "C50_progress": "Closed under the global context",
 "C50_safe_paths": "Closed under the global context",
 "C50_safe_without_holes": "Closed under the global context",
 "C50_skipped_number": "Closed under the global context",
 "C50_skipped_number_refuted": "Closed under the global context",
 "C50_timeout_for_a_reason": "Closed under the global context",
 "C50_wake_time_exact": "Closed under the global context",
 "C50_zero_rtt_wake_refuted": "Closed under the global context",
 "C51_ack_of_acks_refuted": "Closed under the global context",
 "C51_announced_refuted": "Closed under the global context",
 "C51_delay_bounds": "Closed under the global context",
 "C51_due_is_acked": "Closed under the global context",
 "C51_enough_packets": "Closed under the global context",
 "C51_fin_is_acked": "Closed under the global context",
 "C51_first_two_refuted": "Closed under the global context",
 "C51_forgotten_refuted": "Closed under the global context",
 "C51_frequency_latest": "Closed under the global context",
 "C51_immediate_last_refuted": "Closed under the global context",
 "C51_immediate_pending_refuted": "Closed under the global context",
 "C51_named_received": "Closed under the global context",
 "C51_reordering": "Closed under the global context",
 "C51_ten_ms": "Closed under the global context",
 "C51_tune_total": "Closed under the global context",
 "C51_wake_in_time": "Closed under the global context",
 "C52_choice": "Closed under the global context",
 "C52_end_refuted": "Closed under the global context",
 "C52_first_stream_refuted": "Closed under the global context",
 "C52_none": "Closed under the global context",
 "C52_not_forgotten": "Closed under the global context",
 "C52_packet": "Closed under the global context",
 "C52_round_robin": "Closed under the global context",
 "C52_sends_if_any": "Closed under the global context",
 "C52_sorted": "Closed under the global context",
 "C53_defined": "Closed under the global context",
 "C53_migration_refuted": "Closed under the global context",
 "C53_not_stuck": "Closed under the global context",
 "C53_overflow_refuted": "Closed under the global context",
 "C53_peer_limit_refuted": "Closed under the global context",
 "C53_search_end": "Closed under the global context",
 "C53_sizes": "Closed under the global context",
 "C53_three_lost": "Closed under the global context",
 "C53_threshold_refuted": "Closed under the global context",
 "C53_validated": "Closed under the global context",
 "C53_validated_after": "Closed under the global context",
 "C54_callbacks": "Closed under the global context",
 "C54_close_told": "Closed under the global context",
 "C54_draining_left_refuted": "Closed under the global context",
 "C54_ends": "Closed under the global context",
 "C54_error_forgotten_refuted": "Closed under the global context",
 "C54_error_replaced_refuted": "Closed under the global context",
 "C54_error_told": "Closed under the global context",
 "C54_failure_told": "Closed under the global context",
 "C54_few": "Closed under the global context",
 "C54_forward": "Closed under the global context",
 "C54_frame_type_refuted": "Closed under the global context",
 "C54_holds": "Closed under the global context",
 "C54_idle": "Closed under the global context",
 "C54_idle_agreed": "Closed under the global context",
 "C54_idle_agreed_refuted": "Closed under the global context",
 "C54_idle_replaces_refuted": "Closed under the global context",
 "C54_no_close_callback_refuted": "Closed under the global context",
 "C54_no_draining_refuted": "Closed under the global context",
 "C54_no_way_back": "Closed under the global context",
 "C54_one_reply": "Closed under the global context",
 "C54_quiet": "Closed under the global context",
 "C54_reset_after_close_refuted": "Closed under the global context",
 "C54_revival_refuted": "Closed under the global context",
 "C54_spaced": "Closed under the global context",
 "C54_two_closes_refuted": "Closed under the global context",
 "C54_wake": "Closed under the global context",
 "C55_connect": "Closed under the global context",
 "C55_error_partial": "Closed under the global context",
 "C55_error_refuted": "Closed under the global context",
 "C55_huffman_error_refuted": "Closed under the global context",
 "C55_huffman_padding_refuted": "Closed under the global context",
 "C55_huffman_text": "Closed under the global context",
 "C55_huffman_total": "Closed under the global context",
 "C55_huffman_truncated_refuted": "Closed under the global context",
 "C55_huffman_unique": "Closed under the global context",
 "C55_index_refuted": "Closed under the global context",
 "C55_int_bound": "Closed under the global context",
 "C55_int_decode": "Closed under the global context",
 "C55_int_encode": "Closed under the global context",
 "C55_int_fits": "Closed under the global context",
 "C55_int_round_trip": "Closed under the global context",
 "C55_meaning_partial": "Closed under the global context",
 "C55_parse_defined": "Closed under the global context",
 "C55_post": "Closed under the global context",
 "C55_range_refuted": "Closed under the global context",
 "C55_repeat_refuted": "Closed under the global context",
 "C55_request": "Closed under the global context",
 "C55_request_fits": "Closed under the global context",
 "C55_response": "Closed under the global context",
 "C55_status_overflow_refuted": "Closed under the global context",
 "C56_accepted": "Closed under the global context",
 "C56_answer": "Closed under the global context",
 "C56_closed": "Closed under the global context",
 "C56_cut": "Closed under the global context",
 "C56_defined": "Closed under the global context",
 "C56_end_refuted": "Closed under the global context",
 "C56_fin_last_refuted": "Closed under the global context",
 "C56_interim_refuted": "Closed under the global context",
 "C56_read": "Closed under the global context",
 "C56_refused": "Closed under the global context",
 "C56_server_end_refuted": "Closed under the global context",
 "C56_told_once_refuted": "Closed under the global context",
 "C56_trailers_refuted": "Closed under the global context",
 "C57_accepted": "Closed under the global context",
 "C57_bidir_partial": "Closed under the global context",
 "C57_bidir_refuted": "Closed under the global context",
 "C57_cut": "Closed under the global context",
 "C57_defined": "Closed under the global context",
 "C57_empty_refuted": "Closed under the global context",
 "C57_ignored": "Closed under the global context",
 "C57_read": "Closed under the global context",
 "C57_refused": "Closed under the global context",
 "C57_second_refuted": "Closed under the global context",
 "C57_session": "Closed under the global context",
 "C57_settings_refuted": "Closed under the global context",
 "C57_stopped": "Closed under the global context",
 "C58_close": "Closed under the global context",
 "C58_cut": "Closed under the global context",
 "C58_defined_partial": "Closed under the global context",
 "C58_heard": "Closed under the global context",
 "C58_memory": "Closed under the global context",
 "C58_one": "Closed under the global context",
 "C58_refused": "Closed under the global context",
 "C58_second_refuted": "Closed under the global context",
 "C58_unknown_refuted": "Closed under the global context",
 "C58_waiting": "Closed under the global context",
 "C58_zero_refuted": "Closed under the global context",
 "C59_absent": "Closed under the global context",
 "C59_absent_refuted": "Closed under the global context",
 "C59_baton": "Closed under the global context",
 "C59_defined": "Closed under the global context",
 "C59_limit_refuted": "Closed under the global context",
 "C59_number": "Closed under the global context",
 "C59_number_refused": "Closed under the global context",
 "C59_path": "Closed under the global context",
 "C59_string": "Closed under the global context",
 "C59_string_refused": "Closed under the global context",
 "C59_terminated_refuted": "Closed under the global context",
 "C59_total": "Closed under the global context",
 "C59_version_refuted": "Closed under the global context",
 "C60_count_refuted": "Closed under the global context",
 "C60_delay": "Closed under the global context",
 "C60_due_refuted": "Closed under the global context",
 "C60_earliest": "Closed under the global context",
 "C60_failed_create": "Closed under the global context",
 "C60_failed_create_refuted": "Closed under the global context",
 "C60_lists": "Closed under the global context",
 "C60_served": "Closed under the global context",
 "C60_stateless": "Closed under the global context",
 "C61_defined": "Closed under the global context",
 "C61_growth_refuted": "Closed under the global context",
 "C61_limit": "Closed under the global context",
 "C61_limit_refuted": "Closed under the global context",
 "C61_overflow_refuted": "Closed under the global context",
 "C61_retire": "Closed under the global context",
 "C61_send": "Closed under the global context",
 "C61_state": "Closed under the global context",
 "C61_unissued_refuted": "Closed under the global context",
 "C61_wake": "Closed under the global context",
 "C61_zero": "Closed under the global context",
 "C62_end": "Closed under the global context",
 "C62_family_refuted": "Closed under the global context",
 "C62_large_refuted": "Closed under the global context",
 "C62_read": "Closed under the global context",
 "C62_round": "Closed under the global context",
 "C62_skip": "Closed under the global context",
 "C62_skip_refuted": "Closed under the global context",
 "C62_stale_refuted": "Closed under the global context",
 "C62_sticky_refuted": "Closed under the global context",
 "C62_write": "Closed under the global context",
 "C63_defined": "Closed under the global context",
 "C63_edge": "Closed under the global context",
 "C63_flip": "Closed under the global context",
 "C63_follow": "Closed under the global context",
 "C63_header": "Closed under the global context",
 "C63_order_refuted": "Closed under the global context",
 "C63_path_refuted": "Closed under the global context",
 "C63_policy": "Closed under the global context",
 "C63_reserve": "Closed under the global context",
 "C63_table_refuted": "Closed under the global context",
 "C63_trip": "Closed under the global context",
 "C64_again": "Closed under the global context",
 "C64_backoff_refuted": "Closed under the global context",
 "C64_bound": "Closed under the global context",
 "C64_demote_refuted": "Closed under the global context",
 "C64_order": "Closed under the global context",
 "C64_pad": "Closed under the global context",
 "C64_progress": "Closed under the global context",
 "C64_purge": "Closed under the global context",
 "C64_renew_refuted": "Closed under the global context",
 "C64_response": "Closed under the global context",
 "C64_select": "Closed under the global context",
 "C64_sends": "Closed under the global context",
 "C64_spaced": "Closed under the global context",
 "C64_verified_refuted": "Closed under the global context",
 "C64_wake": "Closed under the global context",
 "C65_empty_refuted": "Closed under the global context",
 "C65_inj": "Closed under the global context",
 "C65_long_refuted": "Closed under the global context",
 "C65_parse": "Closed under the global context",
 "C65_print": "Closed under the global context",
 "C65_reject": "Closed under the global context",
 "C65_round": "Closed under the global context",
 "C66_empty_refuted": "Closed under the global context",
 "C66_fits": "Closed under the global context",
 "C66_init": "Closed under the global context",
 "C66_limit_refuted": "Closed under the global context",
 "C66_peer": "Closed under the global context",
 "C66_size": "Closed under the global context",
 "C67_fifo": "Closed under the global context",
 "C67_limit_refuted": "Closed under the global context",
 "C67_loop": "Closed under the global context",
 "C67_more": "Closed under the global context",
 "C67_path_refuted": "Closed under the global context",
 "C67_peer": "Closed under the global context",
 "C67_queue": "Closed under the global context",
 "C67_queue_more": "Closed under the global context",
 "C67_queue_refuted": "Closed under the global context",
 "C67_safe": "Closed under the global context",
 "C67_sent": "Closed under the global context",
 "C67_stuck_refuted": "Closed under the global context",
 "C67_twice_refuted": "Closed under the global context",
 "C68_delete": "Closed under the global context",
 "C68_empty_refuted": "Closed under the global context",
 "C68_format": "Closed under the global context",
 "C68_history": "Closed under the global context",
 "C68_purge": "Closed under the global context",
 "C68_queue": "Closed under the global context",
 "C68_stuck_refuted": "Closed under the global context"
}