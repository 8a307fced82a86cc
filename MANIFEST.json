{
 "claims": [
  {
   "property": "C01",
   "status": "proved",
   "theorems": [
    "C01_exact_prefix",
    "C01_always_prefix"
   ],
   "note": "All histories on all streams; the exact statement for streams that are not reset and whose data the application did not refuse, the prefix statement without any such condition."
  },
  {
   "property": "C02",
   "status": "proved",
   "theorems": [
    "C02_fin_exact",
    "C02_fin_once_and_last"
   ],
   "note": "Exact condition for streams that are not reset; at most once and last for every history."
  },
  {
   "property": "C03",
   "status": "proved",
   "theorems": [
    "C03_prefix",
    "C03_exact",
    "C03_fin",
    "C03_kept",
    "C03_defined"
   ],
   "note": "Composition of the sending, repetition, decoding and receiving models over a network that loses, duplicates and reorders whole packets. Prefix statement for every history; exact statement and FIN for streams that are not reset or refused, whose application writes nothing after the end, while the receiver raised no error. Packet protection is not modelled; the stream table used to decide what to repeat is arbitrary. The FIN of a frame without data can be lost for ever (C19_fin_lost_refuted), so C03_kept is about bytes."
  },
  {
   "property": "C04",
   "status": "proved",
   "theorems": [
    "C04_record_exact",
    "C04_ranges_separated",
    "C04_never_invents",
    "C04_highest_kept",
    "C04_duplicate_report",
    "C04_counters_exact"
   ],
   "note": "All histories of recorded ranges, ACK transmissions and acknowledged ACKs, with no horizon configured (the library never sets one)."
  },
  {
   "property": "C05",
   "status": "partial",
   "theorems": [
    "C05_no_reaccept_partial",
    "C05_replay_refuted"
   ],
   "note": "Full statement: a number accepted once is never accepted again. Proved as long as no acknowledged ACK covers the number (C05_no_reaccept_partial); false otherwise, ranges covered by acknowledged ACKs are forgotten (C05_replay_refuted)."
  },
  {
   "property": "C06",
   "status": "proved",
   "theorems": [
    "C06_ack_frame_sound",
    "C06_all_ranges_named",
    "C06_sending_is_history",
    "C06_peer_releases_received",
    "C06_path_ack_ecn_refuted"
   ],
   "note": "Single path with or without ECN and multipath without ECN. False for multipath with ECN when the counters do not fit (C06_path_ack_ecn_refuted)."
  },
  {
   "property": "C07",
   "status": "partial",
   "theorems": [
    "C07_releases_exactly",
    "C07_releases_only_named",
    "C07_accepted_is_well_formed",
    "C07_unsent_rejected",
    "C07_trap_rejected",
    "C07_old_ack_refuted"
   ],
   "note": "Exact for frames that raise the highest acknowledged number, which is the case that releases packets; every frame releases only packets it names; malformed frames and unsent numbers are errors. Missing: frames that do not raise the highest acknowledged number, for which the statement is false (C07_old_ack_refuted)."
  },
  {
   "property": "C08",
   "status": "proved",
   "theorems": [
    "C08_encode_shortest",
    "C08_round_trip",
    "C08_decode_exact",
    "C08_decode_in_bounds",
    "C08_skip_exact",
    "C08_codecs_agree",
    "C08_second_decode",
    "C08_large_values_refuted",
    "C08_two_bytes"
   ],
   "note": "Both codecs, all values below 2^62; values of 2^62 and above are shown to be silently altered (C08_large_values_refuted)."
  },
  {
   "property": "C09",
   "status": "partial",
   "theorems": [
    "C09_restore_exact",
    "C09_sender_length_sufficient",
    "C09_long_loss_run_refuted",
    "C09_cid_length_mismatch_refuted"
   ],
   "note": "Receiver: exact for all lengths. Sender: sufficient while the run of unacknowledged numbers stays below the 4-byte window and the header length is computed for the same connection id (C09_long_loss_run_refuted, C09_cid_length_mismatch_refuted show the two exceptions)."
  },
  {
   "property": "C10",
   "status": "proved",
   "theorems": [
    "C10_skip_safe",
    "C10_walk_terminates",
    "C10_dispatch_terminates",
    "C10_skip_agrees",
    "C10_skip_agrees_refuted"
   ],
   "note": "Every byte string: skip_frame, the closing-frame walk and the dispatcher of decode_frames; skipping ends where decoding ends when multipath and address discovery are negotiated (C10_skip_agrees_refuted shows the exception). Pointer sums in the datagram functions are taken on flat addresses."
  },
  {
   "property": "C11",
   "status": "proved",
   "theorems": [
    "C11_only_permitted",
    "C11_forbidden_stops",
    "C11_forbidden_stops_later",
    "C11_unnegotiated_refuted"
   ],
   "note": "All types and all four epochs, the processing of the frames being abstract; C11_unnegotiated_refuted: a frame of an extension that was not negotiated raises the error but its body is then parsed as frames."
  },
  {
   "property": "C12",
   "status": "proved",
   "theorems": [
    "C12_stream_within_limit",
    "C12_total_is_sum",
    "C12_connection_within_limit",
    "C12_stream_refused",
    "C12_reset_refused",
    "C12_stream_accepted"
   ],
   "note": "All histories on all streams. The sum counts, for a stream that was deleted, the highest offset up to its deletion."
  },
  {
   "property": "C13",
   "status": "proved",
   "theorems": [
    "C13_stream_limit",
    "C13_connection_limit"
   ],
   "note": "All histories of first transmissions on all streams. Both limits are computed from the announcements alone. Retransmissions carry bytes already counted and are not modelled here."
  },
  {
   "property": "C14",
   "status": "proved",
   "theorems": [
    "C14_connection_credits",
    "C14_stream_credits",
    "C14_max_streams_zero_refuted"
   ],
   "note": "All histories; ranks of MAX_STREAMS as they can be encoded (below 2^62). MAX_STREAMS with rank 0 ends the history with an error and raises the limit (C14_max_streams_zero_refuted)."
  },
  {
   "property": "C15",
   "status": "partial",
   "theorems": [
    "C15_opened_streams",
    "C15_unopened_refused_partial",
    "C15_local_stream_error_refuted",
    "C15_client_limit_refuted",
    "C15_zero_limit_refuted"
   ],
   "note": "Proved except for the error code of unopened local streams, which is the stream-limit error and not the stream-state error (C15_local_stream_error_refuted). Found: clients refuse the last advertised stream (C15_client_limit_refuted); a limit of zero streams is not enforced (C15_zero_limit_refuted)."
  },
  {
   "property": "C16",
   "status": "proved",
   "theorems": [
    "C16_history",
    "C16_find",
    "C16_find_previous",
    "C16_walk",
    "C16_comparators",
    "C16_sub_compare_refuted"
   ],
   "note": "All histories, every comparator; the comparators of the library are shown to be comparators on their domains (values below 2^62 for the subtracting ones, C16_sub_compare_refuted shows the bound is needed). Nodes are locations in a tree, not heap cells."
  },
  {
   "property": "C17",
   "status": "proved",
   "theorems": [
    "C17_lookup",
    "C17_found_iff",
    "C17_live_inserted"
   ],
   "note": "All legal histories, every compatible hash function and key equality, every bin count; the most recent item with an equal key is returned."
  },
  {
   "property": "C18",
   "status": "proved",
   "theorems": [
    "C18_bucket",
    "C18_interval",
    "C18_wait",
    "C18_changes",
    "C18_rate_across_changes",
    "C18_zero_rtt_refuted"
   ],
   "note": "pacing.c modelled with the rates as integer parameters; the computation of the rates (floating point, picoquic_update_pacing_rate/parameters) is a parameter of the model except the small-window branch. C18_zero_rtt_refuted is a finding: a smoothed RTT of 0 stops paced sending for ever. Changes of parameters are covered by C18_changes and C18_rate_across_changes, with the two floating point results as arbitrary inputs."
  },
  {
   "property": "C19",
   "status": "partial",
   "theorems": [
    "C19_pieces",
    "C19_queue",
    "C19_enqueue",
    "C19_drains",
    "C19_fin_lost_refuted"
   ],
   "note": "Pieces, queue conservation, readability and draining are proved for all queues, rooms, insertion positions and stream tables. Missing from the full statement: the FIN of a frame without data when the packet has no room for it; C19_fin_lost_refuted shows the code drops it (frames.c 2080-2084, 2129)."
  },
  {
   "property": "C20",
   "status": "partial",
   "theorems": [
    "C20_checked_partial",
    "C20_exact_partial",
    "C20_packet_partial",
    "C20_preemptive_partial",
    "C20_reset_refuted",
    "C20_max_path_id_refuted",
    "C20_paths_blocked_refuted",
    "C20_ack_frequency_refuted",
    "C20_path_response_refuted"
   ],
   "note": "All frames the library writes, on any consistent connection (distinct streams, paths and ids; separated ranges): those that carry outstanding information are reported (C20_checked_partial), only those (C20_exact_partial, for frames sent earlier), copied or queued when a packet is lost (C20_packet_partial) and repeated when the packet is repeated preemptively (C20_preemptive_partial). Not so for RESET_STREAM, MAX_PATH_ID, PATHS_BLOCKED, ACK_FREQUENCY and PATH_RESPONSE: five _refuted theorems. Datagrams and packet-level bookkeeping of loss_recovery.c are not modelled here."
  },
  {
   "property": "C21",
   "status": "partial",
   "theorems": [
    "C21_final_size_constant_partial",
    "C21_stream_after_fin_partial",
    "C21_reset_after_final_partial",
    "C21_data_after_reset_refuted",
    "C21_fin_below_data_refuted",
    "C21_reset_below_data_refuted"
   ],
   "note": "Proved once a FIN was received, and for RESET_STREAM after RESET_STREAM. Missing because false: STREAM frames after RESET_STREAM (C21_data_after_reset_refuted) and final sizes below received data (C21_fin_below_data_refuted, C21_reset_below_data_refuted)."
  },
  {
   "property": "C22",
   "status": "partial",
   "theorems": [
    "C22_shape",
    "C22_interval",
    "C22_oversize_refuted"
   ],
   "note": "Shape, size, interval over all histories. The buffer bound holds for datagrams that fit it; C22_oversize_refuted: a datagram longer than 1537 bytes makes the reset overflow the packet buffer (picoquic's own socket code never delivers one)."
  },
  {
   "property": "C23",
   "status": "proved",
   "theorems": [
    "C23_create",
    "C23_count",
    "C23_accept",
    "C23_token"
   ],
   "note": "Ciphers and tokens are parameters (env_ok). C23_create bounds the datagram by the decryption buffer (1536 bytes); see C42_oversize_refuted. The registry and the tables of connections are arbitrary."
  },
  {
   "property": "C24",
   "status": "partial",
   "theorems": [
    "C24_defined",
    "C24_valid",
    "C24_once_partial",
    "C24_reload_refuted",
    "C24_exact",
    "C24_reachable",
    "C24_available"
   ],
   "note": "Every history of store, get, save, load and new context from the empty store: handed-out tokens were accepted for the same name (and address) less than a day before. At most one use per acceptance, if no file is loaded that is older than the last use; C24_reload_refuted shows that loading an old file in the same context allows a second use. Files written by other programs are outside these histories (C25_load_safe covers their safety)."
  },
  {
   "property": "C25",
   "status": "proved",
   "theorems": [
    "C25_round_trip",
    "C25_empty_refuted",
    "C25_safe",
    "C25_malformed_refuted",
    "C25_load_safe",
    "C25_file",
    "C25_file_refuted"
   ],
   "note": "Exact round trip for every token whose strings are not all empty (C25_empty_refuted for that case), safety for arbitrary bytes and arbitrary files, exact save/load for records up to 2016 bytes (C25_file_refuted above that)."
  },
  {
   "property": "C26",
   "status": "partial",
   "theorems": [
    "C26_decodes",
    "C26_stays_decodable",
    "C26_distinct",
    "C26_config_safe_partial",
    "C26_config_overflow_refuted",
    "C26_length_change_refuted",
    "C26_parse_safe",
    "C26_parse_unterminated_refuted",
    "C26_parse_round_trip"
   ],
   "note": "All three methods, any cipher, any random value: ids decode to the configured server id, are distinct for distinct nonces, and the text parser is safe and exact. Missing: the clear method accepts server ids longer than the 16-byte array (C26_config_overflow_refuted), the id length can be changed after configuration (C26_length_change_refuted), and an unterminated text is read one byte too far (C26_parse_unterminated_refuted)."
  },
  {
   "property": "C27",
   "status": "proved",
   "theorems": [
    "C27_sorted_list",
    "C27_published",
    "C27_address"
   ],
   "note": "The loop is exact for every decreasing list; the actual list is decreasing and is the published one."
  },
  {
   "property": "C28",
   "status": "partial",
   "theorems": [
    "C28_smoothed",
    "C28_sample",
    "C28_minimum",
    "C28_timer",
    "C28_backoff",
    "C28_backoff_strict",
    "C28_cap",
    "C28_idle_cap",
    "C28_handshake",
    "C28_handshake_cap",
    "C28_handshake_long",
    "C28_long_path_refuted",
    "C28_short_idle_refuted",
    "C28_shift_refuted"
   ],
   "note": "The claims about the smoothed estimate and the minimum are proved in full (from the raw times observed, with the correction for the delay of the peer), for sums that do not overflow 64 bits. The growth of the retransmission delay is proved for every path that is not a long one and from the first timeout on (C28_backoff, C28_backoff_strict, C28_handshake*), with its caps; it is refuted for long paths (C28_long_path_refuted: 1.575 s to 0.93 s), for the first timeout with a short idle timeout (C28_short_idle_refuted) and for many timeouts of a handshake with a long idle timeout (C28_shift_refuted). The replacement of the timer in packet.c 2289 is not modelled."
  },
  {
   "property": "C29",
   "status": "proved",
   "theorems": [
    "C29_minimum",
    "C29_halved",
    "C29_once_per_round",
    "C29_growth",
    "C29_avoidance",
    "C29_delay",
    "C29_undo",
    "C29_undo_refuted"
   ],
   "note": "Packets of at most 1536 bytes and fewer than 2^62 bytes reported in total (otherwise the 64-bit additions wrap). The truncated double computation of picoquic_cc_update_cwin_for_long_rtt is modelled by the integer division. C29_undo_refuted shows that undoing a reduction at the minimum doubles the window."
  },
  {
   "property": "C30",
   "status": "proved",
   "theorems": [
    "C30_validated",
    "C30_unsent_refuted"
   ],
   "note": "Validation of tuples (quicctx.c, paths.c, frames.c 4720-4790), for any history of NEW_CONNECTION_ID frames, migrations, probes, challenges and answers, with and without multipath. Challenges are random: the theorem assumes that they are all different and that an answer repeats a challenge sent earlier on some tuple; C30_unsent_refuted shows that without the second assumption values that were never sent are accepted. Times, addresses and the anti-amplification limit are not modelled."
  },
  {
   "property": "C31",
   "status": "partial",
   "theorems": [
    "C31_consistent",
    "C31_frame",
    "C31_limit",
    "C31_one_tuple",
    "C31_retire_prior_to",
    "C31_safe",
    "C31_safe_refuted",
    "C31_below_refuted",
    "C31_reused_number_refuted",
    "C31_multipath_full_refuted",
    "C31_multipath_null_refuted",
    "C31_multipath_dangling_refuted",
    "C31_deleted_tuple_refuted",
    "C31_no_migration_refuted",
    "C31_demoted_refuted"
   ],
   "note": "Consistency, limits, the outcome of a frame and the one-tuple rule are proved for all histories. The claim that retired ids never come back is false (C31_below_refuted, C31_reused_number_refuted); memory safety holds without multipath when retired ids do not come back (C31_safe) and fails otherwise (C31_safe_refuted, C31_multipath_*_refuted)."
  },
  {
   "property": "C32",
   "status": "proved",
   "theorems": [
    "C32_wire",
    "C32_long",
    "C32_retry",
    "C32_short",
    "C32_predicted",
    "C32_predicted_short",
    "C32_safe"
   ],
   "note": "All packet types with a packet number, Retry and short headers, every version of the table, with the exact bytes on the wire (C32_wire). The sender's ids have at most 20 bytes and the proposed version is the one of the version index. The short header needs the receiver to use ids of the length of the one in the packet (see C09 for the prediction when lengths differ)."
  },
  {
   "property": "C33",
   "status": "proved",
   "theorems": [
    "C33_round_trip",
    "C33_written_if_room",
    "C33_skip_exact",
    "C33_abandon_reason_refuted",
    "C33_bdp_empty_refuted",
    "C33_last_immediate_ack_refuted"
   ],
   "note": "All control frames the library writes except ACK (C06) and STREAM (C03), any sequence of them, any room. Exceptions proved: two PATH_ABANDON reasons, BDP with an empty address, IMMEDIATE_ACK as last frame."
  },
  {
   "property": "C34",
   "status": "proved",
   "theorems": [
    "C34_always_prefix",
    "C34_exact",
    "C34_bounded"
   ],
   "note": "The TLS stack is an arbitrary record parameter (any state type, any read epoch, any reaction to bytes). C34_always_prefix holds for every TLS stack; C34_exact needs a TLS stack that never goes back an epoch and never stops early without an error. Connection resets (Retry, version negotiation) start a new history."
  },
  {
   "property": "C35",
   "status": "partial",
   "theorems": [
    "C35_round_trip",
    "C35_fits",
    "C35_accepted",
    "C35_accepted_iff",
    "C35_refused_partial",
    "C35_agreement",
    "C35_duplicate_refuted",
    "C35_exponent_refuted",
    "C35_ack_delay_refuted",
    "C35_cid_limit_refuted",
    "C35_streams_refuted",
    "C35_datagram_refuted",
    "C35_streams_zero_refuted",
    "C35_preferred_empty_refuted",
    "C35_port_refuted",
    "C35_limit_zero_refuted",
    "C35_hang_refuted",
    "C35_silent_refuted"
   ],
   "note": "Proved: what is sent is accepted and read back with equal values (C35_round_trip, for parameters in range and equal ports of the preferred addresses), always fits in the buffer (C35_fits), valid blocks are accepted with their values (C35_accepted), the accepted blocks are characterised exactly (C35_accepted_iff), other blocks close the connection except for impossible version upgrades (C35_refused_partial), and both endpoints agree on what is negotiated (C35_agreement). False of the code and refuted: duplicates of types above 63, several out-of-range numbers, the IPv6 port, a limit of 0 ids, an endless loop and a silently ignored failure in the version upgrade."
  },
  {
   "property": "C36",
   "status": "proved",
   "theorems": [
    "C36_reassembly_defined",
    "C36_buffers_bounded"
   ],
   "note": "Memory accesses are those of the chunk copies and splits; the tree of chunks is represented by its in-order sequence."
  },
  {
   "property": "C37",
   "status": "partial",
   "theorems": [
    "C37_ends_partial",
    "C37_reset_active_refuted",
    "C37_discard_refuted",
    "C37_lower_limit_refuted"
   ],
   "note": "Proved for every reachable state that is calm: no stream reset while marked active, no reset together with STOP_SENDING, streams within the announced counts, error codes below 2^30. Missing because false: C37_reset_active_refuted, C37_discard_refuted, C37_lower_limit_refuted show endless loops."
  },
  {
   "property": "C38",
   "status": "partial",
   "theorems": [
    "C38_stream_count_partial",
    "C38_zero_refuted",
    "C38_absent_refuted"
   ],
   "note": "Proved for every stream except the first of each kind, and without announcements of zero streams. Missing because false: C38_zero_refuted, C38_absent_refuted."
  },
  {
   "property": "C39",
   "status": "proved",
   "theorems": [
    "C39_next_bytes",
    "C39_reset",
    "C39_after_fin_refuted"
   ],
   "note": "All histories. Found: data written after FIN may be sent, with a second final size (C39_after_fin_refuted)."
  },
  {
   "property": "C40",
   "status": "proved",
   "theorems": [
    "C40_wire"
   ],
   "note": "Packets up to 16384 bytes, identifiers and error codes that can be encoded; the receiver is any frame handler that ignores padding, in 0-RTT and 1-RTT packets."
  },
  {
   "property": "C41",
   "status": "proved",
   "theorems": [
    "C41_scheduled",
    "C41_sent"
   ],
   "note": "A stream that also has a requested reset is covered by C37_discard_refuted (the packet loop hangs). New transport parameters that lower the stream limits are excluded (finding: reordering then drops the stream)."
  },
  {
   "property": "C42",
   "status": "proved",
   "theorems": [
    "C42_long",
    "C42_short",
    "C42_authentic",
    "C42_safe",
    "C42_oversize_refuted"
   ],
   "note": "Ciphers are parameters with the stated correctness hypotheses; key rotation and the multipath nonce are outside of this model. Datagrams longer than the decryption buffer overflow it (C42_oversize_refuted); the safety theorem assumes they fit."
  },
  {
   "property": "C43",
   "status": "proved",
   "theorems": [
    "C43_exact",
    "C43_once",
    "C43_authentic",
    "C43_table",
    "C43_malformed_refuted"
   ],
   "note": "The AEAD is a parameter: decryption undoes encryption (aead_ok), and for the at-most-once theorem the token decrypts only under the address it was made for (bound_to). The clock does not go back. An authenticated text that does not decode is accepted repeatedly (C43_malformed_refuted); the server never produces one."
  },
  {
   "property": "C44",
   "status": "partial",
   "theorems": [
    "C44_reply",
    "C44_no_amplification",
    "C44_busy_bound",
    "C44_busy_amplification_refuted",
    "C44_safe",
    "C44_overread_refuted"
   ],
   "note": "Proved for all replies but the busy ones: one busy packet is sent per coalesced Initial, which amplifies (C44_busy_amplification_refuted; C44_busy_bound gives the exact ratio). Safety needs at least 17 bytes after a header (C44_overread_refuted shows the read past the datagram) and no forged tokens (tokens_ok)."
  },
  {
   "property": "C45",
   "status": "proved",
   "theorems": [
    "C45_client",
    "C45_server",
    "C45_end_to_end"
   ],
   "note": "The client's whole decision is characterised (iff). End to end needs the server not to know the destination id."
  },
  {
   "property": "C46",
   "status": "partial",
   "theorems": [
    "C46_client",
    "C46_end_to_end",
    "C46_short_cid",
    "C46_short_cid_refuted"
   ],
   "note": "The integrity tag is a parameter (a deterministic function with 16 bytes). End to end for servers whose local ids have at least 8 bytes; with shorter ids the handshake never completes (C46_short_cid, C46_short_cid_refuted)."
  },
  {
   "property": "C47",
   "status": "partial",
   "theorems": [
    "C47_exact_partial",
    "C47_max_path_id_refuted",
    "C47_path_retire_refuted",
    "C47_observed_refuted",
    "C47_empty_crypto_refuted"
   ],
   "note": "Exact for payloads of all frames but MAX_PATH_ID, PATHS_BLOCKED, PATH_CIDS_BLOCKED, OBSERVED_ADDRESS and PATH_RETIRE_CONNECTION_ID (C47_exact_partial); for these the claim is refuted: bytes of another stream are marked as received, the id stays, NULL is dereferenced. An empty CRYPTO frame acknowledges the whole stream. The use of PATH_CIDS_BLOCKED information is not tracked."
  },
  {
   "property": "C48",
   "status": "partial",
   "theorems": [
    "C48_defined",
    "C48_in_sync_partial",
    "C48_reordered",
    "C48_forged",
    "C48_failure_limit",
    "C48_crossed_refuted",
    "C48_reply_refuted",
    "C48_multipath_refuted",
    "C48_limit_refuted",
    "C48_hole_refuted"
   ],
   "note": "Proved for all histories: no missing key is used (C48_defined); if updates are confirmed as RFC 9001 asks, or only one side starts them, the endpoints stay within one generation and packets have the right fate (C48_in_sync_partial; with several paths a packet of the next generation only on a path that was used in the newest one); late packets are deciphered for the retransmission delay (C48_reordered); forged packets change nothing else (C48_forged); the failure limit is exact (C48_failure_limit). The code does not check that updates are confirmed: C48_crossed_refuted and C48_reply_refuted (the peer never deciphers anything again), C48_multipath_refuted, C48_limit_refuted and C48_hole_refuted are the counterexamples."
  },
  {
   "property": "C49",
   "status": "partial",
   "theorems": [
    "C49_defined",
    "C49_limit_partial",
    "C49_closing_partial",
    "C49_exact",
    "C49_released",
    "C49_empty_refuted",
    "C49_probe_refuted",
    "C49_close_refuted"
   ],
   "note": "Proved for all sequences of events: termination (C49_defined); the limit while the handshake lasts (C49_limit_partial), for servers whose connection ids are not empty or clients that do not coalesce, and probes within the MTU; the exact condition for sending (C49_exact) and its end (C49_released); in the remaining cases a bound on the excess (C49_closing_partial). False in general: C49_empty_refuted (empty connection ids: each coalesced packet counts the whole datagram), C49_probe_refuted (an MTU probe is longer than what was checked), C49_close_refuted (closing packets are neither checked nor counted)."
  },
  {
   "property": "C50",
   "status": "partial",
   "theorems": [
    "C50_lost_for_a_reason",
    "C50_timeout_for_a_reason",
    "C50_nothing_left",
    "C50_wake_time_exact",
    "C50_progress",
    "C50_one_fate",
    "C50_skipped_number",
    "C50_safe_without_holes",
    "C50_safe_paths",
    "C50_skipped_number_refuted",
    "C50_ecn_null_refuted",
    "C50_multipath_null_refuted",
    "C50_zero_rtt_wake_refuted"
   ],
   "note": "Proved for all sequences of events in state ready: the reasons for losses and timeouts, completeness of a poll, exact wake time, progress, one fate for every number, and absence of NULL paths without skipped numbers. False in general: C50_skipped_number_refuted (the trap leaves with the ACK of the packet before it, the skipped number is then accepted), C50_ecn_null_refuted and C50_multipath_null_refuted (NULL path of a trap dereferenced), C50_zero_rtt_wake_refuted (no wake time for packets of 0-RTT alone). Not covered: the handshake spaces, congestion control, the loss of the remaining packets of a path with the multipath extension (loss_recovery.c 452-454)."
  },
  {
   "property": "C51",
   "status": "partial",
   "theorems": [
    "C51_due_is_acked",
    "C51_ten_ms",
    "C51_delay_bounds",
    "C51_tune_total",
    "C51_frequency_latest",
    "C51_wake_in_time",
    "C51_reordering",
    "C51_enough_packets",
    "C51_fin_is_acked",
    "C51_named_received",
    "C51_immediate_last_refuted",
    "C51_immediate_pending_refuted",
    "C51_first_two_refuted",
    "C51_forgotten_refuted",
    "C51_ack_of_acks_refuted",
    "C51_announced_refuted"
   ],
   "note": "Proved for all executions of one path in state ready: due packets are acknowledged, wake times, bounds of delay and gap, the newest ACK_FREQUENCY, immediate acknowledgement of reordering, of the end of a stream and of as many packets as the gap, and that only accepted packets are named. Hypotheses: no ACK frame was cut short, at most 33 ranges were stored, 600 bytes are left. False without them or beyond: C51_forgotten_refuted (with 40 ranges a packet is never acknowledged), C51_immediate_last_refuted and C51_immediate_pending_refuted (IMMEDIATE_ACK ignored), C51_first_two_refuted, C51_ack_of_acks_refuted (ACK frame although nothing asked for one), C51_announced_refuted (the announced max_ack_delay is not used). Not covered: multipath contexts, opportunistic ACKs, the delay by pacing before the poll reaches the ACK code."
  },
  {
   "property": "C52",
   "status": "partial",
   "theorems": [
    "C52_sorted",
    "C52_choice",
    "C52_none",
    "C52_packet",
    "C52_round_robin",
    "C52_not_forgotten",
    "C52_sends_if_any",
    "C52_first_stream_refuted",
    "C52_end_refuted"
   ],
   "note": "Order of the list, choice of the stream, priority within a packet, round robin by the history of packets, and that no permitted unfinished stream is missing from the list, for all histories (the last for connections whose transport parameters carry both limits on streams). Refuted without that condition: the first stream of a type is forgotten when the parameters omit the limit and MAX_STREAMS comes after the stream was opened. Refuted: the end of a stream without data waits for credit it does not need. Path affinity of streams and the blocked frames are not modelled."
  },
  {
   "property": "C53",
   "status": "partial",
   "theorems": [
    "C53_defined",
    "C53_sizes",
    "C53_validated",
    "C53_validated_after",
    "C53_not_stuck",
    "C53_three_lost",
    "C53_search_end",
    "C53_peer_limit_refuted",
    "C53_overflow_refuted",
    "C53_migration_refuted",
    "C53_threshold_refuted"
   ],
   "note": "Definedness, sizes, validation, progress, bound on lost probes and result of the search, for all histories. Refuted: the limit of the peer holds for probes only, ordinary packets start at 1252 or 1232 bytes and may exceed it; picoquic_set_mtu_max with more than 1564 bytes makes the probe overrun the packet buffer; the acknowledgement of a probe sent before a change of address sets the size for the new address; the count of full-size losses is not cleared by the reset, so that a single loss resets the size again. Not modelled: losses of a whole path in multipath, time of the probes, congestion and pacing conditions for the opportunity to send a probe."
  },
  {
   "property": "C54",
   "status": "partial",
   "theorems": [
    "C54_forward",
    "C54_quiet",
    "C54_few",
    "C54_one_reply",
    "C54_spaced",
    "C54_ends",
    "C54_wake",
    "C54_holds",
    "C54_idle",
    "C54_idle_agreed",
    "C54_idle_agreed_refuted",
    "C54_callbacks",
    "C54_two_closes_refuted",
    "C54_no_close_callback_refuted",
    "C54_reset_after_close_refuted",
    "C54_no_way_back",
    "C54_revival_refuted",
    "C54_error_told",
    "C54_frame_type_refuted",
    "C54_failure_told",
    "C54_error_replaced_refuted",
    "C54_error_forgotten_refuted",
    "C54_close_told",
    "C54_draining_left_refuted",
    "C54_no_draining_refuted",
    "C54_idle_replaces_refuted"
   ],
   "note": "Proved for all runs: forward order of the closing states, silence in draining and after, number and spacing of close packets, end and non-shortening of the closing period, wake times, idle timer and its negotiation, callbacks at most once, failed handshakes stay failed, error and application codes told. Ten clauses are false of the code in corner cases and are refuted by computed executions: two close frames in one packet bring a disconnected connection back; a server handshake closed by the application is revived by a Finished already on its way; errors in server_almost_ready are forgotten; the frame type, and in the handshake the error, are overwritten; draining can be left, or have no duration; callbacks missing or repeated; the idle timeout wraps for huge values. Missing: several paths, the sizes of the packets, the content of TLS messages (its results are inputs), retransmission timer changes during closing."
  },
  {
   "property": "C55",
   "status": "partial",
   "theorems": [
    "C55_int_decode",
    "C55_int_bound",
    "C55_int_encode",
    "C55_int_fits",
    "C55_int_round_trip",
    "C55_huffman_total",
    "C55_huffman_text",
    "C55_huffman_unique",
    "C55_parse_defined",
    "C55_meaning_partial",
    "C55_request",
    "C55_request_fits",
    "C55_post",
    "C55_connect",
    "C55_response",
    "C55_error_partial",
    "C55_index_refuted",
    "C55_status_overflow_refuted",
    "C55_huffman_error_refuted",
    "C55_huffman_padding_refuted",
    "C55_huffman_truncated_refuted",
    "C55_range_refuted",
    "C55_repeat_refuted",
    "C55_error_refuted"
   ],
   "note": "Missing: the parser is undefined for the index 99 and for a status that exceeds an int (C55_index_refuted, C55_status_overflow_refuted; shown to be the only cases by C55_parse_defined); the meaning is proved for blocks whose strings are well formed and have at most 256 characters, without the indexed range (C55_range_refuted) and with statuses of nine characters at most and not zero (C55_repeat_refuted); errors are read back only if there is room for the status (C55_error_refuted). The capsule parsers and the HTTP/3 frame layer are not part of this property."
  },
  {
   "property": "C56",
   "status": "partial",
   "theorems": [
    "C56_cut",
    "C56_defined",
    "C56_read",
    "C56_accepted",
    "C56_refused",
    "C56_closed",
    "C56_answer",
    "C56_told_once_refuted",
    "C56_end_refuted",
    "C56_server_end_refuted",
    "C56_interim_refuted",
    "C56_trailers_refuted",
    "C56_fin_last_refuted"
   ],
   "note": "Proved of every stream and every way to cut it, for servers and clients: independence of the cut, termination, acceptance and refusal in both directions, data, header, trailer and session, and that a client reports acceptance exactly for status 2xx. False parts are refuted: the report is repeated within a piece, the end of the stream within a frame is not always noticed, interim responses and trailers without content are refused, the end of the stream is marked before the last data. The only undefined behaviour left is that of the header block parser (C55). What the callbacks of the application do is outside of the model."
  },
  {
   "property": "C57",
   "status": "partial",
   "theorems": [
    "C57_cut",
    "C57_defined",
    "C57_read",
    "C57_refused",
    "C57_accepted",
    "C57_stopped",
    "C57_session",
    "C57_ignored",
    "C57_bidir_partial",
    "C57_bidir_refuted",
    "C57_empty_refuted",
    "C57_settings_refuted",
    "C57_second_refuted"
   ],
   "note": "Unidirectional streams in full. C57_bidir_partial covers bidirectional streams of which the first piece contains the whole type; the rest is false (C57_bidir_refuted). Refuted: empty SETTINGS accepted, duplicate or reserved settings refused, second control stream refused."
  },
  {
   "property": "C58",
   "status": "partial",
   "theorems": [
    "C58_cut",
    "C58_waiting",
    "C58_one",
    "C58_refused",
    "C58_heard",
    "C58_defined_partial",
    "C58_close",
    "C58_memory",
    "C58_second_refuted",
    "C58_zero_refuted",
    "C58_unknown_refuted"
   ],
   "note": "In full for streams of one capsule, or of the beginning of one. C58_defined_partial: receiving is defined unless bytes follow an accepted capsule; with them it never is (C58_second_refuted). Refuted as well: the empty DRAIN capsule that the code itself sends is refused, and so are unknown types. C58_memory: memory of the announced length is allocated before the value arrives."
  },
  {
   "property": "C59",
   "status": "partial",
   "theorems": [
    "C59_path",
    "C59_string",
    "C59_string_refused",
    "C59_number",
    "C59_number_refused",
    "C59_total",
    "C59_defined",
    "C59_baton",
    "C59_limit_refuted",
    "C59_terminated_refuted",
    "C59_absent",
    "C59_absent_refuted",
    "C59_version_refuted"
   ],
   "note": "Parameters in full. Refuted: numbers from 18446744073709551610 on are refused although they fit in 64 bits; a string that fills the buffer is not terminated; an absent string parameter is not reported; the baton service never sees the version asked for, so the last sentence of the statement holds of the name \"versi\" only (C59_baton)."
  },
  {
   "property": "C60",
   "status": "partial",
   "theorems": [
    "C60_lists",
    "C60_earliest",
    "C60_delay",
    "C60_stateless",
    "C60_served",
    "C60_failed_create",
    "C60_failed_create_refuted",
    "C60_count_refuted",
    "C60_due_refuted"
   ],
   "note": "Proved: contents, order (FIFO among equal times) and count of both lists after every history of creations, changes and deletions of live connections; choice of the connection to ask; time to wait (clock below 2^62, delay below 2^63); no starvation. Refuted: the last sentence (a failed creation empties both lists and decrements the count, wrapping at 0), and 'if it is due' at time 0."
  },
  {
   "property": "C61",
   "status": "partial",
   "theorems": [
    "C61_state",
    "C61_send",
    "C61_defined",
    "C61_limit",
    "C61_wake",
    "C61_retire",
    "C61_zero",
    "C61_unissued_refuted",
    "C61_limit_refuted",
    "C61_overflow_refuted",
    "C61_growth_refuted"
   ],
   "note": "Proved for connections without multipath: sequence numbers, limit, expiry, routing table, retirement, definedness below 2^31, ids of zero bytes. Refuted: frames that retire a number never sent are accepted; limits from 2^31 on give no ids, and 2^31 - 1 leads to a signed overflow; the number of ids kept is not bounded."
  },
  {
   "property": "C62",
   "status": "partial",
   "theorems": [
    "C62_write",
    "C62_read",
    "C62_round",
    "C62_end",
    "C62_skip",
    "C62_sticky_refuted",
    "C62_family_refuted",
    "C62_large_refuted",
    "C62_skip_refuted",
    "C62_stale_refuted"
   ],
   "note": "Proved: writing in place exactly if it fits, round trip of every series (numbers below 2^62, addresses of family 2 or 10), readers exact and within the data, passing over agrees with reading, failures leave the position at the end but for connection ids and strings. Refuted: after a connection id or a string that is too long what follows is still read; byteskip_cid passes over ids that byteread_cid refuses; family 0 is read back as IPv6; numbers from 2^62 on are truncated; after a failure the length counts bytes that were never written."
  },
  {
   "property": "C63",
   "status": "partial",
   "theorems": [
    "C63_header",
    "C63_edge",
    "C63_flip",
    "C63_follow",
    "C63_trip",
    "C63_policy",
    "C63_defined",
    "C63_reserve",
    "C63_order_refuted",
    "C63_path_refuted",
    "C63_table_refuted"
   ],
   "note": "Proved for packets that arrive in order or are lost, on one path: exactly one change on the way at all times, when client and server change, inversion by each round trip; header bit; policies set by picoquic_set_spinbit_policy and the default; share of connections that do not spin. Refuted: with packets that overtake there are three changes (the highest number is not checked); the bit of path 0 is sent on every path; picoquic_cnx_set_spinbit_policy accepts numbers out of the table."
  },
  {
   "property": "C64",
   "status": "partial",
   "theorems": [
    "C64_spaced",
    "C64_order",
    "C64_purge",
    "C64_pad",
    "C64_response",
    "C64_sends",
    "C64_wake",
    "C64_select",
    "C64_again",
    "C64_progress",
    "C64_bound",
    "C64_backoff_refuted",
    "C64_verified_refuted",
    "C64_renew_refuted",
    "C64_demote_refuted"
   ],
   "note": "Proved for every history of one path with times below 2^62 and timers below 2^60 microseconds: at most three challenges with the stated delays, no read out of the array, order and removal of tuples, padding within the amplification limit, responses only as asked, wake times, strict progress of the selected tuples. Refuted: the delays do not grow (with a short timer the third challenge follows more closely than the second); a tuple verified by a late answer remains marked as failed (with multipath its path is then abandoned), and a renewal of its challenges is never sent; no wake time is set for the removal of a failed tuple. Not modelled: the packet that holds the frames (its padding and its observed address frame), several paths, addresses and connection ids (see C30, C31)."
  },
  {
   "property": "C65",
   "status": "partial",
   "theorems": [
    "C65_print",
    "C65_parse",
    "C65_reject",
    "C65_round",
    "C65_inj",
    "C65_long_refuted",
    "C65_empty_refuted"
   ],
   "note": "Proved: printing for every id and buffer, parsing of exactly the texts of 1 to 18 bytes, rejection of all others, round trip for 1 to 18 bytes, different texts for different ids. Refuted: ids of 19 and 20 bytes, which are valid, are not read back (the limit in the parser is 18); the text of the empty id cannot be told from an error."
  },
  {
   "property": "C66",
   "status": "partial",
   "theorems": [
    "C66_fits",
    "C66_size",
    "C66_peer",
    "C66_init",
    "C66_empty_refuted",
    "C66_limit_refuted"
   ],
   "note": "Proved for values below 2^62 and flags of one bit, end to end with the parser of C57: size, room, acceptance, values kept, first bytes of the control stream. Refuted: settings in which nothing is given are written as an empty frame that the reading side refuses; a value of 2^62 or more is written, and read as another one. The settings of h3zero_protocol_init avoid both."
  },
  {
   "property": "C67",
   "status": "partial",
   "theorems": [
    "C67_safe",
    "C67_loop",
    "C67_sent",
    "C67_peer",
    "C67_more",
    "C67_queue",
    "C67_fifo",
    "C67_queue_more",
    "C67_limit_refuted",
    "C67_queue_refuted",
    "C67_twice_refuted",
    "C67_path_refuted",
    "C67_stuck_refuted"
   ],
   "note": "Proved: safety and termination for every application (C67_safe); the frames, their order, the limit on the data and the flags for applications that ask for one buffer at most in each callback (C67_loop, C67_sent, C67_more), end to end with the decoder of C10 (C67_peer); the queue (C67_queue, C67_fifo). Refuted: the frame may be longer than the limit of the peer, which is compared with the data only (C67_limit_refuted); queued datagrams ignore the limit (C67_queue_refuted); a second request in a callback can corrupt the frame (C67_twice_refuted); more_data is not set for an application ready on one path only (C67_path_refuted); an accepted datagram of 1200 bytes blocks the queue while packets have at most 1200 bytes (C67_stuck_refuted)."
  },
  {
   "property": "C68",
   "status": "partial",
   "theorems": [
    "C68_queue",
    "C68_delete",
    "C68_format",
    "C68_purge",
    "C68_history",
    "C68_stuck_refuted",
    "C68_empty_refuted"
   ],
   "note": "Proved at the level of pointers, against a list of contents (C68_queue, C68_delete, C68_format, C68_purge) and for all histories (C68_history). The wake time set when a frame is queued is not modelled. Refuted: a frame longer than a packet is accepted and blocks those behind it (C68_stuck_refuted); after a frame of no bytes more_data is not set though a frame is left (C68_empty_refuted)."
  }
 ]
}