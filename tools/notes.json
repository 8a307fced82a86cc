{
 "C01": {
  "note": "All histories on all streams; the exact statement for streams that are not reset and whose data the application did not refuse, the prefix statement without any such condition.",
  "status": "proved"
 },
 "C02": {
  "note": "Exact condition for streams that are not reset; at most once and last for every history.",
  "status": "proved"
 },
 "C03": {
  "note": "Composition of the sending, repetition, decoding and receiving models over a network that loses, duplicates and reorders whole packets. Prefix statement for every history; exact statement and FIN for streams that are not reset or refused, whose application writes nothing after the end, while the receiver raised no error. Packet protection is not modelled; the stream table used to decide what to repeat is arbitrary. The FIN of a frame without data can be lost for ever (C19_fin_lost_refuted), so C03_kept is about bytes.",
  "status": "proved"
 },
 "C04": {
  "note": "All histories of recorded ranges, ACK transmissions and acknowledged ACKs, with no horizon configured (the library never sets one).",
  "status": "proved"
 },
 "C05": {
  "note": "Full statement: a number accepted once is never accepted again. Proved as long as no acknowledged ACK covers the number (C05_no_reaccept_partial); false otherwise, ranges covered by acknowledged ACKs are forgotten (C05_replay_refuted).",
  "status": "partial"
 },
 "C06": {
  "note": "Single path with or without ECN and multipath without ECN. False for multipath with ECN when the counters do not fit (C06_path_ack_ecn_refuted).",
  "status": "proved"
 },
 "C07": {
  "note": "Exact for frames that raise the highest acknowledged number, which is the case that releases packets; every frame releases only packets it names; malformed frames and unsent numbers are errors. Missing: frames that do not raise the highest acknowledged number, for which the statement is false (C07_old_ack_refuted).",
  "status": "partial"
 },
 "C08": {
  "note": "Both codecs, all values below 2^62; values of 2^62 and above are shown to be silently altered (C08_large_values_refuted).",
  "status": "proved"
 },
 "C09": {
  "note": "Receiver: exact for all lengths. Sender: sufficient while the run of unacknowledged numbers stays below the 4-byte window and the header length is computed for the same connection id (C09_long_loss_run_refuted, C09_cid_length_mismatch_refuted show the two exceptions).",
  "status": "partial"
 },
 "C10": {
  "note": "Every byte string: skip_frame, the closing-frame walk and the dispatcher of decode_frames; skipping ends where decoding ends when multipath and address discovery are negotiated (C10_skip_agrees_refuted shows the exception). Pointer sums in the datagram functions are taken on flat addresses.",
  "status": "proved"
 },
 "C11": {
  "note": "All types and all four epochs, the processing of the frames being abstract; C11_unnegotiated_refuted: a frame of an extension that was not negotiated raises the error but its body is then parsed as frames.",
  "status": "proved"
 },
 "C12": {
  "note": "All histories on all streams. The sum counts, for a stream that was deleted, the highest offset up to its deletion.",
  "status": "proved"
 },
 "C13": {
  "note": "All histories of first transmissions on all streams. Both limits are computed from the announcements alone. Retransmissions carry bytes already counted and are not modelled here.",
  "status": "proved"
 },
 "C14": {
  "note": "All histories; ranks of MAX_STREAMS as they can be encoded (below 2^62). MAX_STREAMS with rank 0 ends the history with an error and raises the limit (C14_max_streams_zero_refuted).",
  "status": "proved"
 },
 "C15": {
  "note": "Proved except for the error code of unopened local streams, which is the stream-limit error and not the stream-state error (C15_local_stream_error_refuted). Found: clients refuse the last advertised stream (C15_client_limit_refuted); a limit of zero streams is not enforced (C15_zero_limit_refuted).",
  "status": "partial"
 },
 "C16": {
  "note": "All histories, every comparator; the comparators of the library are shown to be comparators on their domains (values below 2^62 for the subtracting ones, C16_sub_compare_refuted shows the bound is needed). Nodes are locations in a tree, not heap cells.",
  "status": "proved"
 },
 "C17": {
  "note": "All legal histories, every compatible hash function and key equality, every bin count; the most recent item with an equal key is returned.",
  "status": "proved"
 },
 "C18": {
  "note": "pacing.c modelled with the rates as integer parameters; the computation of the rates (floating point, picoquic_update_pacing_rate/parameters) is a parameter of the model except the small-window branch. C18_zero_rtt_refuted is a finding: a smoothed RTT of 0 stops paced sending for ever. Changes of parameters are covered by C18_changes and C18_rate_across_changes, with the two floating point results as arbitrary inputs.",
  "status": "proved"
 },
 "C19": {
  "note": "Pieces, queue conservation, readability and draining are proved for all queues, rooms, insertion positions and stream tables. Missing from the full statement: the FIN of a frame without data when the packet has no room for it; C19_fin_lost_refuted shows the code drops it (frames.c 2080-2084, 2129).",
  "status": "partial"
 },
 "C21": {
  "note": "Proved once a FIN was received, and for RESET_STREAM after RESET_STREAM. Missing because false: STREAM frames after RESET_STREAM (C21_data_after_reset_refuted) and final sizes below received data (C21_fin_below_data_refuted, C21_reset_below_data_refuted).",
  "status": "partial"
 },
 "C33": {
  "note": "All control frames the library writes except ACK (C06) and STREAM (C03), any sequence of them, any room. Exceptions proved: two PATH_ABANDON reasons, BDP with an empty address, IMMEDIATE_ACK as last frame.",
  "status": "proved"
 },
 "C34": {
  "note": "The TLS stack is an arbitrary record parameter (any state type, any read epoch, any reaction to bytes). C34_always_prefix holds for every TLS stack; C34_exact needs a TLS stack that never goes back an epoch and never stops early without an error. Connection resets (Retry, version negotiation) start a new history.",
  "status": "proved"
 },
 "C36": {
  "note": "Memory accesses are those of the chunk copies and splits; the tree of chunks is represented by its in-order sequence.",
  "status": "proved"
 },
 "C37": {
  "note": "Proved for every reachable state that is calm: no stream reset while marked active, no reset together with STOP_SENDING, streams within the announced counts, error codes below 2^30. Missing because false: C37_reset_active_refuted, C37_discard_refuted, C37_lower_limit_refuted show endless loops.",
  "status": "partial"
 },
 "C38": {
  "note": "Proved for every stream except the first of each kind, and without announcements of zero streams. Missing because false: C38_zero_refuted, C38_absent_refuted.",
  "status": "partial"
 },
 "C39": {
  "note": "All histories. Found: data written after FIN may be sent, with a second final size (C39_after_fin_refuted).",
  "status": "proved"
 },
 "C40": {
  "note": "Packets up to 16384 bytes, identifiers and error codes that can be encoded; the receiver is any frame handler that ignores padding, in 0-RTT and 1-RTT packets.",
  "status": "proved"
 },
 "C26": {
  "status": "partial",
  "note": "All three methods, any cipher, any random value: ids decode to the configured server id, are distinct for distinct nonces, and the text parser is safe and exact. Missing: the clear method accepts server ids longer than the 16-byte array (C26_config_overflow_refuted), the id length can be changed after configuration (C26_length_change_refuted), and an unterminated text is read one byte too far (C26_parse_unterminated_refuted)."
 },
 "C27": {
  "status": "proved",
  "note": "The loop is exact for every decreasing list; the actual list is decreasing and is the published one."
 },
 "C41": {
  "status": "proved",
  "note": "A stream that also has a requested reset is covered by C37_discard_refuted (the packet loop hangs). New transport parameters that lower the stream limits are excluded (finding: reordering then drops the stream)."
 },
 "C24": {
  "status": "partial",
  "note": "Every history of store, get, save, load and new context from the empty store: handed-out tokens were accepted for the same name (and address) less than a day before. At most one use per acceptance, if no file is loaded that is older than the last use; C24_reload_refuted shows that loading an old file in the same context allows a second use. Files written by other programs are outside these histories (C25_load_safe covers their safety)."
 },
 "C25": {
  "status": "proved",
  "note": "Exact round trip for every token whose strings are not all empty (C25_empty_refuted for that case), safety for arbitrary bytes and arbitrary files, exact save/load for records up to 2016 bytes (C25_file_refuted above that)."
 },
 "C32": {
  "status": "proved",
  "note": "All packet types with a packet number, Retry and short headers, every version of the table, with the exact bytes on the wire (C32_wire). The sender's ids have at most 20 bytes and the proposed version is the one of the version index. The short header needs the receiver to use ids of the length of the one in the packet (see C09 for the prediction when lengths differ)."
 },
 "C42": {
  "status": "proved",
  "note": "Ciphers are parameters with the stated correctness hypotheses; key rotation and the multipath nonce are outside of this model. Datagrams longer than the decryption buffer overflow it (C42_oversize_refuted); the safety theorem assumes they fit."
 },
 "C43": {
  "status": "proved",
  "note": "The AEAD is a parameter: decryption undoes encryption (aead_ok), and for the at-most-once theorem the token decrypts only under the address it was made for (bound_to). The clock does not go back. An authenticated text that does not decode is accepted repeatedly (C43_malformed_refuted); the server never produces one."
 },
 "C22": {
  "status": "partial",
  "note": "Shape, size, interval over all histories. The buffer bound holds for datagrams that fit it; C22_oversize_refuted: a datagram longer than 1537 bytes makes the reset overflow the packet buffer (picoquic's own socket code never delivers one)."
 },
 "C23": {
  "status": "proved",
  "note": "Ciphers and tokens are parameters (env_ok). C23_create bounds the datagram by the decryption buffer (1536 bytes); see C42_oversize_refuted. The registry and the tables of connections are arbitrary."
 },
 "C44": {
  "status": "partial",
  "note": "Proved for all replies but the busy ones: one busy packet is sent per coalesced Initial, which amplifies (C44_busy_amplification_refuted; C44_busy_bound gives the exact ratio). Safety needs at least 17 bytes after a header (C44_overread_refuted shows the read past the datagram) and no forged tokens (tokens_ok)."
 },
 "C45": {
  "status": "proved",
  "note": "The client's whole decision is characterised (iff). End to end needs the server not to know the destination id."
 },
 "C46": {
  "status": "partial",
  "note": "The integrity tag is a parameter (a deterministic function with 16 bytes). End to end for servers whose local ids have at least 8 bytes; with shorter ids the handshake never completes (C46_short_cid, C46_short_cid_refuted)."
 },
 "C30": {
  "status": "proved",
  "note": "Validation of tuples (quicctx.c, paths.c, frames.c 4720-4790), for any history of NEW_CONNECTION_ID frames, migrations, probes, challenges and answers, with and without multipath. Challenges are random: the theorem assumes that they are all different and that an answer repeats a challenge sent earlier on some tuple; C30_unsent_refuted shows that without the second assumption values that were never sent are accepted. Times, addresses and the anti-amplification limit are not modelled."
 },
 "C31": {
  "status": "partial",
  "note": "Consistency, limits, the outcome of a frame and the one-tuple rule are proved for all histories. The claim that retired ids never come back is false (C31_below_refuted, C31_reused_number_refuted); memory safety holds without multipath when retired ids do not come back (C31_safe) and fails otherwise (C31_safe_refuted, C31_multipath_*_refuted)."
 },
 "C28": {
  "status": "partial",
  "note": "The claims about the smoothed estimate and the minimum are proved in full (from the raw times observed, with the correction for the delay of the peer), for sums that do not overflow 64 bits. The growth of the retransmission delay is proved for every path that is not a long one and from the first timeout on (C28_backoff, C28_backoff_strict, C28_handshake*), with its caps; it is refuted for long paths (C28_long_path_refuted: 1.575 s to 0.93 s), for the first timeout with a short idle timeout (C28_short_idle_refuted) and for many timeouts of a handshake with a long idle timeout (C28_shift_refuted). The replacement of the timer in packet.c 2289 is not modelled."
 },
 "C29": {
  "status": "proved",
  "note": "Packets of at most 1536 bytes and fewer than 2^62 bytes reported in total (otherwise the 64-bit additions wrap). The truncated double computation of picoquic_cc_update_cwin_for_long_rtt is modelled by the integer division. C29_undo_refuted shows that undoing a reduction at the minimum doubles the window."
 },
 "C20": {
  "status": "partial",
  "note": "All frames the library writes, on any consistent connection (distinct streams, paths and ids; separated ranges): those that carry outstanding information are reported (C20_checked_partial), only those (C20_exact_partial, for frames sent earlier), copied or queued when a packet is lost (C20_packet_partial) and repeated when the packet is repeated preemptively (C20_preemptive_partial). Not so for RESET_STREAM, MAX_PATH_ID, PATHS_BLOCKED, ACK_FREQUENCY and PATH_RESPONSE: five _refuted theorems. Datagrams and packet-level bookkeeping of loss_recovery.c are not modelled here."
 },
 "C47": {
  "status": "partial",
  "note": "Exact for payloads of all frames but MAX_PATH_ID, PATHS_BLOCKED, PATH_CIDS_BLOCKED, OBSERVED_ADDRESS and PATH_RETIRE_CONNECTION_ID (C47_exact_partial); for these the claim is refuted: bytes of another stream are marked as received, the id stays, NULL is dereferenced. An empty CRYPTO frame acknowledges the whole stream. The use of PATH_CIDS_BLOCKED information is not tracked."
 },
 "C35": {
  "status": "partial",
  "note": "Proved: what is sent is accepted and read back with equal values (C35_round_trip, for parameters in range and equal ports of the preferred addresses), always fits in the buffer (C35_fits), valid blocks are accepted with their values (C35_accepted), the accepted blocks are characterised exactly (C35_accepted_iff), other blocks close the connection except for impossible version upgrades (C35_refused_partial), and both endpoints agree on what is negotiated (C35_agreement). False of the code and refuted: duplicates of types above 63, several out-of-range numbers, the IPv6 port, a limit of 0 ids, an endless loop and a silently ignored failure in the version upgrade."
 },
 "C48": {
  "status": "partial",
  "note": "Proved for all histories: no missing key is used (C48_defined); if updates are confirmed as RFC 9001 asks, or only one side starts them, the endpoints stay within one generation and packets have the right fate (C48_in_sync_partial; with several paths a packet of the next generation only on a path that was used in the newest one); late packets are deciphered for the retransmission delay (C48_reordered); forged packets change nothing else (C48_forged); the failure limit is exact (C48_failure_limit). The code does not check that updates are confirmed: C48_crossed_refuted and C48_reply_refuted (the peer never deciphers anything again), C48_multipath_refuted, C48_limit_refuted and C48_hole_refuted are the counterexamples."
 },
 "C49": {
  "status": "partial",
  "note": "Proved for all sequences of events: termination (C49_defined); the limit while the handshake lasts (C49_limit_partial), for servers whose connection ids are not empty or clients that do not coalesce, and probes within the MTU; the exact condition for sending (C49_exact) and its end (C49_released); in the remaining cases a bound on the excess (C49_closing_partial). False in general: C49_empty_refuted (empty connection ids: each coalesced packet counts the whole datagram), C49_probe_refuted (an MTU probe is longer than what was checked), C49_close_refuted (closing packets are neither checked nor counted)."
 },
 "C50": {
  "status": "partial",
  "note": "Proved for all sequences of events in state ready: the reasons for losses and timeouts, completeness of a poll, exact wake time, progress, one fate for every number, and absence of NULL paths without skipped numbers. False in general: C50_skipped_number_refuted (the trap leaves with the ACK of the packet before it, the skipped number is then accepted), C50_ecn_null_refuted and C50_multipath_null_refuted (NULL path of a trap dereferenced), C50_zero_rtt_wake_refuted (no wake time for packets of 0-RTT alone). Not covered: the handshake spaces, congestion control, the loss of the remaining packets of a path with the multipath extension (loss_recovery.c 452-454)."
 },
 "C51": {
  "status": "partial",
  "note": "Proved for all executions of one path in state ready: due packets are acknowledged, wake times, bounds of delay and gap, the newest ACK_FREQUENCY, immediate acknowledgement of reordering, of the end of a stream and of as many packets as the gap, and that only accepted packets are named. Hypotheses: no ACK frame was cut short, at most 33 ranges were stored, 600 bytes are left. False without them or beyond: C51_forgotten_refuted (with 40 ranges a packet is never acknowledged), C51_immediate_last_refuted and C51_immediate_pending_refuted (IMMEDIATE_ACK ignored), C51_first_two_refuted, C51_ack_of_acks_refuted (ACK frame although nothing asked for one), C51_announced_refuted (the announced max_ack_delay is not used). Not covered: multipath contexts, opportunistic ACKs, the delay by pacing before the poll reaches the ACK code."
 },
 "C52": {
  "status": "partial",
  "note": "Order of the list, choice of the stream, priority within a packet, round robin by the history of packets, and that no permitted unfinished stream is missing from the list, for all histories (the last for connections whose transport parameters carry both limits on streams). Refuted without that condition: the first stream of a type is forgotten when the parameters omit the limit and MAX_STREAMS comes after the stream was opened. Refuted: the end of a stream without data waits for credit it does not need. Path affinity of streams and the blocked frames are not modelled."
 },
 "C53": {
  "status": "partial",
  "note": "Definedness, sizes, validation, progress, bound on lost probes and result of the search, for all histories. Refuted: the limit of the peer holds for probes only, ordinary packets start at 1252 or 1232 bytes and may exceed it; picoquic_set_mtu_max with more than 1564 bytes makes the probe overrun the packet buffer; the acknowledgement of a probe sent before a change of address sets the size for the new address; the count of full-size losses is not cleared by the reset, so that a single loss resets the size again. Not modelled: losses of a whole path in multipath, time of the probes, congestion and pacing conditions for the opportunity to send a probe."
 },
 "C54": {
  "status": "partial",
  "note": "Proved for all runs: forward order of the closing states, silence in draining and after, number and spacing of close packets, end and non-shortening of the closing period, wake times, idle timer and its negotiation, callbacks at most once, failed handshakes stay failed, error and application codes told. Ten clauses are false of the code in corner cases and are refuted by computed executions: two close frames in one packet bring a disconnected connection back; a server handshake closed by the application is revived by a Finished already on its way; errors in server_almost_ready are forgotten; the frame type, and in the handshake the error, are overwritten; draining can be left, or have no duration; callbacks missing or repeated; the idle timeout wraps for huge values. Missing: several paths, the sizes of the packets, the content of TLS messages (its results are inputs), retransmission timer changes during closing."
 },
 "C55": {
  "status": "partial",
  "note": "Missing: the parser is undefined for the index 99 and for a status that exceeds an int (C55_index_refuted, C55_status_overflow_refuted; shown to be the only cases by C55_parse_defined); the meaning is proved for blocks whose strings are well formed and have at most 256 characters, without the indexed range (C55_range_refuted) and with statuses of nine characters at most and not zero (C55_repeat_refuted); errors are read back only if there is room for the status (C55_error_refuted). The capsule parsers and the HTTP/3 frame layer are not part of this property."
 },
 "C56": {
  "status": "partial",
  "note": "Proved of every stream and every way to cut it, for servers and clients: independence of the cut, termination, acceptance and refusal in both directions, data, header, trailer and session, and that a client reports acceptance exactly for status 2xx. False parts are refuted: the report is repeated within a piece, the end of the stream within a frame is not always noticed, interim responses and trailers without content are refused, the end of the stream is marked before the last data. The only undefined behaviour left is that of the header block parser (C55). What the callbacks of the application do is outside of the model."
 },
 "C57": {
  "status": "partial",
  "note": "Unidirectional streams in full. C57_bidir_partial covers bidirectional streams of which the first piece contains the whole type; the rest is false (C57_bidir_refuted). Refuted: empty SETTINGS accepted, duplicate or reserved settings refused, second control stream refused."
 },
 "C58": {
  "status": "partial",
  "note": "In full for streams of one capsule, or of the beginning of one. C58_defined_partial: receiving is defined unless bytes follow an accepted capsule; with them it never is (C58_second_refuted). Refuted as well: the empty DRAIN capsule that the code itself sends is refused, and so are unknown types. C58_memory: memory of the announced length is allocated before the value arrives."
 },
 "C59": {
  "status": "partial",
  "note": "Parameters in full. Refuted: numbers from 18446744073709551610 on are refused although they fit in 64 bits; a string that fills the buffer is not terminated; an absent string parameter is not reported; the baton service never sees the version asked for, so the last sentence of the statement holds of the name \"versi\" only (C59_baton)."
 },
 "C60": {
  "status": "partial",
  "note": "Proved: contents, order (FIFO among equal times) and count of both lists after every history of creations, changes and deletions of live connections; choice of the connection to ask; time to wait (clock below 2^62, delay below 2^63); no starvation. Refuted: the last sentence (a failed creation empties both lists and decrements the count, wrapping at 0), and 'if it is due' at time 0."
 },
 "C61": {
  "status": "partial",
  "note": "Proved for connections without multipath: sequence numbers, limit, expiry, routing table, retirement, definedness below 2^31, ids of zero bytes. Refuted: frames that retire a number never sent are accepted; limits from 2^31 on give no ids, and 2^31 - 1 leads to a signed overflow; the number of ids kept is not bounded."
 },
 "C62": {
  "status": "partial",
  "note": "Proved: writing in place exactly if it fits, round trip of every series (numbers below 2^62, addresses of family 2 or 10), readers exact and within the data, passing over agrees with reading, failures leave the position at the end but for connection ids and strings. Refuted: after a connection id or a string that is too long what follows is still read; byteskip_cid passes over ids that byteread_cid refuses; family 0 is read back as IPv6; numbers from 2^62 on are truncated; after a failure the length counts bytes that were never written."
 },
 "C63": {
  "status": "partial",
  "note": "Proved for packets that arrive in order or are lost, on one path: exactly one change on the way at all times, when client and server change, inversion by each round trip; header bit; policies set by picoquic_set_spinbit_policy and the default; share of connections that do not spin. Refuted: with packets that overtake there are three changes (the highest number is not checked); the bit of path 0 is sent on every path; picoquic_cnx_set_spinbit_policy accepts numbers out of the table."
 },
 "C64": {
  "status": "partial",
  "note": "Proved for every history of one path with times below 2^62 and timers below 2^60 microseconds: at most three challenges with the stated delays, no read out of the array, order and removal of tuples, padding within the amplification limit, responses only as asked, wake times, strict progress of the selected tuples. Refuted: the delays do not grow (with a short timer the third challenge follows more closely than the second); a tuple verified by a late answer remains marked as failed (with multipath its path is then abandoned), and a renewal of its challenges is never sent; no wake time is set for the removal of a failed tuple. Not modelled: the packet that holds the frames (its padding and its observed address frame), several paths, addresses and connection ids (see C30, C31)."
 },
 "C65": {
  "status": "partial",
  "note": "Proved: printing for every id and buffer, parsing of exactly the texts of 1 to 18 bytes, rejection of all others, round trip for 1 to 18 bytes, different texts for different ids. Refuted: ids of 19 and 20 bytes, which are valid, are not read back (the limit in the parser is 18); the text of the empty id cannot be told from an error."
 },
 "C66": {
  "status": "partial",
  "note": "Proved for values below 2^62 and flags of one bit, end to end with the parser of C57: size, room, acceptance, values kept, first bytes of the control stream. Refuted: settings in which nothing is given are written as an empty frame that the reading side refuses; a value of 2^62 or more is written, and read as another one. The settings of h3zero_protocol_init avoid both."
 },
 "C67": {
  "status": "partial",
  "note": "Proved: safety and termination for every application (C67_safe); the frames, their order, the limit on the data and the flags for applications that ask for one buffer at most in each callback (C67_loop, C67_sent, C67_more), end to end with the decoder of C10 (C67_peer); the queue (C67_queue, C67_fifo). Refuted: the frame may be longer than the limit of the peer, which is compared with the data only (C67_limit_refuted); queued datagrams ignore the limit (C67_queue_refuted); a second request in a callback can corrupt the frame (C67_twice_refuted); more_data is not set for an application ready on one path only (C67_path_refuted); an accepted datagram of 1200 bytes blocks the queue while packets have at most 1200 bytes (C67_stuck_refuted)."
 },
 "C68": {
  "status": "partial",
  "note": "Proved at the level of pointers, against a list of contents (C68_queue, C68_delete, C68_format, C68_purge) and for all histories (C68_history). The wake time set when a frame is queued is not modelled. Refuted: a frame longer than a packet is accepted and blocks those behind it (C68_stuck_refuted); after a frame of no bytes more_data is not set though a frame is left (C68_empty_refuted)."
 }
}