{"id": "C01", "title": "Stream bytes are delivered in order, exactly once, without gaps", "statement": "If all STREAM frames that reach one stream carry slices of one byte sequence, then the concatenation of the data passed to the application callback is, after every frame, exactly the longest prefix of that sequence that is covered by the frames received so far.", "quantifier": "every byte sequence, every finite history of STREAM frames (any fragmentation, order, overlap, duplication, loss)", "why_tests_cant": "the space of fragmentations, overlaps and orders is unbounded; a test runs a handful of schedules", "anchors": ["picoquic/frames.c:picoquic_stream_network_input", "picoquic/frames.c:picoquic_queue_network_input", "picoquic/frames.c:picoquic_stream_data_callback", "picoquic/frames.c:picoquic_stream_data_chunk_callback", "picoquic/frames.c:add_chunk_node"]}
{"id": "C02", "title": "End of stream is signalled exactly once and only after the last byte", "statement": "The application receives the stream_fin event at most once per stream, never before all bytes up to the announced final size were delivered, and does receive it as soon as the FIN frame and all bytes are in.", "quantifier": "every byte sequence and every history of STREAM frames, FIN frames repeated and reordered at will", "why_tests_cant": "FIN can be carried by any frame, at any time, empty or not; tests only try some orders", "anchors": ["picoquic/frames.c:picoquic_stream_network_input", "picoquic/frames.c:picoquic_stream_data_chunk_callback"]}
{"id": "C03", "title": "End-to-end stream integrity over an adversarial network", "statement": "Whatever packets are lost, duplicated, reordered or retransmitted, the bytes delivered to the receiving application on a stream are always a prefix of the bytes that the sending application queued with picoquic_add_to_stream, and once every byte has been carried by some delivered packet the receiver has all of them and the FIN.", "quantifier": "every interleaving of application writes, packet emissions with any packet size, losses, retransmissions and arrivals", "why_tests_cant": "the schedule space is infinite; simulation tests sample some loss patterns", "anchors": ["picoquic/sender.c:picoquic_add_to_stream_with_ctx", "picoquic/frames.c:picoquic_format_stream_frame", "picoquic/frames.c:picoquic_copy_stream_frame_for_retransmit", "picoquic/frames.c:picoquic_decode_stream_frame"]}
{"id": "C04", "title": "The record of received packet numbers is exact", "statement": "After any history of recorded packet numbers, asking whether a number was received answers yes exactly for the numbers recorded, and the stored ranges are sorted, disjoint and never adjacent.", "quantifier": "every finite sequence of packet numbers below 2^64-1 in any order", "why_tests_cant": "range-merge bugs show only for particular arrival orders", "anchors": ["picoquic/sacks.c:picoquic_update_sack_list", "picoquic/sacks.c:picoquic_is_pn_already_received", "picoquic/sacks.c:picoquic_check_sack_list"]}
{"id": "C05", "title": "A packet number already processed is never accepted again", "statement": "Once a packet was accepted, a replay of the same packet number in the same number space is reported as duplicate, also after the peer acknowledged our acknowledgements.", "quantifier": "every history of receptions and of acknowledged ACK ranges", "why_tests_cant": "needs an unbounded history mixing receptions and ack-of-ack pruning", "anchors": ["picoquic/sacks.c:picoquic_process_ack_of_ack_range", "picoquic/sacks.c:picoquic_is_pn_already_received", "picoquic/packet.c:picoquic_remove_packet_protection"]}
{"id": "C06", "title": "An ACK frame never acknowledges a packet that was not received", "statement": "The set of packet numbers that a peer decodes from an ACK frame built by the library is contained in the set of recorded packet numbers, contains the largest one, and the frame fits in the space offered.", "quantifier": "every set of received packet numbers, every repeat-count state, every buffer size", "why_tests_cant": "the gap/length arithmetic depends on the number, position and history of ranges", "anchors": ["picoquic/frames.c:picoquic_format_ack_frame_in_context", "picoquic/frames.c:picoquic_parse_ack_header", "picoquic/frames.c:picoquic_decode_ack_frame"]}
{"id": "C07", "title": "Received ACKs release exactly the packets they name", "statement": "Processing an ACK frame removes from the retransmission queue exactly the outstanding packets whose numbers lie in the ranges of the frame; a frame that names a number never sent, or whose ranges go below zero, is rejected as an error.", "quantifier": "every ACK frame content and every retransmission queue with increasing packet numbers", "why_tests_cant": "every range layout against every queue layout", "anchors": ["picoquic/frames.c:picoquic_decode_ack_frame", "picoquic/frames.c:picoquic_process_ack_range"]}
{"id": "C08", "title": "Variable-length integers round-trip and parsing stays in the buffer", "statement": "Every value below 2^62 encodes in the shortest of 1, 2, 4 or 8 bytes when there is room, decodes to itself consuming the same bytes, and decoding or skipping any byte string never reads past its end.", "quantifier": "every 64-bit value, every buffer content and length", "why_tests_cant": "2^62 values and all truncations", "anchors": ["picoquic/intformat.c:picoquic_varint_encode", "picoquic/intformat.c:picoquic_varint_decode", "picoquic/util.c:picoquic_frames_varint_encode", "picoquic/util.c:picoquic_frames_varint_decode", "picoquic/util.c:picoquic_frames_varint_skip"]}
{"id": "C09", "title": "Truncated packet numbers are restored exactly", "statement": "When the true packet number is within half the encoding window of the next expected one, decoding its truncated form gives the true number; and the number of bytes that the sender uses for a packet guarantees this for every receiver state consistent with the acknowledgements received.", "quantifier": "every highest number, every packet number below 2^62, every encoding length 1 to 4", "why_tests_cant": "boundary wraps happen at sparse values of a 64-bit space", "anchors": ["picoquic/packet.c:picoquic_get_packet_number64", "picoquic/sender.c:picoquic_create_packet_header"]}
{"id": "C10", "title": "Frame skipping is memory safe and always progresses", "statement": "For any payload, the frame skipper either reports an error or consumes at least one and at most the available number of bytes, reads only inside the payload, and hence a walk over the payload terminates.", "quantifier": "every byte string", "why_tests_cant": "arbitrary attacker-chosen bytes, lengths up to 2^62 in the fields", "anchors": ["picoquic/frames.c:picoquic_skip_frame", "picoquic/util.c:picoquic_frames_fixed_skip", "picoquic/util.c:picoquic_frames_length_data_skip"]}
{"id": "C11", "title": "Frames are only processed in packet types where they are permitted", "statement": "A frame whose type is forbidden in the encryption level of its packet is never handed to its handler: the packet processing stops with a connection error.", "quantifier": "every frame type and every packet type", "why_tests_cant": "the full table of type/level pairs and every continuation of the packet", "anchors": ["picoquic/frames.c:picoquic_decode_frames"]}
{"id": "C12", "title": "Incoming data never exceeds the advertised flow-control limits", "statement": "If a STREAM or RESET frame would bring the stream beyond its advertised limit or the connection beyond its advertised total, it is refused with a flow-control error; otherwise the accounted connection total equals the sum over streams of the highest offset seen.", "quantifier": "every history of frames on any number of streams", "why_tests_cant": "accounting is cumulative over unbounded histories", "anchors": ["picoquic/frames.c:picoquic_flow_control_check_stream_offset", "picoquic/frames.c:picoquic_stream_network_input", "picoquic/frames.c:picoquic_decode_stream_reset_frame"]}
{"id": "C13", "title": "The sender never exceeds the peer's flow-control limits", "statement": "Stream data emitted for the first time never passes the peer's stream limit nor the connection limit, at any time in any execution.", "quantifier": "every interleaving of writes, limit updates and packet emissions of any size", "why_tests_cant": "the invariant spans all streams and an unbounded history", "anchors": ["picoquic/frames.c:picoquic_format_stream_frame", "picoquic/frames.c:picoquic_find_ready_stream_path"]}
{"id": "C14", "title": "Flow-control and stream-count credits never shrink", "statement": "Reordered or repeated MAX_DATA, MAX_STREAM_DATA and MAX_STREAMS frames never lower a limit: after any history the limit equals the largest value seen.", "quantifier": "every sequence of limit frames in any order", "why_tests_cant": "all permutations of updates", "anchors": ["picoquic/frames.c:picoquic_decode_max_data_frame", "picoquic/frames.c:picoquic_decode_max_stream_data_frame", "picoquic/frames.c:picoquic_decode_max_streams_frame"]}
{"id": "C15", "title": "The peer cannot open more streams than allowed", "statement": "A frame for a peer-initiated stream above the advertised limit is refused with a stream-limit error, frames for unopened local streams with a stream-state error, and otherwise all lower streams of the type exist afterwards, each created once.", "quantifier": "every stream id and every connection state", "why_tests_cant": "all ids times all histories of limits", "anchors": ["picoquic/frames.c:picoquic_create_missing_streams", "picoquic/frames.c:picoquic_update_max_stream_ID_local"]}
{"id": "C16", "title": "Splay trees behave as ordered multisets", "statement": "After any sequence of insertions, lookups and deletions the tree holds exactly the inserted and not deleted items, in order; lookups return an item equal to the key iff one is present, and find-previous returns the largest item not above the key.", "quantifier": "every comparison-compatible operation history", "why_tests_cant": "rotations depend on the whole history", "anchors": ["picoquic/picosplay.c:picosplay_insert", "picoquic/picosplay.c:picosplay_find", "picoquic/picosplay.c:picosplay_find_previous", "picoquic/picosplay.c:picosplay_delete_hint"]}
{"id": "C17", "title": "The hash table behaves as a map", "statement": "A lookup returns an inserted, not deleted item with an equal key whenever one exists and nothing otherwise, for every hash function and number of bins.", "quantifier": "every history of insert/delete/retrieve, every hash function compatible with key equality, every bin count at least 1", "why_tests_cant": "collisions are exercised only for chosen keys in tests", "anchors": ["picoquic/picohash.c:picohash_insert", "picoquic/picohash.c:picohash_retrieve", "picoquic/picohash.c:picohash_delete_item"]}
{"id": "C18", "title": "Pacing bounds the bytes sent in any interval", "statement": "With unchanged pacing parameters, the credit never exceeds the bucket, and the bytes authorised over any time interval are at most the burst allowance plus one packet plus the rate times the interval.", "quantifier": "every sequence of authorisation requests and sends at non-decreasing times", "why_tests_cant": "needs an argument over all intervals of all schedules", "anchors": ["picoquic/pacing.c:picoquic_update_pacing_bucket", "picoquic/pacing.c:picoquic_is_authorized_by_pacing", "picoquic/pacing.c:picoquic_update_pacing_data_after_send"]}
{"id": "C19", "title": "Retransmitted stream data is the data originally sent", "statement": "When a STREAM frame from a lost packet is split over new packets of any sizes, the pieces carry the same bytes at the same offsets, cover the whole frame, and FIN is set exactly on the piece that ends the frame if the original had it.", "quantifier": "every frame and every sequence of available space sizes", "why_tests_cant": "all split points and header length changes", "anchors": ["picoquic/frames.c:picoquic_copy_stream_frame_for_retransmit", "picoquic/frames.c:picoquic_format_available_stream_frames"]}
{"id": "C20", "title": "Every lost control frame is repeated until acknowledged or obsolete", "statement": "A frame whose loss would leave the peer without information that is still needed (RESET_STREAM, MAX_PATH_ID, MAX_DATA, ...) is reported as needing repetition after loss.", "quantifier": "every frame content and connection state", "why_tests_cant": "the wrong decisions only matter under losses of specific packets", "anchors": ["picoquic/frames.c:picoquic_check_frame_needs_repeat", "picoquic/frames.c:picoquic_check_reset_stream_needs_repeat", "picoquic/frames.c:picoquic_max_path_id_frame_needs_repeat"]}
{"id": "C21", "title": "The final size of a stream never changes and bounds the data", "statement": "Once the final size is known by FIN or RESET_STREAM, any later frame that contradicts it is refused with a final-size error, and the final size is never below data already received.", "quantifier": "every history of STREAM and RESET_STREAM frames", "why_tests_cant": "contradictions can be spread over unbounded histories", "anchors": ["picoquic/frames.c:picoquic_stream_network_input", "picoquic/frames.c:picoquic_decode_stream_reset_frame"]}
{"id": "C22", "title": "Stateless resets are smaller than their trigger and fit the buffer", "statement": "A stateless reset sent in response to a packet is strictly shorter than that packet, at least 39 bytes, ends with the 16-byte secret and is written inside the packet buffer; resets are at least the configured interval apart.", "quantifier": "every incoming packet length, every random value, every arrival time sequence", "why_tests_cant": "lengths, random padding and timing combine freely", "anchors": ["picoquic/packet.c:picoquic_process_unexpected_cnxid"]}
{"id": "C23", "title": "Connection attempts are screened before any state is created", "statement": "A connection context is created for an unknown Initial packet only if the datagram has at least 1200 bytes, the destination id is long enough, the server is not busy, the packet decrypts, and, whenever address validation is required, the packet carries a valid token; otherwise nothing is created.", "quantifier": "every header, token outcome and server configuration", "why_tests_cant": "all combinations of configuration flags and token states", "anchors": ["picoquic/packet.c:picoquic_screen_initial_packet", "picoquic/packet.c:picoquic_incoming_segment"]}
{"id": "C24", "title": "Client tokens are used at most once and only while valid", "statement": "The token store only returns tokens that were stored for the same server name (and address if given), that have not expired, and that were not already handed out for use.", "quantifier": "every history of store, get, save and load operations at any times", "why_tests_cant": "histories are unbounded", "anchors": ["picoquic/token_store.c:picoquic_store_token", "picoquic/token_store.c:picoquic_get_token"]}
{"id": "C25", "title": "Stored tokens survive serialization", "statement": "Deserializing a serialized token gives back the same token and consumes the whole record; deserializing arbitrary bytes never reads outside them.", "quantifier": "every token content, every byte string", "why_tests_cant": "field lengths up to 64K, every truncation", "anchors": ["picoquic/token_store.c:picoquic_serialize_token", "picoquic/token_store.c:picoquic_deserialize_token"]}
{"id": "C26", "title": "Load-balancer connection ids decode to the configured server id", "statement": "For each of the three methods, every connection id generated under an accepted configuration decodes at the load balancer to the configured server id, for any key and nonce, and configuration never writes outside its structures.", "quantifier": "every accepted configuration, every nonce, every block cipher", "why_tests_cant": "all keys, nonces and lengths", "anchors": ["picoquic/picoquic_lb.c:picoquic_lb_compat_cid_generate", "picoquic/picoquic_lb.c:picoquic_lb_compat_cid_verify", "picoquic/picoquic_lb.c:picoquic_lb_compat_cid_config"]}
{"id": "C27", "title": "Blocked ports are exactly the listed ones", "statement": "The port filter answers blocked exactly for the ports of the published list.", "quantifier": "every 16-bit port number and every list sorted in decreasing order", "why_tests_cant": "the early exit of the scan is only right for sorted lists", "anchors": ["picoquic/port_blocking.c:picoquic_check_port_blocked"]}
{"id": "C28", "title": "RTT estimates stay inside the observed samples and timers stay bounded", "statement": "The smoothed RTT always lies between the smallest and the largest RTT sample, the minimum never exceeds a sample, and the retransmission delay grows with the number of consecutive timeouts up to its cap.", "quantifier": "every sequence of RTT samples and timeouts", "why_tests_cant": "unbounded sample sequences", "anchors": ["picoquic/timing.c:picoquic_update_path_rtt", "picoquic/timing.c:picoquic_current_retransmit_timer"]}
{"id": "C29", "title": "The congestion window never collapses below the minimum", "statement": "Under NewReno the congestion window is at least two full-size packets after any sequence of notifications, and after a congestion event is at most half the previous window or the minimum; in congestion avoidance it grows by one packet for each window of bytes acknowledged; delays end slow start only after repeated measurements that exceed others by a quarter.", "quantifier": "every sequence of congestion notifications with any arguments", "why_tests_cant": "unbounded event histories", "anchors": ["picoquic/newreno.c:picoquic_newreno_sim_notify", "picoquic/newreno.c:picoquic_newreno_sim_enter_recovery"]}
{"id": "C30", "title": "A path is validated only by an answer to its own challenge", "statement": "A tuple is marked as verified only when a PATH_RESPONSE carrying a challenge value that was actually sent on it is received.", "quantifier": "every history of challenges and responses", "why_tests_cant": "needs all response values against all challenge states", "anchors": ["picoquic/frames.c:picoquic_decode_path_response_frame", "picoquic/quicctx.c:picoquic_set_tuple_challenge"]}
{"id": "C31", "title": "Peer connection ids are stored consistently and retired ones never come back", "statement": "For any sequence of NEW_CONNECTION_ID frames the store never holds two different ids for one sequence number nor one id under two numbers, conflicting frames raise a protocol error, ids below the highest Retire Prior To are refused, and the store never exceeds its limit.", "quantifier": "every sequence of NEW_CONNECTION_ID contents and removals", "why_tests_cant": "unbounded histories of ids", "anchors": ["picoquic/quicctx.c:picoquic_add_remote_cnxid_to_stash", "picoquic/quicctx.c:picoquic_remove_not_before_from_stash", "picoquic/frames.c:picoquic_decode_new_connection_id_frame"]}
{"id": "C32", "title": "Packet headers round-trip", "statement": "A header produced by the sender is parsed by the receiver into the same packet type, version, connection ids, token, payload length and packet number position.", "quantifier": "every packet type, version index, connection ids up to 20 bytes, token, length and number", "why_tests_cant": "all lengths and values", "anchors": ["picoquic/sender.c:picoquic_create_packet_header", "picoquic/sender.c:picoquic_create_long_header", "picoquic/packet.c:picoquic_parse_packet_header"]}
{"id": "C33", "title": "Control frames round-trip", "statement": "Each control frame written by the library decodes to the values it was built from, and skipping it consumes exactly its length.", "quantifier": "every field value below 2^62", "why_tests_cant": "all values and buffer sizes", "anchors": ["picoquic/frames.c:picoquic_format_max_data_frame", "picoquic/frames.c:picoquic_format_stream_reset_frame", "picoquic/frames.c:picoquic_format_new_connection_id_frame", "picoquic/frames.c:picoquic_skip_frame"]}
{"id": "C34", "title": "Handshake bytes reach TLS in order and unaltered", "statement": "For each encryption level, the data passed to the TLS stack is exactly the longest contiguous prefix of the peer's CRYPTO data received so far, each byte once.", "quantifier": "every order, overlap and duplication of CRYPTO frames", "why_tests_cant": "unbounded schedules", "anchors": ["picoquic/frames.c:picoquic_decode_crypto_hs_frame", "picoquic/frames.c:picoquic_queue_network_input", "picoquic/tls_api.c:picoquic_tls_stream_process"]}
{"id": "C35", "title": "Transport parameters round-trip and malformed ones are refused", "statement": "The parameters sent by one endpoint are read back by the other with the same values, and a parameter block with out-of-range or duplicated values is refused.", "quantifier": "every parameter assignment, every byte string", "why_tests_cant": "all values and all malformed blocks", "anchors": ["picoquic/transport.c:picoquic_prepare_transport_extensions", "picoquic/transport.c:picoquic_receive_transport_extensions"]}
{"id": "C36", "title": "Stream reassembly is safe and bounded for hostile input", "statement": "No sequence of STREAM, RESET_STREAM or other frames makes the reassembly of stream data access memory out of bounds or loop, and the bytes kept for reassembly never exceed the credit advertised to the peer, per stream and in total.", "quantifier": "every history of frames with arbitrary contents, including contradictory ones", "why_tests_cant": "fuzzing samples a few histories; overlap patterns are unbounded", "anchors": ["picoquic/frames.c:picoquic_queue_network_input", "picoquic/frames.c:add_chunk_node", "picoquic/frames.c:picoquic_stream_network_input"]}
{"id": "C37", "title": "Filling a packet with stream frames always ends", "statement": "Filling a packet with stream frames ends after a number of turns bounded by the size of the packet and the number of streams, without dereferencing a null pointer and without writing past the packet.", "quantifier": "every reachable state, packet size and behaviour of an application that provides data or gives up its turn", "why_tests_cant": "an endless loop only shows up in the states that tests do not build", "anchors": ["picoquic/frames.c:picoquic_format_available_stream_frames", "picoquic/frames.c:picoquic_format_stream_frame", "picoquic/frames.c:picoquic_find_ready_stream_path"]}
{"id": "C38", "title": "The sender opens no stream beyond the count announced by the peer", "statement": "No frame is ever sent on a locally initiated stream whose rank is above the number of streams announced by the peer for its direction.", "quantifier": "every history of stream creations, announcements and packet fillings", "why_tests_cant": "unbounded histories of limits and streams", "anchors": ["picoquic/frames.c:picoquic_find_ready_stream_path", "picoquic/quicctx.c:picoquic_create_stream", "picoquic/transport.c:picoquic_receive_transport_extensions"]}
{"id": "C39", "title": "First transmissions carry exactly what the application wrote", "statement": "The data of the STREAM frames of a stream, in order of transmission, is a prefix of what the application wrote, each byte once; FIN is sent only with the last byte; the final size of RESET_STREAM is the number of bytes sent and nothing follows it.", "quantifier": "every history of writes, polling callbacks, resets and packet fillings of any size", "why_tests_cant": "all fragmentations of the data over packets", "anchors": ["picoquic/frames.c:picoquic_format_stream_frame", "picoquic/sender.c:picoquic_add_to_stream_with_ctx", "picoquic/frames.c:picoquic_provide_stream_data_buffer"]}
{"id": "C40", "title": "Stream frames put in a packet are read back as meant", "statement": "The bytes written by the filling loop fit in the packet, and any receiver that decodes them processes exactly the intended STREAM, RESET_STREAM and STOP_SENDING frames, in order, followed by what comes after.", "quantifier": "every state, packet size and following bytes", "why_tests_cant": "the frame without length at the end of a packet and the length shifts depend on exact sizes", "anchors": ["picoquic/frames.c:picoquic_format_stream_frame", "picoquic/frames.c:picoquic_decode_frames"]}
{"id": "C41", "title": "A request to stop sending is never forgotten", "statement": "After the application asks the peer to stop sending on an open receive side, either the STOP_SENDING frame with the application's code has been put in a packet or the stream is still in the output schedule waiting for it, until the receive side ends or the stream is deleted; and when no earlier stream has anything to send, the next packet starts with it.", "quantifier": "for all histories of application calls, peer frames and packet fillings after the request, all stream ids and error codes", "why_tests_cant": "The schedule is a list edited by a dozen functions (end of data, priorities, limits, FIN, reset); losing the entry in one rare order means the request is silently dropped, which needs that order to be hit.", "anchors": ["picoquic/sender.c:366-393", "picoquic/frames.c:1344-1416", "picoquic/frames.c:876-902", "picoquic/quicctx.c:3317-3417"]}
{"id": "C42", "title": "Protected packets open to what was sealed, and only authentic bytes are opened", "statement": "A packet built by the sender is opened by a receiver holding the same keys to the same payload, packet number, type and header bits, alone or inside a coalesced datagram; and whenever any bytes at all are accepted, the AEAD check succeeded over the whole unmasked header and the received bytes are exactly the protection of that header and ciphertext. Nothing is read or written outside of the buffers.", "quantifier": "every payload, packet number in the window, header, datagram and pair of ciphers of which decryption undoes encryption", "why_tests_cant": "masking depends on a sample of the ciphertext, on the packet number length found only after unmasking, and on the negotiated loss bits", "anchors": ["picoquic/sender.c:picoquic_protect_packet", "picoquic/sender.c:picoquic_protect_packet_header", "picoquic/packet.c:picoquic_remove_header_protection_inner", "picoquic/packet.c:picoquic_parse_header_and_decrypt"]}
{"id": "C43", "title": "Address validation tokens are accepted exactly when valid, and at most once", "statement": "A token made by the server for an address is accepted exactly when it is presented from that address before it expires, was not presented before, and (for Retry tokens) arrives in a later packet sent to the connection id of the Retry; the original connection id comes back unchanged; a token is accepted at most once in any history, nothing is accepted that does not authenticate with the sender's address, and the table of used tokens drops what has expired.", "quantifier": "every token, address, time, table of used tokens and history of presentations", "why_tests_cant": "needs all orders of presentation, expiry and reuse, and all encodings of times and connection ids", "anchors": ["picoquic/tls_api.c:picoquic_prepare_retry_token", "picoquic/tls_api.c:picoquic_verify_retry_token", "picoquic/quicctx.c:picoquic_registered_token_check_reuse", "picoquic/quicctx.c:picoquic_registered_token_clear"]}
{"id": "C44", "title": "What a server sends to unknown peers is small, rate limited and safe to compute", "statement": "A server answers a datagram of an unknown connection only if the datagram has at least 1200 bytes (or is a short header packet, for resets) and comes from an acceptable port; version negotiation, Retry and busy packets are short, fewer bytes are sent than received, and handling any datagram stays inside of its buffers.", "quantifier": "every datagram, including coalesced and malformed ones, every server configuration and state", "why_tests_cant": "needs all coalescings of packets and all malformed headers; the bound is on the sum over the segments of a datagram", "anchors": ["picoquic/packet.c:picoquic_incoming_segment", "picoquic/packet.c:picoquic_incoming_packet_ex", "picoquic/packet.c:picoquic_prepare_version_negotiation", "picoquic/packet.c:picoquic_queue_busy_packet", "picoquic/packet.c:picoquic_queue_stateless_retry", "picoquic/packet.c:picoquic_screen_initial_packet"]}
{"id": "C45", "title": "Version negotiation ends attempts with an unsupported version, and only those", "statement": "A server answers a long header packet of an unsupported version with a version negotiation packet that exchanges the connection ids and lists the supported versions and a reserved one; a client gives up exactly on version negotiation packets with its own two connection ids, received before any other packet, that do not list the version it proposed nor 0, and list at least one version that it supports; together, a client that proposes an unsupported version is told so.", "quantifier": "every datagram, version, connection id and client state", "why_tests_cant": "needs all versions, ids and list lengths; forged packets must be refused", "anchors": ["picoquic/packet.c:picoquic_incoming_version_negotiation", "picoquic/packet.c:picoquic_prepare_version_negotiation"]}
{"id": "C46", "title": "Retry leads to a validated connection, and forged Retry packets are ignored", "statement": "A client accepts exactly those Retry packets that come first, for its version, with a token and the integrity tag over the destination id of its first packet, and accepts no second one; a server that requires validation answers the first packet with one Retry and keeps no state; the next packet of the client, with the token, creates a connection whose address is validated and that knows the original destination id.", "quantifier": "every Retry packet, every client and server configuration and connection id length", "why_tests_cant": "composes the token code, the header code, the integrity tag and the screening on both sides", "anchors": ["picoquic/packet.c:picoquic_incoming_retry", "picoquic/packet.c:picoquic_queue_stateless_retry", "picoquic/tls_api.c:picoquic_verify_retry_protection", "picoquic/packet.c:picoquic_screen_initial_packet"]}
{"id": "C47", "title": "The acknowledgement of a packet removes exactly the information it carried", "statement": "When a packet is acknowledged, the information that remains to be delivered (stream bytes and FIN, CRYPTO bytes, resets, limits, connection ids, token, HANDSHAKE_DONE) is what was outstanding before minus what the frames of that packet carried: nothing is forgotten that the peer did not receive, and nothing received stays outstanding.", "quantifier": "every payload made of frames the library writes, every packet type and connection state", "why_tests_cant": "a misparsed acknowledged frame silently marks other data as received and stalls a stream; needs all payloads", "anchors": ["picoquic/frames.c:picoquic_process_ack_of_frames", "picoquic/frames.c:picoquic_process_ack_of_stream_frame", "picoquic/frames.c:picoquic_process_ack_of_crypto_frame", "picoquic/frames.c:picoquic_process_ack_of_max_path_id_frame"]}
{"id": "C48", "title": "Key updates keep both endpoints able to decipher each other", "statement": "Whatever updates of the 1-RTT keys both sides start and whatever packets are lost, repeated, reordered or forged: a packet sealed with the newest generation that the receiver has used or with the next one is deciphered, packets of the previous generation are deciphered for a retransmission delay after the update and are never counted as forged, older ones are refused; forged packets change nothing but the count of failures, which closes the connection exactly above the limit of the cipher; no key seals more packets than its limit allows.", "quantifier": "every sequence of sendings, deliveries, updates by either side and forgeries, with one or several paths", "why_tests_cant": "the endpoints lose each other only for particular interleavings of updates with losses and reordering, then for ever", "anchors": ["picoquic/packet.c:picoquic_remove_packet_protection", "picoquic/quicctx.c:picoquic_start_key_rotation", "picoquic/tls_api.c:picoquic_compute_new_rotated_keys", "picoquic/tls_api.c:picoquic_apply_rotated_keys", "picoquic/sender.c:picoquic_prepare_packet_ready"]}
{"id": "C49", "title": "A server does not amplify: three times the bytes received until the address is validated", "statement": "As long as no packet received shows that the client receives at its address (a Handshake packet, an Initial packet to the connection id that the server chose, an acknowledgement of a random number, a valid token), all the datagrams that the server sends on a connection are together at most three times as long as the datagrams it received; the server is blocked only if a full packet would exceed the limit; once the address is validated the limit is lifted for good.", "quantifier": "every sequence of datagrams, coalesced in any way, of polls with any buffer and anything to send, and of actions of the application", "why_tests_cant": "a bound over whole executions, with several packets per datagram and several datagrams per poll; the excess shows only for particular sizes and states", "anchors": ["picoquic/sender.c:picoquic_prepare_packet_server_init", "picoquic/sender.c:picoquic_prepare_packet_almost_ready", "picoquic/sender.c:picoquic_prepare_packet_closing", "picoquic/sender.c:picoquic_prepare_packet_ex", "picoquic/packet.c:picoquic_incoming_segment", "picoquic/packet.c:picoquic_incoming_client_initial", "picoquic/packet.c:picoquic_incoming_client_handshake"]}
{"id": "C50", "title": "Packets are declared lost for a reason, none is forgotten, and the wake time is exact", "statement": "A packet is declared lost only if a later packet was acknowledged and it is at least 3 numbers earlier or in flight for longer than the allowance, or its path was abandoned or it holds nothing to acknowledge and the timer expired; a packet is repeated after a timeout only when the timer expired since it was sent; a poll that ends without repetition leaves no packet that is due, and sets the wake time to the first time at which one is due; when one is due a packet leaves; every number is exactly one of acknowledged, gone and pending; an acknowledgement of a skipped number ends the connection; no event uses a path that is NULL.", "quantifier": "every sequence of packets sent, numbers skipped, ACK frames, polls at any time with any result of the copies, and abandoned paths", "why_tests_cant": "the order of acknowledgements, losses and timers has no bound, and skipped numbers meet the other events rarely", "anchors": ["picoquic/loss_recovery.c:picoquic_retransmit_needed", "picoquic/loss_recovery.c:picoquic_retransmit_needed_packet", "picoquic/loss_recovery.c:picoquic_is_packet_probably_lost", "picoquic/loss_recovery.c:picoquic_queue_retransmit_on_ack", "picoquic/frames.c:picoquic_decode_ack_frame", "picoquic/sender.c:picoquic_insert_hole_in_send_sequence_if_needed", "picoquic/sender.c:picoquic_queue_for_retransmit"]}
{"id": "C51", "title": "Acknowledgements are sent in time", "statement": "A packet that asks for an acknowledgement is named by the ACK frame of the next packet built once the ACK delay has passed; a poll that writes no ACK frame asks to be called again before that time; the delay is between 1 and 10 ms unless the peer sent ACK_FREQUENCY, and otherwise that of the newest request; packets out of order, packets that complete a stream and the last of a group as large as the ACK gap are acknowledged by the next poll; only accepted packets are named.", "quantifier": "every sequence of packets with any frames, polls with any room, acknowledged ACKs and new estimates, at any times that do not go back", "why_tests_cant": "loss of a pending acknowledgement needs a particular order of gaps, polls and acknowledged ACKs, and the wake time depends on all of them", "anchors": ["picoquic/frames.c:picoquic_is_ack_needed_in_ctx", "picoquic/frames.c:picoquic_set_ack_needed", "picoquic/frames.c:picoquic_format_ack_frame_in_context", "picoquic/frames.c:picoquic_compute_ack_gap_and_delay", "picoquic/frames.c:picoquic_decode_ack_frequency_frame", "picoquic/frames.c:picoquic_decode_immediate_ack_frame", "picoquic/sacks.c:picoquic_record_pn_received", "picoquic/sender.c:picoquic_prepare_packet_ready"]}
{"id": "C52", "title": "Streams are scheduled by priority, in round robin within a level, and none is forgotten", "statement": "The list of output streams stays sorted by priority and stream id, without duplicates, under every history of application calls, frames and packets. The stream chosen for the next frame can send and comes ahead of every listed stream that can: more urgent level; lowest id on odd levels; on even levels control frames first, then the stream whose data was sent the longest time ago. No stream is chosen only if no listed stream can send, and a packet that carries a frame of one level leaves nothing sendable on more urgent levels. In a connection whose events come in order, every stream with something left to send and within the limits of the peer is on the list, also when it was opened above the limit and the limit was raised later by transport parameters or MAX_STREAMS.", "quantifier": "all histories of application calls, transport parameters, frames received and packets filled; all numbers of streams, levels and times", "why_tests_cant": "The list is edited by a dozen functions (creation, deletion, priority change, limits, stop sending, packet filling). Losing a stream needs a particular interleaving of stream creation and limit updates; a test sees a stalled transfer only if it happens to use that interleaving.", "anchors": ["picoquic/frames.c:1344-1416 picoquic_find_ready_stream_path", "picoquic/quicctx.c:3299-3449 picoquic_insert_output_stream, picoquic_reorder_output_stream, picoquic_add_output_streams", "picoquic/quicctx.c:3451-3508 picoquic_create_stream", "picoquic/frames.c:4444-4481 picoquic_decode_max_streams_frame", "picoquic/transport.c:578-661", "picoquic/sender.c:178-189 picoquic_set_stream_priority"]}
{"id": "C53", "title": "Path MTU discovery: sizes, validation, progress and result", "statement": "The preparation of a probe has no undefined behaviour. A packet with data is no larger than the packet size in use, a probe is larger and no larger than the limits of the peer and of the buffers. The packet size in use is the starting size or that of a packet acknowledged since the last change of address. While the path waits for a probe, one larger than the packet size is in flight. Without resets of the packet size at most one probe is in flight and at most three are lost, also when losses prove spurious. When the search ends on a network that carries packets up to a given size, the packet size is the largest allowed size if it passes, else 1500 or 1400 if lower than the allowed size and passing, else the starting size.", "quantifier": "all configurations accepted by the configuration code and by the reception of transport parameters; all sequences of packets, probes, acknowledgements, losses, spurious losses and changes of address, with any buffers", "why_tests_cant": "The state of the search is changed by acknowledgements, losses, spurious losses and migrations in any order; a test exercises one network size and one order.", "anchors": ["picoquic/sender.c:1467-1570 picoquic_next_mtu_probe_length, picoquic_is_mtu_probe_needed, picoquic_prepare_mtu_probe", "picoquic/sender.c:3541-3555", "picoquic/loss_recovery.c:693-704, 876-897 picoquic_check_path_mtu_on_losses", "picoquic/frames.c:2536-2542, 3625-3633, 4755-4775", "picoquic/quicctx.c:2669-2678 picoquic_reset_path_mtu"]}
{"id": "C54", "title": "Connections end once, in order, and say why", "statement": "From the moment a connection is being closed its state only goes forward (disconnecting, closing, draining, disconnected); nothing is sent in draining or afterwards; before that only close packets are sent, at most one plus the number of packets received and at most one after the peer has closed, a smoothed RTT apart; closing and draining end three retransmission timers after the last progress and no sooner unless the peer closes, resets, or the idle timeout comes; the idle timer ends a ready connection exactly when nothing was received for the agreed timeout (or three retransmission timers); the application is told once; a failed handshake never succeeds; every close packet carries the error, or the application code, that came first.", "quantifier": "all sequences of calls, errors, packets with any frames, stateless resets, Version Negotiation and Retry packets, key changes and polls at any times, in all twenty states, for clients and servers", "why_tests_cant": "The end of a connection races with packets in flight, with timers and with calls made inside callbacks; tests close one connection at one moment.", "anchors": ["picoquic/quicctx.c:4695-4738 picoquic_connection_error_ex, picoquic_connection_disconnect", "picoquic/sender.c:2302-2541 picoquic_prepare_packet_closing", "picoquic/sender.c:3679-3795, 3866-4126 picoquic_check_idle_timer, picoquic_prepare_segment, picoquic_close", "picoquic/frames.c:4116-4200, 6377-6662, 6975-6998", "picoquic/packet.c:1369-1992, 2285-2305", "picoquic/transport.c:848-856"]}
{"id": "C55", "title": "HTTP/3 header blocks are read as written, and reading them is safe", "statement": "The prefixed integers read are exactly those represented (RFC 7541, 5.1) and those written are the shortest representations and read back; Huffman decoding is defined and terminates on all bytes, and decodes the code of every text to that text; the parser of header blocks terminates, reads only its buffer and its tables, accepts only sequences of field lines with indices of the static table (RFC 9204), accepts a well-formed block if and only if no known field is repeated, and then method, path, range, status, content type and protocol are those of the fields; every request, response and error written by the code is read back with the same parts, and fits its buffer.", "quantifier": "all byte strings of any length given to the parser and the decoders; all integers below 2^63; all texts; all paths, ranges, hosts, content types and buffer sizes given to the writers", "why_tests_cant": "The Huffman tree has 257 leaves and the input is arbitrary bytes of a peer; tests decode a few strings and frames.", "anchors": ["picohttp/h3zero.c:103-166 h3zero_qpack_int_encode, h3zero_qpack_int_decode", "picohttp/h3zero.c:172-272 qpack_static", "picohttp/h3zero.c:334-667 h3zero_parse_qpack_header_frame and its helpers", "picohttp/h3zero.c:704-1003 h3zero_create_*_frame and their helpers", "picohttp/h3zero.c:1140-1787 Huffman tables, hzero_qpack_huffman_decode"]}
{"id": "C56", "title": "Requests and responses of HTTP/3 are read the same however the stream is cut", "statement": "For every sequence of pieces of a stream: the bytes handed to the application as body data, the decision to close the connection with its error code, and the header, trailer and web transport session that were read depend only on the concatenation of the pieces; streams that consist of frames in an allowed order are accepted and yield exactly the content of the data frames, header and trailer; the first frame that is forbidden, out of order, too long or has a bad header block closes the connection with the defined code after exactly the data before it; nothing else does; parsing terminates and no buffer is overrun; a client reports the request as accepted exactly for status 2xx, once.", "quantifier": "all byte strings shorter than 2^62, all ways to cut them in pieces, both sides", "why_tests_cant": "The state machine has partial headers, partial frames, frames without content and left-over bytes in its buffers; tests cut a few streams in a few places.", "anchors": ["picohttp/h3zero_common.c:622-801", "picohttp/h3zero_common.c:1206-1300", "picohttp/h3zero_common.c:1302-1390", "picohttp/h3zero.c:52-77", "picohttp/h3zero.h:260-283"]}
{"id": "C57", "title": "Control streams and web transport streams of an HTTP/3 peer", "statement": "A unidirectional stream opened by an HTTP/3 peer is handled the same however its bytes are cut into pieces. A control stream is accepted exactly if its first frame is a non-empty SETTINGS frame made of pairs of integers and no longer than 65536 bytes, and the frames after it are neither SETTINGS nor frames of other streams; the settings kept are the last values given. Otherwise STOP_SENDING is sent once, with the code for what was wrong. After the session number of a web transport stream, exactly the bytes that follow are handed to the application, if the session is known. Other types of streams are ignored. No access is outside of a buffer, and parsing always ends.", "quantifier": "for all byte strings, all ways to cut them, all sets of known sessions, and all settings received before", "why_tests_cant": "tests deliver a few settings frames in one or two pieces; they cannot try every split of every varint, frame header and content", "anchors": ["picohttp/h3zero_common.c:342-607", "picohttp/h3zero_common.c:845-875", "picohttp/h3zero_common.c:1933-1966", "picohttp/h3zero.c:1036-1062", "picohttp/h3zero.h:212-220"]}
{"id": "C58", "title": "Capsules of web transport sessions", "statement": "The capsules of a web transport control stream are received the same however the stream is cut into pieces. The beginning of a capsule is kept without event or error; a datagram, or the end of a session with its code and message, is heard exactly once with exactly its content, and nothing else is heard; a capsule that is empty, for which there is no memory, or that stands for no event is refused. The message written to close a session is heard with its code and message. Receiving ends and stays within its buffers, also if several capsules follow each other.", "quantifier": "for all byte strings shorter than 2^62, all ways to cut them, all behaviours of the allocator, all codes and messages", "why_tests_cant": "tests send one capsule per stream, in one or two pieces; they cannot try every type, length, split and sequence", "anchors": ["picohttp/h3zero_common.c:1995-2090", "picohttp/webtransport.c:278-416", "picohttp/h3zero_common.h:141-160", "picohttp/wt_baton.c:340-360"]}
{"id": "C59", "title": "Queries of paths are read as written", "statement": "The query of a path is what follows its first '?'. A parameter is the first component, between '&', that is its name or starts with its name and '='. A string parameter is the value with its escapes decoded, if it fits in the buffer given, and is refused if an escape is malformed or it does not fit; a number parameter is the decimal number that the decoded value is, the default if there is no value, and is refused otherwise. The functions terminate and stay within their buffers for all texts. The baton service accepts exactly requests for version 0, a baton below 256 and 1 to 256 lanes.", "quantifier": "for all paths, queries, names without '&', buffers and defaults", "why_tests_cant": "tests read a dozen queries; prefixes of names, empty components, truncated escapes and values at the limits are not all tried", "anchors": ["picohttp/h3zero_uri.c:120-316", "picohttp/wt_baton.c:550-578"]}
{"id": "C60", "title": "Connections are woken in the order of their wake times", "statement": "For every history in which connections are created, given wake times and deleted: the list of connections and the tree of wake times hold exactly the live connections, each once, with the wake time last set, in the order of time and, for equal times, in the order in which it was set; the number of connections is right. The connection asked for a packet is the first with the least wake time, if it is due. The time to wait is the time to the next wake time within the limit given, and 0 if a stateless packet waits. A connection that is due is asked after at most as many polls as there are connections with the same or earlier wake times, if each poll moves the connection asked to a time no earlier than that of the poll. A creation that fails changes nothing for other connections.", "quantifier": "for all histories of any number of connections, all times, all sequences of polls", "why_tests_cant": "tests have a few connections and few histories; ties, starvation, and failures of creation need histories that no test plays", "anchors": ["picoquic/quicctx.c:1295-1490", "picoquic/quicctx.c:3845-3895", "picoquic/quicctx.c:4775-4868", "picoquic/picosplay.c:36-235", "picoquic/sender.c:4162-4208"]}
{"id": "C61", "title": "Connection ids are issued within the limit of the peer, and route to their connection", "statement": "For every history of a connection: the connection ids it issues have consecutive sequence numbers, in the order in which they are announced; the peer never holds more ids that are not to be retired than the limit that it gave, and is given that number (up to nine) when there is space; exactly the ids older than the configured life time are asked to be retired, and never an id that is being announced; at every time, a packet is given to the connection exactly if it carries an id that was issued and not retired, and no id is used by two connections; a RETIRE_CONNECTION_ID frame removes exactly the id it names, or closes the connection if that is the id of its own path or was never sent. With ids of zero bytes no frame is sent. The number of ids kept is bounded.", "quantifier": "for all histories of creations, packets prepared with any space at any times, frames received, and ids of other connections; all random values; all limits and life times", "why_tests_cant": "tests use one limit and few retirements; expiry together with lack of space, collisions of random ids and limits at the edge of integers need histories that no test plays", "anchors": ["picoquic/quicctx.c:1143-1157", "picoquic/quicctx.c:3577-3822", "picoquic/quicctx.c:4910-4933", "picoquic/sender.c:2543-2605", "picoquic/frames.c:384-410", "picoquic/frames.c:691-722", "picoquic/transport.c:704-708"]}
{"id": "C62", "title": "Byte streams read back what was written", "statement": "For every series of integers, buffers, connection ids, strings and addresses: writing them stores, at the position of the stream, their shortest layouts one after the other and changes nothing else, if they fit; if not, it fails and changes nothing before the position. Reading the series back gives the same values and ends at the same place. On any data and at any position, a reader or a function that passes over an item loads nothing outside of the data and finds an item exactly if the bytes are one; passing over an item is the same as reading it. After a failure every later reading of one byte or more fails, and the length of the stream counts only bytes that were written.", "quantifier": "for all series of items, all data, all positions and sizes of streams", "why_tests_cant": "tests log a few connections; streams that end in the middle of an item, values at the limits and malformed logs are not all tried", "anchors": ["picoquic/bytestream.c:28-437", "picoquic/intformat.c:27-58", "picoquic/intformat.c:90-162"]}
{"id": "C63", "title": "The spin bit changes once in each round trip", "statement": "For two endpoints that spin and any exchange of packets on a path, in which packets may be lost or overtake one another: there is always exactly one change of the spin value on the way from the client to the server and back, so that the value of the client changes only when what it sent after its last change has come back, and changes in every round trip; the bit of each path follows the packets of that path. The bit read is the bit written, whatever the other bits of the first byte. Whatever policies the application sets, the functions called are those of the table; without spin the bit is 0; at least 1 of 16 connections of an endpoint does not spin by default.", "quantifier": "for all histories of sending, arrival and loss; all values of the other bits and random numbers; all policies", "why_tests_cant": "tests look at the number of changes in a few simulated connections; histories with losses and packets that overtake, several paths and invalid policies are not played", "anchors": ["picoquic/spinbit.c:30-83", "picoquic/quicctx.c:810-835", "picoquic/quicctx.c:3955-3966", "picoquic/quicctx.c:4278-4281", "picoquic/sender.c:658-672", "picoquic/packet.c:437-438", "picoquic/packet.c:1944-1950"]}
{"id": "C64", "title": "A new address receives at most three challenges, with delays, and then fails", "statement": "Each tuple of a path receives at most three PATH_CHALLENGE frames since its challenges were set: the second at least 250 ms after the first, the third at least two retransmission timers after the second, and it is marked as failed no sooner than four timers after the third. The array of challenges is never read out of bounds. No tuple is lost or reordered, except that a failed one becomes the last; only failed tuples other than the first are removed, after their demotion time. Each response answers a challenge of the peer, once. Full size packets are used only within the amplification limit. The endpoint wakes up no later than the next challenge.", "quantifier": "every path, every history of new tuples, answers, renewals, losses, preparations with any room at any time, and every change of the timer", "why_tests_cant": "needs all interleavings of timers, lost and late answers and full packets for several addresses of one path", "anchors": ["picoquic/paths.c:picoquic_prepare_tuple_challenge_frames", "picoquic/paths.c:picoquic_check_path_control_needed", "picoquic/paths.c:picoquic_delete_demoted_tuples", "picoquic/paths.c:picoquic_tuple_challenge_time", "picoquic/quicctx.c:picoquic_set_path_challenge"]}
{"id": "C65", "title": "A connection id written in hexadecimal is read back", "statement": "Printing a connection id either reports that the buffer is too small or writes exactly its digits in lower case and a final zero, within the buffer. Parsing accepts exactly the texts that spell 1 to 18 bytes in either case, and leaves the rest of the id at zero; every other text gives the empty id. What is printed is parsed back to the same id, and different ids have different texts.", "quantifier": "every id, every size of the buffer and every text", "why_tests_cant": "tests have four ids and one short buffer; other lengths, the two cases of the digits and malformed texts are not played", "anchors": ["picoquic/util.c:253-268", "picoquic/util.c:270-307", "picoquic/util.c:309-319"]}
{"id": "C66", "title": "The settings that an HTTP/3 endpoint writes are those that its peer keeps", "statement": "The settings of HTTP/3 are always written in a buffer of at least 64 bytes, and take at most 40 bytes within the buffer. A peer that reads them on a control stream, cut in any way, accepts them and keeps exactly the values given, and zero for the others. The first bytes of the control stream of an endpoint announce extended CONNECT, and datagrams and one session of web transport exactly if datagrams are enabled.", "quantifier": "all settings, all sizes of the buffer, all ways to cut the stream", "why_tests_cant": "tests compare one encoding with a reference; other values, sizes of buffers and cuts are not played", "anchors": ["picohttp/h3zero_common.c:1899-1940", "picohttp/h3zero_common.c:289-316"]}
{"id": "C67", "title": "Datagrams are sent whole, in order, within the packet and within the limit of the peer", "statement": "Whatever buffers the application asks for when it is polled for datagrams, nothing is written outside of the packet and the polling ends. If it asks for one at most in each callback, what is added to the packet is its datagrams, in order, each in a DATAGRAM frame, a frame without length being the last thing in the packet; none is empty or longer than the peer accepts, one that fits is sent, and the peer's application is given the same datagrams. A connection that is still ready has more_data set. Queued datagrams are at most 1200 bytes long, and are sent whole, in order and once.", "quantifier": "all packets, all applications (any sequence of calls, lengths, activity and errors), all limits, all queues and all sequences of packets", "why_tests_cant": "Which encoding is used, and how much padding, depends on the exact number of bytes left against the length asked for; tests use few sizes, one call for each callback and peers that accept everything.", "anchors": ["picoquic/frames.c:4547-4563", "picoquic/frames.c:5003-5203", "picoquic/sender.c:2724-2747", "picoquic/quicctx.c:4504-4550"]}
{"id": "C68", "title": "The list of frames waiting to be sent stays well linked, and its frames are sent whole, in order and once", "statement": "Whatever frames are queued and packets prepared, at whatever addresses memory is given, the doubly linked list of miscellaneous frames is linked both ways, ends where its last pointer says, and neither queuing, removing nor preparing uses released memory. A packet takes the frames of its context from the first, whole, as many as fit; those left and those of other contexts stay in order; it is a pure acknowledgement only if all frames are, and more_data is set if and only if a frame of the context is left.", "quantifier": "all lists, all memories, all histories of queuing and preparing packets, all contexts and rooms", "why_tests_cant": "A wrong link or a stale last pointer shows only when a frame is removed from the middle or the end and another is then queued, with frames of several contexts waiting; tests seldom have more than one frame waiting.", "anchors": ["picoquic/quicctx.c:4504-4589", "picoquic/frames.c:4547-4600"]}
