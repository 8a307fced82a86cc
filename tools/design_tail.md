
## Findings that are not theorems

Observed while modelling; outside of the statements or of the modelled code.

* Data is delivered to the application after a reset was signalled (frames.c 1190-1300).
* `picoquic_frames_cid_decode` on empty input reads the length byte (util.c 830-845);
  harmless when the announced length was 0.
* The hexadecimal text of a connection id of 19 or 20 bytes does not parse (util.c 309-319).
* `picoquic_decode_crypto_hs_frame` computes "last" after advancing (frames.c 2307).
* `picoquic_uint8_to_str`, `picohash_create_ex` (dereference before the NULL check).
* Remote unidirectional streams are never deleted (frames.c 116-146).
* A zero-length FIN on a local send-only stream is accepted.
* `picoquic_reset_stream` (sender.c 339): inverted test, uses `fin_offset`.
* A zero-length non-FIN STREAM frame at offset 0 acknowledges everything (frames.c 3437).
* `picoquic_delete_stream_if_closed` returns 0 when it frees a stream already closed
  (possible use after free at frames.c 1283-1296 and 1809).
* The sort value of the data repeat queue changes with time (frames.c 1893).
* `picoquic_connection_error` in states such as server_almost_ready records nothing.
* A FIN frame with data counts the stream as complete before its gaps are filled (1219-1223).
* `picoquic_discard_stream` uses IS_CLIENT instead of IS_LOCAL.
* MAX_STREAM_DATA, STOP_SENDING, STREAMS_BLOCKED errors do not stop the parsing.
* CRYPTO data at an epoch below the TLS read epoch is kept for ever; after a TLS
  failure the epoch loop goes on.
* The BDP frame uses a lifetime both as duration and as absolute time (6331, 6296).
* NEW_CONNECTION_ID without path id is accepted with multipath.
* PATH_CHALLENGE and PATH_RESPONSE are not counted as ack-eliciting.
* A malformed STREAM header, a truncated type, short ACK_FREQUENCY and TIME_STAMP
  frames end the packet without a connection error.
* Packet loop: hang when a RESET_STREAM frame does not fit (room 18 to 24) or when an
  active stream writes nothing (excluded by `calm` and `provides`).
* `initial_max_data` of the transport parameters overwrites `maxdata_remote`.
* A pure FIN is blocked by flow control; a reset requested after the stream left the
  output list is never sent.
* timing.c 245: inverted test of the period.
* `copy_stream_frames_for_retransmit` with a malformed frame abandons what was written.
* `picoquic_set_stream_priority` drops a stream whose limit was lowered.
* packet.c: `new_ctx_created` is never set; the reserved-bit check of
  `screen_initial_packet` is dead code; a coalesced Initial with another destination
  id creates a context and is then dropped.
* `server_encrypt_retry_token` checks text + 17 bytes but writes text + 24.
* The client does not check that the source id of a Retry differs.
* The result of `verify_proposed_tuple` is overwritten; `retire_acked` branches are dead.
* `process_lost_packet` ignores an error of `copy_before_retransmit`.
* Lost CONNECTION_CLOSE, IMMEDIATE_ACK, PING, BDP, OBSERVED_ADDRESS, PATH_ABANDON frames
  are always repeated.
* The return code of the reception of transport parameters is overridden with 0
  (tls_api.c 923).

* h3zero_common.c 1280-1298 with 1059-1090: on a CONNECT stream, a piece without body data
  (only the type and length of a DATA frame, an unknown frame, or the bare end of the
  stream) makes the server process the request again.  It logs a duplicate request, and
  then sends a HEADERS frame of length zero (01 40 00), since `ret = -1` is overwritten;
  the application is not told of a bare end of the stream.
* sender.c 325-350: `picoquic_reset_stream` answers ALREADY_CLOSED if the FIN was sent and
  the list of acknowledged ranges does not cover the stream; the test looks inverted.
* paths.c 196-214: in a packet with challenges only, the length is computed before the
  observed address frame is written after it; the frame is left out (or overwritten by the
  padding), although its count of repetitions and its time were updated.
* `is_nat_rebinding` (paths.c 59) is assigned nowhere; the branch without padding is dead.

