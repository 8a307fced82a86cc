# Formal model of picoquic in Rocq: design

Source modelled: `/repo` (picoquic, pinned commit), read as text.
Coq 8.16.1, files in `rocq/theories`, logical name `Verif`.
(This file is assembled by `tools/mkdesign.py` from `tools/design_head.md`, the
notes and the theorem files.)

## Method

* Each modelled C function becomes one total computable Gallina function.
  Every definition carries a comment with the file and line range it models and
  what was simplified.
* Bytes are `N` below 256, buffers are `list N`.  Pointers into a buffer become
  the remaining suffix of the list, so that a read past the end is a visible
  outcome (`None`, i.e. the C NULL return) or, where the C code would perform an
  unchecked read, a distinct `UB` outcome.
* Machine integers are `N` (or `Z`); when wrap-around can matter the
  `mod 2^64` is written explicitly.
* Loops run on fuel; running out is a distinct outcome, which a theorem excludes
  (or which the theorem about an endless loop is about).
* Model files (`X_model.v`) contain definitions only, `X_spec.v` the small
  specification vocabulary, `X*_proofs.v` lemmas, and `P_*.v` only the property
  theorems (each closed by `exact lemma`), a satisfiability example beside each,
  and `Print Assumptions`.
* Statements use their own vocabulary (sets of numbers, byte sequences, sums,
  histories), not the model's helper functions.
* If the property is false of the code, a `..._refuted` theorem gives a
  concrete witness, and the strongest true variant is proved beside it
  (suffix `_partial` if less than the full property).

## What is modelled and how it is proved

| id | modelled code | proof method |
|----|---------------|--------------|
| C01, C02, C36 | frames.c 1051-1342 and the chunk tree: stream reassembly, direct delivery, callbacks, splitting of received packets (memory addresses in `Mem`) | invariant over all frame histories, refinement to "longest covered prefix" |
| C03 | sender stream queue, frame formatting, retransmission, decoding, C01 model, network of whole packets | invariant of the composed transition system |
| C04, C05 | sacks.c: list update, query, acknowledged ACKs | refinement to a set of numbers; witness for C05 |
| C06, C07 | frames.c: ACK writer 3815-3956, header parser, range walk, retransmit queue | induction over ranges |
| C08 | both varint codecs (intformat.c, util.c) | case analysis on the four lengths, arithmetic |
| C09 | packet.c 491-514, sender length choice | linear arithmetic over N with explicit window |
| C10, C11, C33 | frames.c: writers, decode_frames dispatch, skippers | per-frame lemmas, induction on payload length |
| C12, C14, C15, C21 | receive flow control, stream creation, limit frames, final sizes | invariants over histories |
| C13, C37-C41 | sender.c and frames.c: stream queue, output list, stream frames, packet loop, STOP_SENDING | invariants over histories, measures for termination |
| C16 | picosplay.c as a functional tree with zipper rotations | in-order sequence preservation |
| C17 | picohash.c | refinement to a list of items |
| C18 | pacing.c | potential argument over all runs |
| C19 | frames.c 1877-2245, retransmission splitter and data repeat queue | induction over pieces and queues |
| C20, C47 | loss_recovery.c / frames.c: needs-repeat decisions, acknowledgements of frames | per-frame case analysis, induction over payloads, refutation witnesses |
| C22, C23, C44 | packet.c: datagrams of unknown connections, stateless resets, screening, segments | case analysis, induction over coalesced segments |
| C24, C25 | token_store.c | invariants over histories; codec lemmas |
| C26 | picoquic_lb.c, the block cipher abstract | xor algebra |
| C27 | port_blocking.c | induction on the list |
| C28, C29 | RTT estimator, retransmission timers, newreno.c | invariants |
| C30, C31 | quicctx.c, paths.c: remote id stash, challenges, tuples | invariants over histories |
| C32, C42 | packet headers, header protection, packet protection (ciphers abstract) | codec lemmas |
| C34 | CRYPTO stream and tls_stream_process, TLS abstract | same refinement as C01 |
| C35 | transport.c, version upgrade | codec lemmas, exact characterisation of the accepted blocks |
| C43, C46 | tls_api.c 2693-2890: address validation tokens, Retry | codec lemmas, registry histories |
| C48 | packet.c 622-758, tls_api.c 1516-1600, quicctx.c 4740-4761: key updates at both ends, AEAD ideal | invariant over all histories, simulation for forged packets, witnesses |
| C49 | packet.c 1369-1480, 1731-1851, 2048-2396, sender.c 2152-2545, 2920-3237, 3722-4080: sizes and states of a server, TLS and formatting as inputs | invariant and potential over all histories, witnesses |
| C50 | loss_recovery.c 173-225, 297-663, 934-968, 1029-1073, frames.c 2919-2995, 3593-3812, sender.c 934-963, 1071-1103: one number space in state ready, result of the copies as input | invariant over all histories of sends, ACK frames and polls; witnesses |
| C51 | frames.c 2719-2875, 3815-3956, 4008-4110, 5231-5346, sacks.c 258-294, 347-380, packet.c 636-643, 1973-1976, 2297-2300, sender.c 3305-3372, quicctx.c 2681-2691, 4070-4082: one path, state ready | invariant over all histories of packets, polls, acknowledged ACKs and new estimates; witnesses |
| C52 | frames.c 1344-1416, 1562-1863, quicctx.c 3299-3449, 3451-3508, transport.c 578-661, sender.c 137-424: the scheduling part of the sending side model; no path affinity | every event decomposed into elementary changes; sorted list, and every permitted unexhausted stream listed, as invariants per elementary change; completeness of a raised limit; last service time by the history of packets; witnesses |
| C53 | sender.c 1467-1570, 3541-3555, loss_recovery.c 693-704, 876-897, frames.c 2536-2542, 3625-3633, 4755-4775, quicctx.c 2669-2678: path MTU state with the packets in flight and those declared lost; UB of the zero fill as distinct outcome | invariants per event over all histories; potential (rank of the remaining sizes) for the number of lost probes; finite classification of the states of the search for its result; computed witnesses |
| C54 | picoquic.h 165-186, quicctx.c 4695-4738, sender.c 2302-2541, 3679-3795, 3866-4126, frames.c 4116-4200, 6377-6662, 6975-6998, packet.c 889-957, 1369-1992, 2285-2305, transport.c 848-856: the twenty states, error and close fields, timers; packets as lists of frames; results of TLS as inputs | case analysis of each event in each state (by computation), induction over runs with invariants and potentials, induction over the frames of a packet; computed witnesses |
| C55 | picohttp/h3zero.c 103-166, 172-272, 334-667, 704-1003, 1140-1787, h3zero.h 184-195: integers, static table, Huffman tables and decoder, parser and writers of header blocks; pointers into the frame and copies are lists, allocation never fails | relation for representations (both directions); the code of RFC 7541 built from its lengths in the specification, tree checked node by node by computation and the decoder shown equal to a walk over bits; induction over lines with an invariant relating fields to parts; writers shown to write lines of the specification; computed witnesses |
| C56 | picohttp/h3zero_common.c 140-147, 622-801, 1217-1298, 1311-1372, h3zero.c 52-77, h3zero.h 260-283: the state of a data stream, its parser (the buffer of frame headers is 16 bytes of memory, an access outside is undefined), the loops of servers and clients; callbacks, files and flow control are events or left out | a machine that takes one byte at a time; invariant between its position and the state of the code (left-over bytes in the buffer included); every call of the parser is shown to be some steps of the machine (H3b, H3c), so pieces are a run of the machine over their concatenation (H3d); the machine is compared with frames and messages of the specification in both directions (H3d, H3e); reports of clients by an invariant on the header (H3f) |
| C57 | h3zero_common.c 342-607 (frame content, control stream, session number, bidirectional and unidirectional streams of the peer), 845-875 (what is done with a piece, without FIN), 1933-1966 (settings), h3zero.c 1036-1062 (number from a stream) | a machine that takes one byte at a time; the parser, called with any piece, does what the machine does with its bytes (invariant between the state of the stream and the position of the machine, induction on the fuel of the loop); frames and settings as inductive relations; every byte string is a sequence of acceptable frames followed by an incomplete or a refused one. Not modelled: FIN, logging, the lookup of prefixes (any predicate) |
| C58 | h3zero_common.c 1995-2090 (accumulation of a capsule), h3zero_common.h 141-160, webtransport.c 278-362 (close and drain messages), 371-416 (capsules received) | a machine that takes one byte at a time, as for C57; number of bytes to copy computed modulo 2^64, copies outside of a buffer or of more bytes than there are undefined; every byte string is the beginning of a capsule, refused, or an accepted capsule followed by bytes. Any predicate says which allocations succeed. Not modelled: what is done with datagrams, the queueing of the messages on the stream, FIN, logging |
| C59 | h3zero_uri.c 120-316 (all functions), wt_baton.c 550-578 (parameters of a request) | queries as inductive relations (components, first value of a name, escapes); search by induction on the components, with the invariant that begin_index is at the start of one; decoding by induction on the escapes, converse by induction on the fuel; arithmetic of 8 and 64 bits with wrap |
| C60 | quicctx.c 1295-1490 (list, wake tree, earliest, delays), 3845-3895 and 4775-4868 (the lists in creation and deletion), sender.c 4162-4208 (polls), on the splay tree of C16 | the live connections in the order in which their times were set, as an inductive relation on histories; invariant: the tree is ordered, a permutation of them, and equal on each time; starvation by induction on the connections before one |
| C61 | quicctx.c 3577-3822 (local connection ids, without multipath lists), 1143-1157 and 4910-4933 (table by id, as a map, see C17), sender.c 2543-2605 (new ids as needed), frames.c 384-410 (size of the frame), 691-722 (RETIRE_CONNECTION_ID) | invariant on histories: ids sorted by number and time, counts, retire_before and the age of what is below it, oldest time, table = ids; loop of expiry and loop of creation by induction; undoing a creation for lack of space gives back the same ids, number and table; ints with overflow as undefined |
| C62 | bytestream.c 28-437 (byte streams of the binary logs; allocation and clearing left out, size_t of 64 bits), intformat.c 27-58, 90-162 | a writer of a layout as a predicate closed under `ret \|=`, series by induction; a reader of a layout as a predicate (finds exactly that layout), determinism of layouts, hence the round trip; loads and stores outside of the data are undefined outcomes |
| C63 | spinbit.c 30-83, quicctx.c 810-835, 3955-3966, 4278-4281 (policies), sender.c 658-672 and packet.c 437-438 (first byte), packet.c 1944-1950 (every decrypted packet); a network of two endpoints with one path, losses and reordering | invariant: the list of values around the loop has exactly one change (removal of an element does not add a change, an odd number remains); shares by complete enumeration of the random bytes; a call out of the table is undefined |
| C64 | paths.c 33-138, 236-325 (challenges, their times, demotion, selection), quicctx.c 1575-1618 (list of tuples), 1957-1989 (renewal), frames.c 4655-4675, 4720-4775 (challenge and answer of the peer), loss_recovery.c 465-477 (failure after losses); one path, times and room as inputs | the events of each tuple since its challenges were set are kept in a log; invariant that links the count and the time of a tuple with its log; measure of what remains to be sent for progress; a read out of the array is undefined |
| C65 | util.c 253-319 (printing and parsing of connection ids; the reading of digits is shared with the load balancer configuration, C26) | the spelling of bytes as an inductive relation; the loop of the parser decides it; nibbles by complete enumeration; a read out of the table and a write past the buffer are undefined |
| C66 | h3zero_common.c 1899-1940 (writing of settings, the length written twice in place) and 289-316 (first bytes of the control stream); the peer is the parser of C57 | writers chained as in the frames; the content is a list of pairs in the sense of C57, whose theorem on accepted control streams gives the values kept |
| C67 | frames.c 5003-5203 (the buffer given to the application, the frame on demand, the queue), 4547-4563, quicctx.c 4504-4550, sender.c 2724-2747 (the loop); the packet is a memory in which a write outside is a distinct outcome; the application is any sequence of answers, which writes all of what it asked for and does not call picoquic_mark_datagram_ready from the callback; memory is assumed available | prefixes of the memory after each write; induction on the loop; the peer is the dispatcher of frames of C10 |
| C68 | quicctx.c 4504-4589 (creation, queuing, removal and purge of frames, with both links and both ends), frames.c 4547-4600 (search, one frame, all frames of a context); memory is a partial map from addresses, use of an address that is not allocated is a distinct outcome; malloc gives any address not in use, or fails | refinement of the linked memory to a list of contents, segment by segment; induction on the packet and on the history |
| C45 | version negotiation | characterisation of decisions |

## Trusted base

* Coq's kernel and `vm_compute`.
* The hand translation from C to Gallina; each definition cites the lines it models.
* Assumptions: `Print Assumptions` is run beneath every theorem; the result of each is
  in the table "Theorems" below.
* The reading of the C standard used for the translation: two's complement fixed-width
  integers, defined unsigned wrap-around, a flat address space for the pointer
  comparisons of the datagram functions and of the writers (`bytes + n > bytes_max`
  is taken as a comparison of offsets), 64-bit `size_t`, little-endian integers in
  the token file.

Hypotheses that stand for code that is not modelled:

* ciphers: C42 takes the AEAD and the header-protection mask as parameters
  (`ciphers_ok`: decryption undoes encryption); C43 takes the token cipher
  (`aead_ok`, and `bound_to` for the at-most-once theorem); C22, C23, C44 take them
  in an environment (`env_ok`, `tokens_ok`); the Retry integrity tag of C45/C46 is a
  deterministic function of 16 bytes; C26 takes any block cipher;
* TLS: C34 takes any TLS stack, C35 only the bytes that it carries;
* randomness: C30 assumes that challenges are all different and not guessed;
* arithmetic: C28 and C29 exclude sums that overflow 64 bits; the double
  computation of `picoquic_cc_update_cwin_for_long_rtt` is an integer division;
  the rates of C18 are inputs; C31 bounds active_connection_id_limit by 2^31;
* applications: callbacks do what the respective record says (`provides`, `calm`).

Not modelled: memory allocation failure, TLS and AEAD internals, sockets and the
packet loop threads, logging, BBR, Cubic and the other congestion controllers than
NewReno, the performance log, HTTP/3 and the sample programs.

## Properties

### C01 Stream bytes are delivered in order, exactly once, without gaps

If all STREAM frames that reach one stream carry slices of one byte sequence, then the concatenation of the data passed to the application callback is, after every frame, exactly the longest prefix of that sequence that is covered by the frames received so far.

Status: proved. All histories on all streams; the exact statement for streams that are not reset and whose data the application did not refuse, the prefix statement without any such condition.

Theorems (P_Stream.v): `C01_exact_prefix`, `C01_always_prefix`

### C02 End of stream is signalled exactly once and only after the last byte

The application receives the stream_fin event at most once per stream, never before all bytes up to the announced final size were delivered, and does receive it as soon as the FIN frame and all bytes are in.

Status: proved. Exact condition for streams that are not reset; at most once and last for every history.

Theorems (P_Stream.v): `C02_fin_exact`, `C02_fin_once_and_last`

### C03 End-to-end stream integrity over an adversarial network

Whatever packets are lost, duplicated, reordered or retransmitted, the bytes delivered to the receiving application on a stream are always a prefix of the bytes that the sending application queued with picoquic_add_to_stream, and once every byte has been carried by some delivered packet the receiver has all of them and the FIN.

Status: proved. Composition of the sending, repetition, decoding and receiving models over a network that loses, duplicates and reorders whole packets. Prefix statement for every history; exact statement and FIN for streams that are not reset or refused, whose application writes nothing after the end, while the receiver raised no error. Packet protection is not modelled; the stream table used to decide what to repeat is arbitrary. The FIN of a frame without data can be lost for ever (C19_fin_lost_refuted), so C03_kept is about bytes.

Theorems (P_Net.v): `C03_prefix`, `C03_exact`, `C03_fin`, `C03_kept`, `C03_defined`

### C04 The record of received packet numbers is exact

After any history of recorded packet numbers, asking whether a number was received answers yes exactly for the numbers recorded, and the stored ranges are sorted, disjoint and never adjacent.

Status: proved. All histories of recorded ranges, ACK transmissions and acknowledged ACKs, with no horizon configured (the library never sets one).

Theorems (P_Sack.v): `C04_record_exact`, `C04_ranges_separated`, `C04_never_invents`, `C04_highest_kept`, `C04_duplicate_report`, `C04_counters_exact`

### C05 A packet number already processed is never accepted again

Once a packet was accepted, a replay of the same packet number in the same number space is reported as duplicate, also after the peer acknowledged our acknowledgements.

Status: partial. Full statement: a number accepted once is never accepted again. Proved as long as no acknowledged ACK covers the number (C05_no_reaccept_partial); false otherwise, ranges covered by acknowledged ACKs are forgotten (C05_replay_refuted).

Theorems (P_Sack.v): `C05_no_reaccept_partial`, `C05_replay_refuted`

### C06 An ACK frame never acknowledges a packet that was not received

The set of packet numbers that a peer decodes from an ACK frame built by the library is contained in the set of recorded packet numbers, contains the largest one, and the frame fits in the space offered.

Status: proved. Single path with or without ECN and multipath without ECN. False for multipath with ECN when the counters do not fit (C06_path_ack_ecn_refuted).

Theorems (P_Ack.v): `C06_ack_frame_sound`, `C06_all_ranges_named`, `C06_sending_is_history`, `C06_peer_releases_received`, `C06_path_ack_ecn_refuted`

### C07 Received ACKs release exactly the packets they name

Processing an ACK frame removes from the retransmission queue exactly the outstanding packets whose numbers lie in the ranges of the frame; a frame that names a number never sent, or whose ranges go below zero, is rejected as an error.

Status: partial. Exact for frames that raise the highest acknowledged number, which is the case that releases packets; every frame releases only packets it names; malformed frames and unsent numbers are errors. Missing: frames that do not raise the highest acknowledged number, for which the statement is false (C07_old_ack_refuted).

Theorems (P_Ack.v): `C07_releases_exactly`, `C07_releases_only_named`, `C07_accepted_is_well_formed`, `C07_unsent_rejected`, `C07_trap_rejected`, `C07_old_ack_refuted`

### C08 Variable-length integers round-trip and parsing stays in the buffer

Every value below 2^62 encodes in the shortest of 1, 2, 4 or 8 bytes when there is room, decodes to itself consuming the same bytes, and decoding or skipping any byte string never reads past its end.

Status: proved. Both codecs, all values below 2^62; values of 2^62 and above are shown to be silently altered (C08_large_values_refuted).

Theorems (P_Varint.v): `C08_encode_shortest`, `C08_round_trip`, `C08_decode_exact`, `C08_decode_in_bounds`, `C08_skip_exact`, `C08_codecs_agree`, `C08_second_decode`, `C08_large_values_refuted`, `C08_two_bytes`

### C09 Truncated packet numbers are restored exactly

When the true packet number is within half the encoding window of the next expected one, decoding its truncated form gives the true number; and the number of bytes that the sender uses for a packet guarantees this for every receiver state consistent with the acknowledgements received.

Status: partial. Receiver: exact for all lengths. Sender: sufficient while the run of unacknowledged numbers stays below the 4-byte window and the header length is computed for the same connection id (C09_long_loss_run_refuted, C09_cid_length_mismatch_refuted show the two exceptions).

Theorems (P_PacketNumber.v): `C09_restore_exact`, `C09_sender_length_sufficient`, `C09_long_loss_run_refuted`, `C09_cid_length_mismatch_refuted`

### C10 Frame skipping is memory safe and always progresses

For any payload, the frame skipper either reports an error or consumes at least one and at most the available number of bytes, reads only inside the payload, and hence a walk over the payload terminates.

Status: proved. Every byte string: skip_frame, the closing-frame walk and the dispatcher of decode_frames; skipping ends where decoding ends when multipath and address discovery are negotiated (C10_skip_agrees_refuted shows the exception). Pointer sums in the datagram functions are taken on flat addresses.

Theorems (P_Frames.v): `C10_skip_safe`, `C10_walk_terminates`, `C10_dispatch_terminates`, `C10_skip_agrees`, `C10_skip_agrees_refuted`

### C11 Frames are only processed in packet types where they are permitted

A frame whose type is forbidden in the encryption level of its packet is never handed to its handler: the packet processing stops with a connection error.

Status: proved. All types and all four epochs, the processing of the frames being abstract; C11_unnegotiated_refuted: a frame of an extension that was not negotiated raises the error but its body is then parsed as frames.

Theorems (P_Frames.v): `C11_only_permitted`, `C11_forbidden_stops`, `C11_forbidden_stops_later`, `C11_unnegotiated_refuted`

### C12 Incoming data never exceeds the advertised flow-control limits

If a STREAM or RESET frame would bring the stream beyond its advertised limit or the connection beyond its advertised total, it is refused with a flow-control error; otherwise the accounted connection total equals the sum over streams of the highest offset seen.

Status: proved. All histories on all streams. The sum counts, for a stream that was deleted, the highest offset up to its deletion.

Theorems (P_StreamLimits.v): `C12_stream_within_limit`, `C12_total_is_sum`, `C12_connection_within_limit`, `C12_stream_refused`, `C12_reset_refused`, `C12_stream_accepted`

### C13 The sender never exceeds the peer's flow-control limits

Stream data emitted for the first time never passes the peer's stream limit nor the connection limit, at any time in any execution.

Status: proved. All histories of first transmissions on all streams. Both limits are computed from the announcements alone. Retransmissions carry bytes already counted and are not modelled here.

Theorems (P_Send.v): `C13_stream_limit`, `C13_connection_limit`

### C14 Flow-control and stream-count credits never shrink

Reordered or repeated MAX_DATA, MAX_STREAM_DATA and MAX_STREAMS frames never lower a limit: after any history the limit equals the largest value seen.

Status: proved. All histories; ranks of MAX_STREAMS as they can be encoded (below 2^62). MAX_STREAMS with rank 0 ends the history with an error and raises the limit (C14_max_streams_zero_refuted).

Theorems (P_StreamLimits.v): `C14_connection_credits`, `C14_stream_credits`, `C14_max_streams_zero_refuted`

### C15 The peer cannot open more streams than allowed

A frame for a peer-initiated stream above the advertised limit is refused with a stream-limit error, frames for unopened local streams with a stream-state error, and otherwise all lower streams of the type exist afterwards, each created once.

Status: partial. Proved except for the error code of unopened local streams, which is the stream-limit error and not the stream-state error (C15_local_stream_error_refuted). Found: clients refuse the last advertised stream (C15_client_limit_refuted); a limit of zero streams is not enforced (C15_zero_limit_refuted).

Theorems (P_StreamLimits.v): `C15_opened_streams`, `C15_unopened_refused_partial`, `C15_local_stream_error_refuted`, `C15_client_limit_refuted`, `C15_zero_limit_refuted`

### C16 Splay trees behave as ordered multisets

After any sequence of insertions, lookups and deletions the tree holds exactly the inserted and not deleted items, in order; lookups return an item equal to the key iff one is present, and find-previous returns the largest item not above the key.

Status: proved. All histories, every comparator; the comparators of the library are shown to be comparators on their domains (values below 2^62 for the subtracting ones, C16_sub_compare_refuted shows the bound is needed). Nodes are locations in a tree, not heap cells.

Theorems (P_Splay.v): `C16_history`, `C16_find`, `C16_find_previous`, `C16_walk`, `C16_comparators`, `C16_sub_compare_refuted`

### C17 The hash table behaves as a map

A lookup returns an inserted, not deleted item with an equal key whenever one exists and nothing otherwise, for every hash function and number of bins.

Status: proved. All legal histories, every compatible hash function and key equality, every bin count; the most recent item with an equal key is returned.

Theorems (P_Hash.v): `C17_lookup`, `C17_found_iff`, `C17_live_inserted`

### C18 Pacing bounds the bytes sent in any interval

With unchanged pacing parameters, the credit never exceeds the bucket, and the bytes authorised over any time interval are at most the burst allowance plus one packet plus the rate times the interval.

Status: proved. pacing.c modelled with the rates as integer parameters; the computation of the rates (floating point, picoquic_update_pacing_rate/parameters) is a parameter of the model except the small-window branch. C18_zero_rtt_refuted is a finding: a smoothed RTT of 0 stops paced sending for ever. Changes of parameters are covered by C18_changes and C18_rate_across_changes, with the two floating point results as arbitrary inputs.

Theorems (P_Pacing.v): `C18_bucket`, `C18_interval`, `C18_wait`, `C18_changes`, `C18_rate_across_changes`, `C18_zero_rtt_refuted`

### C19 Retransmitted stream data is the data originally sent

When a STREAM frame from a lost packet is split over new packets of any sizes, the pieces carry the same bytes at the same offsets, cover the whole frame, and FIN is set exactly on the piece that ends the frame if the original had it.

Status: partial. Pieces, queue conservation, readability and draining are proved for all queues, rooms, insertion positions and stream tables. Missing from the full statement: the FIN of a frame without data when the packet has no room for it; C19_fin_lost_refuted shows the code drops it (frames.c 2080-2084, 2129).

Theorems (P_Repeat.v): `C19_pieces`, `C19_queue`, `C19_enqueue`, `C19_drains`, `C19_fin_lost_refuted`

### C20 Every lost control frame is repeated until acknowledged or obsolete

A frame whose loss would leave the peer without information that is still needed (RESET_STREAM, MAX_PATH_ID, MAX_DATA, ...) is reported as needing repetition after loss.

Status: partial. All frames the library writes, on any consistent connection (distinct streams, paths and ids; separated ranges): those that carry outstanding information are reported (C20_checked_partial), only those (C20_exact_partial, for frames sent earlier), copied or queued when a packet is lost (C20_packet_partial) and repeated when the packet is repeated preemptively (C20_preemptive_partial). Not so for RESET_STREAM, MAX_PATH_ID, PATHS_BLOCKED, ACK_FREQUENCY and PATH_RESPONSE: five _refuted theorems. Datagrams and packet-level bookkeeping of loss_recovery.c are not modelled here.

Theorems (P_Needs.v): `C20_checked_partial`, `C20_exact_partial`, `C20_packet_partial`, `C20_preemptive_partial`, `C20_reset_refuted`, `C20_max_path_id_refuted`, `C20_paths_blocked_refuted`, `C20_ack_frequency_refuted`, `C20_path_response_refuted`

### C21 The final size of a stream never changes and bounds the data

Once the final size is known by FIN or RESET_STREAM, any later frame that contradicts it is refused with a final-size error, and the final size is never below data already received.

Status: partial. Proved once a FIN was received, and for RESET_STREAM after RESET_STREAM. Missing because false: STREAM frames after RESET_STREAM (C21_data_after_reset_refuted) and final sizes below received data (C21_fin_below_data_refuted, C21_reset_below_data_refuted).

Theorems (P_StreamLimits.v): `C21_final_size_constant_partial`, `C21_stream_after_fin_partial`, `C21_reset_after_final_partial`, `C21_data_after_reset_refuted`, `C21_fin_below_data_refuted`, `C21_reset_below_data_refuted`

### C22 Stateless resets are smaller than their trigger and fit the buffer

A stateless reset sent in response to a packet is strictly shorter than that packet, at least 39 bytes, ends with the 16-byte secret and is written inside the packet buffer; resets are at least the configured interval apart.

Status: partial. Shape, size, interval over all histories. The buffer bound holds for datagrams that fit it; C22_oversize_refuted: a datagram longer than 1537 bytes makes the reset overflow the packet buffer (picoquic's own socket code never delivers one).

Theorems (P_Segment.v): `C22_shape`, `C22_interval`, `C22_oversize_refuted`

### C23 Connection attempts are screened before any state is created

A connection context is created for an unknown Initial packet only if the datagram has at least 1200 bytes, the destination id is long enough, the server is not busy, the packet decrypts, and, whenever address validation is required, the packet carries a valid token; otherwise nothing is created.

Status: proved. Ciphers and tokens are parameters (env_ok). C23_create bounds the datagram by the decryption buffer (1536 bytes); see C42_oversize_refuted. The registry and the tables of connections are arbitrary.

Theorems (P_Segment.v): `C23_create`, `C23_count`, `C23_accept`, `C23_token`

### C24 Client tokens are used at most once and only while valid

The token store only returns tokens that were stored for the same server name (and address if given), that have not expired, and that were not already handed out for use.

Status: partial. Every history of store, get, save, load and new context from the empty store: handed-out tokens were accepted for the same name (and address) less than a day before. At most one use per acceptance, if no file is loaded that is older than the last use; C24_reload_refuted shows that loading an old file in the same context allows a second use. Files written by other programs are outside these histories (C25_load_safe covers their safety).

Theorems (P_Token.v): `C24_defined`, `C24_valid`, `C24_once_partial`, `C24_reload_refuted`, `C24_exact`, `C24_reachable`, `C24_available`

### C25 Stored tokens survive serialization

Deserializing a serialized token gives back the same token and consumes the whole record; deserializing arbitrary bytes never reads outside them.

Status: proved. Exact round trip for every token whose strings are not all empty (C25_empty_refuted for that case), safety for arbitrary bytes and arbitrary files, exact save/load for records up to 2016 bytes (C25_file_refuted above that).

Theorems (P_Token.v): `C25_round_trip`, `C25_empty_refuted`, `C25_safe`, `C25_malformed_refuted`, `C25_load_safe`, `C25_file`, `C25_file_refuted`

### C26 Load-balancer connection ids decode to the configured server id

For each of the three methods, every connection id generated under an accepted configuration decodes at the load balancer to the configured server id, for any key and nonce, and configuration never writes outside its structures.

Status: partial. All three methods, any cipher, any random value: ids decode to the configured server id, are distinct for distinct nonces, and the text parser is safe and exact. Missing: the clear method accepts server ids longer than the 16-byte array (C26_config_overflow_refuted), the id length can be changed after configuration (C26_length_change_refuted), and an unterminated text is read one byte too far (C26_parse_unterminated_refuted).

Theorems (P_Lb.v): `C26_decodes`, `C26_stays_decodable`, `C26_distinct`, `C26_config_safe_partial`, `C26_config_overflow_refuted`, `C26_length_change_refuted`, `C26_parse_safe`, `C26_parse_unterminated_refuted`, `C26_parse_round_trip`

### C27 Blocked ports are exactly the listed ones

The port filter answers blocked exactly for the ports of the published list.

Status: proved. The loop is exact for every decreasing list; the actual list is decreasing and is the published one.

Theorems (P_Ports.v): `C27_sorted_list`, `C27_published`, `C27_address`

### C28 RTT estimates stay inside the observed samples and timers stay bounded

The smoothed RTT always lies between the smallest and the largest RTT sample, the minimum never exceeds a sample, and the retransmission delay grows with the number of consecutive timeouts up to its cap.

Status: partial. The claims about the smoothed estimate and the minimum are proved in full (from the raw times observed, with the correction for the delay of the peer), for sums that do not overflow 64 bits. The growth of the retransmission delay is proved for every path that is not a long one and from the first timeout on (C28_backoff, C28_backoff_strict, C28_handshake*), with its caps; it is refuted for long paths (C28_long_path_refuted: 1.575 s to 0.93 s), for the first timeout with a short idle timeout (C28_short_idle_refuted) and for many timeouts of a handshake with a long idle timeout (C28_shift_refuted). The replacement of the timer in packet.c 2289 is not modelled.

Theorems (P_Rtt.v): `C28_smoothed`, `C28_sample`, `C28_minimum`, `C28_timer`, `C28_backoff`, `C28_backoff_strict`, `C28_cap`, `C28_idle_cap`, `C28_handshake`, `C28_handshake_cap`, `C28_handshake_long`, `C28_long_path_refuted`, `C28_short_idle_refuted`, `C28_shift_refuted`

### C29 The congestion window never collapses below the minimum

Under NewReno the congestion window is at least two full-size packets after any sequence of notifications, and after a congestion event is at most half the previous window or the minimum; in congestion avoidance it grows by one packet for each window of bytes acknowledged; delays end slow start only after repeated measurements that exceed others by a quarter.

Status: proved. Packets of at most 1536 bytes and fewer than 2^62 bytes reported in total (otherwise the 64-bit additions wrap). The truncated double computation of picoquic_cc_update_cwin_for_long_rtt is modelled by the integer division. C29_undo_refuted shows that undoing a reduction at the minimum doubles the window.

Theorems (P_Reno.v): `C29_minimum`, `C29_halved`, `C29_once_per_round`, `C29_growth`, `C29_avoidance`, `C29_delay`, `C29_undo`, `C29_undo_refuted`

### C30 A path is validated only by an answer to its own challenge

A tuple is marked as verified only when a PATH_RESPONSE carrying a challenge value that was actually sent on it is received.

Status: proved. Validation of tuples (quicctx.c, paths.c, frames.c 4720-4790), for any history of NEW_CONNECTION_ID frames, migrations, probes, challenges and answers, with and without multipath. Challenges are random: the theorem assumes that they are all different and that an answer repeats a challenge sent earlier on some tuple; C30_unsent_refuted shows that without the second assumption values that were never sent are accepted. Times, addresses and the anti-amplification limit are not modelled.

Theorems (P_Cids.v): `C30_validated`, `C30_unsent_refuted`

### C31 Peer connection ids are stored consistently and retired ones never come back

For any sequence of NEW_CONNECTION_ID frames the store never holds two different ids for one sequence number nor one id under two numbers, conflicting frames raise a protocol error, ids below the highest Retire Prior To are refused, and the store never exceeds its limit.

Status: partial. Consistency, limits, the outcome of a frame and the one-tuple rule are proved for all histories. The claim that retired ids never come back is false (C31_below_refuted, C31_reused_number_refuted); memory safety holds without multipath when retired ids do not come back (C31_safe) and fails otherwise (C31_safe_refuted, C31_multipath_*_refuted).

Theorems (P_Cids.v): `C31_consistent`, `C31_frame`, `C31_limit`, `C31_one_tuple`, `C31_retire_prior_to`, `C31_safe`, `C31_safe_refuted`, `C31_below_refuted`, `C31_reused_number_refuted`, `C31_multipath_full_refuted`, `C31_multipath_null_refuted`, `C31_multipath_dangling_refuted`, `C31_deleted_tuple_refuted`, `C31_no_migration_refuted`, `C31_demoted_refuted`

### C32 Packet headers round-trip

A header produced by the sender is parsed by the receiver into the same packet type, version, connection ids, token, payload length and packet number position.

Status: proved. All packet types with a packet number, Retry and short headers, every version of the table, with the exact bytes on the wire (C32_wire). The sender's ids have at most 20 bytes and the proposed version is the one of the version index. The short header needs the receiver to use ids of the length of the one in the packet (see C09 for the prediction when lengths differ).

Theorems (P_Header.v): `C32_wire`, `C32_long`, `C32_retry`, `C32_short`, `C32_predicted`, `C32_predicted_short`, `C32_safe`

### C33 Control frames round-trip

Each control frame written by the library decodes to the values it was built from, and skipping it consumes exactly its length.

Status: proved. All control frames the library writes except ACK (C06) and STREAM (C03), any sequence of them, any room. Exceptions proved: two PATH_ABANDON reasons, BDP with an empty address, IMMEDIATE_ACK as last frame.

Theorems (P_Frames.v): `C33_round_trip`, `C33_written_if_room`, `C33_skip_exact`, `C33_abandon_reason_refuted`, `C33_bdp_empty_refuted`, `C33_last_immediate_ack_refuted`

### C34 Handshake bytes reach TLS in order and unaltered

For each encryption level, the data passed to the TLS stack is exactly the longest contiguous prefix of the peer's CRYPTO data received so far, each byte once.

Status: proved. The TLS stack is an arbitrary record parameter (any state type, any read epoch, any reaction to bytes). C34_always_prefix holds for every TLS stack; C34_exact needs a TLS stack that never goes back an epoch and never stops early without an error. Connection resets (Retry, version negotiation) start a new history.

Theorems (P_Crypto.v): `C34_always_prefix`, `C34_exact`, `C34_bounded`

### C35 Transport parameters round-trip and malformed ones are refused

The parameters sent by one endpoint are read back by the other with the same values, and a parameter block with out-of-range or duplicated values is refused.

Status: partial. Proved: what is sent is accepted and read back with equal values (C35_round_trip, for parameters in range and equal ports of the preferred addresses), always fits in the buffer (C35_fits), valid blocks are accepted with their values (C35_accepted), the accepted blocks are characterised exactly (C35_accepted_iff), other blocks close the connection except for impossible version upgrades (C35_refused_partial), and both endpoints agree on what is negotiated (C35_agreement). False of the code and refuted: duplicates of types above 63, several out-of-range numbers, the IPv6 port, a limit of 0 ids, an endless loop and a silently ignored failure in the version upgrade.

Theorems (P_Tparam.v): `C35_round_trip`, `C35_fits`, `C35_accepted`, `C35_accepted_iff`, `C35_refused_partial`, `C35_agreement`, `C35_duplicate_refuted`, `C35_exponent_refuted`, `C35_ack_delay_refuted`, `C35_cid_limit_refuted`, `C35_streams_refuted`, `C35_datagram_refuted`, `C35_streams_zero_refuted`, `C35_preferred_empty_refuted`, `C35_port_refuted`, `C35_limit_zero_refuted`, `C35_hang_refuted`, `C35_silent_refuted`

### C36 Stream reassembly is safe and bounded for hostile input

No sequence of STREAM, RESET_STREAM or other frames makes the reassembly of stream data access memory out of bounds or loop, and the bytes kept for reassembly never exceed the credit advertised to the peer, per stream and in total.

Status: proved. Memory accesses are those of the chunk copies and splits; the tree of chunks is represented by its in-order sequence.

Theorems (P_Stream.v): `C36_reassembly_defined`, `C36_buffers_bounded`

### C37 Filling a packet with stream frames always ends

Filling a packet with stream frames ends after a number of turns bounded by the size of the packet and the number of streams, without dereferencing a null pointer and without writing past the packet.

Status: partial. Proved for every reachable state that is calm: no stream reset while marked active, no reset together with STOP_SENDING, streams within the announced counts, error codes below 2^30. Missing because false: C37_reset_active_refuted, C37_discard_refuted, C37_lower_limit_refuted show endless loops.

Theorems (P_Send.v): `C37_ends_partial`, `C37_reset_active_refuted`, `C37_discard_refuted`, `C37_lower_limit_refuted`

### C38 The sender opens no stream beyond the count announced by the peer

No frame is ever sent on a locally initiated stream whose rank is above the number of streams announced by the peer for its direction.

Status: partial. Proved for every stream except the first of each kind, and without announcements of zero streams. Missing because false: C38_zero_refuted, C38_absent_refuted.

Theorems (P_Send.v): `C38_stream_count_partial`, `C38_zero_refuted`, `C38_absent_refuted`

### C39 First transmissions carry exactly what the application wrote

The data of the STREAM frames of a stream, in order of transmission, is a prefix of what the application wrote, each byte once; FIN is sent only with the last byte; the final size of RESET_STREAM is the number of bytes sent and nothing follows it.

Status: proved. All histories. Found: data written after FIN may be sent, with a second final size (C39_after_fin_refuted).

Theorems (P_Send.v): `C39_next_bytes`, `C39_reset`, `C39_after_fin_refuted`

### C40 Stream frames put in a packet are read back as meant

The bytes written by the filling loop fit in the packet, and any receiver that decodes them processes exactly the intended STREAM, RESET_STREAM and STOP_SENDING frames, in order, followed by what comes after.

Status: proved. Packets up to 16384 bytes, identifiers and error codes that can be encoded; the receiver is any frame handler that ignores padding, in 0-RTT and 1-RTT packets.

Theorems (P_Send.v): `C40_wire`

### C41 A request to stop sending is never forgotten

After the application asks the peer to stop sending on an open receive side, either the STOP_SENDING frame with the application's code has been put in a packet or the stream is still in the output schedule waiting for it, until the receive side ends or the stream is deleted; and when no earlier stream has anything to send, the next packet starts with it.

Status: proved. A stream that also has a requested reset is covered by C37_discard_refuted (the packet loop hangs). New transport parameters that lower the stream limits are excluded (finding: reordering then drops the stream).

Theorems (P_Stop.v): `C41_scheduled`, `C41_sent`

### C42 Protected packets open to what was sealed, and only authentic bytes are opened

A packet built by the sender is opened by a receiver holding the same keys to the same payload, packet number, type and header bits, alone or inside a coalesced datagram; and whenever any bytes at all are accepted, the AEAD check succeeded over the whole unmasked header and the received bytes are exactly the protection of that header and ciphertext. Nothing is read or written outside of the buffers.

Status: proved. Ciphers are parameters with the stated correctness hypotheses; key rotation and the multipath nonce are outside of this model. Datagrams longer than the decryption buffer overflow it (C42_oversize_refuted); the safety theorem assumes they fit.

Theorems (P_Protect.v): `C42_long`, `C42_short`, `C42_authentic`, `C42_safe`, `C42_oversize_refuted`

### C43 Address validation tokens are accepted exactly when valid, and at most once

A token made by the server for an address is accepted exactly when it is presented from that address before it expires, was not presented before, and (for Retry tokens) arrives in a later packet sent to the connection id of the Retry; the original connection id comes back unchanged; a token is accepted at most once in any history, nothing is accepted that does not authenticate with the sender's address, and the table of used tokens drops what has expired.

Status: proved. The AEAD is a parameter: decryption undoes encryption (aead_ok), and for the at-most-once theorem the token decrypts only under the address it was made for (bound_to). The clock does not go back. An authenticated text that does not decode is accepted repeatedly (C43_malformed_refuted); the server never produces one.

Theorems (P_Rtoken.v): `C43_exact`, `C43_once`, `C43_authentic`, `C43_table`, `C43_malformed_refuted`

### C44 What a server sends to unknown peers is small, rate limited and safe to compute

A server answers a datagram of an unknown connection only if the datagram has at least 1200 bytes (or is a short header packet, for resets) and comes from an acceptable port; version negotiation, Retry and busy packets are short, fewer bytes are sent than received, and handling any datagram stays inside of its buffers.

Status: partial. Proved for all replies but the busy ones: one busy packet is sent per coalesced Initial, which amplifies (C44_busy_amplification_refuted; C44_busy_bound gives the exact ratio). Safety needs at least 17 bytes after a header (C44_overread_refuted shows the read past the datagram) and no forged tokens (tokens_ok).

Theorems (P_Segment.v): `C44_reply`, `C44_no_amplification`, `C44_busy_bound`, `C44_busy_amplification_refuted`, `C44_safe`, `C44_overread_refuted`

### C45 Version negotiation ends attempts with an unsupported version, and only those

A server answers a long header packet of an unsupported version with a version negotiation packet that exchanges the connection ids and lists the supported versions and a reserved one; a client gives up exactly on version negotiation packets with its own two connection ids, received before any other packet, that do not list the version it proposed nor 0, and list at least one version that it supports; together, a client that proposes an unsupported version is told so.

Status: proved. The client's whole decision is characterised (iff). End to end needs the server not to know the destination id.

Theorems (P_Cneg.v): `C45_client`, `C45_server`, `C45_end_to_end`

### C46 Retry leads to a validated connection, and forged Retry packets are ignored

A client accepts exactly those Retry packets that come first, for its version, with a token and the integrity tag over the destination id of its first packet, and accepts no second one; a server that requires validation answers the first packet with one Retry and keeps no state; the next packet of the client, with the token, creates a connection whose address is validated and that knows the original destination id.

Status: partial. The integrity tag is a parameter (a deterministic function with 16 bytes). End to end for servers whose local ids have at least 8 bytes; with shorter ids the handshake never completes (C46_short_cid, C46_short_cid_refuted).

Theorems (P_Cneg.v): `C46_client`, `C46_end_to_end`, `C46_short_cid`, `C46_short_cid_refuted`

### C47 The acknowledgement of a packet removes exactly the information it carried

When a packet is acknowledged, the information that remains to be delivered (stream bytes and FIN, CRYPTO bytes, resets, limits, connection ids, token, HANDSHAKE_DONE) is what was outstanding before minus what the frames of that packet carried: nothing is forgotten that the peer did not receive, and nothing received stays outstanding.

Status: partial. Exact for payloads of all frames but MAX_PATH_ID, PATHS_BLOCKED, PATH_CIDS_BLOCKED, OBSERVED_ADDRESS and PATH_RETIRE_CONNECTION_ID (C47_exact_partial); for these the claim is refuted: bytes of another stream are marked as received, the id stays, NULL is dereferenced. An empty CRYPTO frame acknowledges the whole stream. The use of PATH_CIDS_BLOCKED information is not tracked.

Theorems (P_Needs.v): `C47_exact_partial`, `C47_max_path_id_refuted`, `C47_path_retire_refuted`, `C47_observed_refuted`, `C47_empty_crypto_refuted`

### C48 Key updates keep both endpoints able to decipher each other

Whatever updates of the 1-RTT keys both sides start and whatever packets are lost, repeated, reordered or forged: a packet sealed with the newest generation that the receiver has used or with the next one is deciphered, packets of the previous generation are deciphered for a retransmission delay after the update and are never counted as forged, older ones are refused; forged packets change nothing but the count of failures, which closes the connection exactly above the limit of the cipher; no key seals more packets than its limit allows.

Status: partial. Proved for all histories: no missing key is used (C48_defined); if updates are confirmed as RFC 9001 asks, or only one side starts them, the endpoints stay within one generation and packets have the right fate (C48_in_sync_partial; with several paths a packet of the next generation only on a path that was used in the newest one); late packets are deciphered for the retransmission delay (C48_reordered); forged packets change nothing else (C48_forged); the failure limit is exact (C48_failure_limit). The code does not check that updates are confirmed: C48_crossed_refuted and C48_reply_refuted (the peer never deciphers anything again), C48_multipath_refuted, C48_limit_refuted and C48_hole_refuted are the counterexamples.

Theorems (P_Keys.v): `C48_defined`, `C48_in_sync_partial`, `C48_reordered`, `C48_forged`, `C48_failure_limit`, `C48_crossed_refuted`, `C48_reply_refuted`, `C48_multipath_refuted`, `C48_limit_refuted`, `C48_hole_refuted`

### C49 A server does not amplify: three times the bytes received until the address is validated

As long as no packet received shows that the client receives at its address (a Handshake packet, an Initial packet to the connection id that the server chose, an acknowledgement of a random number, a valid token), all the datagrams that the server sends on a connection are together at most three times as long as the datagrams it received; the server is blocked only if a full packet would exceed the limit; once the address is validated the limit is lifted for good.

Status: partial. Proved for all sequences of events: termination (C49_defined); the limit while the handshake lasts (C49_limit_partial), for servers whose connection ids are not empty or clients that do not coalesce, and probes within the MTU; the exact condition for sending (C49_exact) and its end (C49_released); in the remaining cases a bound on the excess (C49_closing_partial). False in general: C49_empty_refuted (empty connection ids: each coalesced packet counts the whole datagram), C49_probe_refuted (an MTU probe is longer than what was checked), C49_close_refuted (closing packets are neither checked nor counted).

Theorems (P_Amplify.v): `C49_defined`, `C49_limit_partial`, `C49_closing_partial`, `C49_exact`, `C49_released`, `C49_empty_refuted`, `C49_probe_refuted`, `C49_close_refuted`

### C50 Packets are declared lost for a reason, none is forgotten, and the wake time is exact

A packet is declared lost only if a later packet was acknowledged and it is at least 3 numbers earlier or in flight for longer than the allowance, or its path was abandoned or it holds nothing to acknowledge and the timer expired; a packet is repeated after a timeout only when the timer expired since it was sent; a poll that ends without repetition leaves no packet that is due, and sets the wake time to the first time at which one is due; when one is due a packet leaves; every number is exactly one of acknowledged, gone and pending; an acknowledgement of a skipped number ends the connection; no event uses a path that is NULL.

Status: partial. Proved for all sequences of events in state ready: the reasons for losses and timeouts, completeness of a poll, exact wake time, progress, one fate for every number, and absence of NULL paths without skipped numbers. False in general: C50_skipped_number_refuted (the trap leaves with the ACK of the packet before it, the skipped number is then accepted), C50_ecn_null_refuted and C50_multipath_null_refuted (NULL path of a trap dereferenced), C50_zero_rtt_wake_refuted (no wake time for packets of 0-RTT alone). Not covered: the handshake spaces, congestion control, the loss of the remaining packets of a path with the multipath extension (loss_recovery.c 452-454).

Theorems (P_Loss.v): `C50_lost_for_a_reason`, `C50_timeout_for_a_reason`, `C50_nothing_left`, `C50_wake_time_exact`, `C50_progress`, `C50_one_fate`, `C50_skipped_number`, `C50_safe_without_holes`, `C50_safe_paths`, `C50_skipped_number_refuted`, `C50_ecn_null_refuted`, `C50_multipath_null_refuted`, `C50_zero_rtt_wake_refuted`

### C51 Acknowledgements are sent in time

A packet that asks for an acknowledgement is named by the ACK frame of the next packet built once the ACK delay has passed; a poll that writes no ACK frame asks to be called again before that time; the delay is between 1 and 10 ms unless the peer sent ACK_FREQUENCY, and otherwise that of the newest request; packets out of order, packets that complete a stream and the last of a group as large as the ACK gap are acknowledged by the next poll; only accepted packets are named.

Status: partial. Proved for all executions of one path in state ready: due packets are acknowledged, wake times, bounds of delay and gap, the newest ACK_FREQUENCY, immediate acknowledgement of reordering, of the end of a stream and of as many packets as the gap, and that only accepted packets are named. Hypotheses: no ACK frame was cut short, at most 33 ranges were stored, 600 bytes are left. False without them or beyond: C51_forgotten_refuted (with 40 ranges a packet is never acknowledged), C51_immediate_last_refuted and C51_immediate_pending_refuted (IMMEDIATE_ACK ignored), C51_first_two_refuted, C51_ack_of_acks_refuted (ACK frame although nothing asked for one), C51_announced_refuted (the announced max_ack_delay is not used). Not covered: multipath contexts, opportunistic ACKs, the delay by pacing before the poll reaches the ACK code.

Theorems (P_Delay.v): `C51_due_is_acked`, `C51_ten_ms`, `C51_delay_bounds`, `C51_tune_total`, `C51_frequency_latest`, `C51_wake_in_time`, `C51_reordering`, `C51_enough_packets`, `C51_fin_is_acked`, `C51_named_received`, `C51_immediate_last_refuted`, `C51_immediate_pending_refuted`, `C51_first_two_refuted`, `C51_forgotten_refuted`, `C51_ack_of_acks_refuted`, `C51_announced_refuted`

### C52 Streams are scheduled by priority, in round robin within a level, and none is forgotten

The list of output streams stays sorted by priority and stream id, without duplicates, under every history of application calls, frames and packets. The stream chosen for the next frame can send and comes ahead of every listed stream that can: more urgent level; lowest id on odd levels; on even levels control frames first, then the stream whose data was sent the longest time ago. No stream is chosen only if no listed stream can send, and a packet that carries a frame of one level leaves nothing sendable on more urgent levels. In a connection whose events come in order, every stream with something left to send and within the limits of the peer is on the list, also when it was opened above the limit and the limit was raised later by transport parameters or MAX_STREAMS.

Status: partial. Order of the list, choice of the stream, priority within a packet, round robin by the history of packets, and that no permitted unfinished stream is missing from the list, for all histories (the last for connections whose transport parameters carry both limits on streams). Refuted without that condition: the first stream of a type is forgotten when the parameters omit the limit and MAX_STREAMS comes after the stream was opened. Refuted: the end of a stream without data waits for credit it does not need. Path affinity of streams and the blocked frames are not modelled.

Theorems (P_Sched.v): `C52_sorted`, `C52_choice`, `C52_none`, `C52_packet`, `C52_round_robin`, `C52_not_forgotten`, `C52_sends_if_any`, `C52_first_stream_refuted`, `C52_end_refuted`

### C53 Path MTU discovery: sizes, validation, progress and result

The preparation of a probe has no undefined behaviour. A packet with data is no larger than the packet size in use, a probe is larger and no larger than the limits of the peer and of the buffers. The packet size in use is the starting size or that of a packet acknowledged since the last change of address. While the path waits for a probe, one larger than the packet size is in flight. Without resets of the packet size at most one probe is in flight and at most three are lost, also when losses prove spurious. When the search ends on a network that carries packets up to a given size, the packet size is the largest allowed size if it passes, else 1500 or 1400 if lower than the allowed size and passing, else the starting size.

Status: partial. Definedness, sizes, validation, progress, bound on lost probes and result of the search, for all histories. Refuted: the limit of the peer holds for probes only, ordinary packets start at 1252 or 1232 bytes and may exceed it; picoquic_set_mtu_max with more than 1564 bytes makes the probe overrun the packet buffer; the acknowledgement of a probe sent before a change of address sets the size for the new address; the count of full-size losses is not cleared by the reset, so that a single loss resets the size again. Not modelled: losses of a whole path in multipath, time of the probes, congestion and pacing conditions for the opportunity to send a probe.

Theorems (P_Pmtu.v): `C53_defined`, `C53_sizes`, `C53_validated`, `C53_validated_after`, `C53_not_stuck`, `C53_three_lost`, `C53_search_end`, `C53_peer_limit_refuted`, `C53_overflow_refuted`, `C53_migration_refuted`, `C53_threshold_refuted`

### C54 Connections end once, in order, and say why

From the moment a connection is being closed its state only goes forward (disconnecting, closing, draining, disconnected); nothing is sent in draining or afterwards; before that only close packets are sent, at most one plus the number of packets received and at most one after the peer has closed, a smoothed RTT apart; closing and draining end three retransmission timers after the last progress and no sooner unless the peer closes, resets, or the idle timeout comes; the idle timer ends a ready connection exactly when nothing was received for the agreed timeout (or three retransmission timers); the application is told once; a failed handshake never succeeds; every close packet carries the error, or the application code, that came first.

Status: partial. Proved for all runs: forward order of the closing states, silence in draining and after, number and spacing of close packets, end and non-shortening of the closing period, wake times, idle timer and its negotiation, callbacks at most once, failed handshakes stay failed, error and application codes told. Ten clauses are false of the code in corner cases and are refuted by computed executions: two close frames in one packet bring a disconnected connection back; a server handshake closed by the application is revived by a Finished already on its way; errors in server_almost_ready are forgotten; the frame type, and in the handshake the error, are overwritten; draining can be left, or have no duration; callbacks missing or repeated; the idle timeout wraps for huge values. Missing: several paths, the sizes of the packets, the content of TLS messages (its results are inputs), retransmission timer changes during closing.

Theorems (P_Life.v): `C54_forward`, `C54_quiet`, `C54_few`, `C54_one_reply`, `C54_spaced`, `C54_ends`, `C54_wake`, `C54_holds`, `C54_idle`, `C54_idle_agreed`, `C54_idle_agreed_refuted`, `C54_callbacks`, `C54_two_closes_refuted`, `C54_no_close_callback_refuted`, `C54_reset_after_close_refuted`, `C54_no_way_back`, `C54_revival_refuted`, `C54_error_told`, `C54_frame_type_refuted`, `C54_failure_told`, `C54_error_replaced_refuted`, `C54_error_forgotten_refuted`, `C54_close_told`, `C54_draining_left_refuted`, `C54_no_draining_refuted`, `C54_idle_replaces_refuted`

### C55 HTTP/3 header blocks are read as written, and reading them is safe

The prefixed integers read are exactly those represented (RFC 7541, 5.1) and those written are the shortest representations and read back; Huffman decoding is defined and terminates on all bytes, and decodes the code of every text to that text; the parser of header blocks terminates, reads only its buffer and its tables, accepts only sequences of field lines with indices of the static table (RFC 9204), accepts a well-formed block if and only if no known field is repeated, and then method, path, range, status, content type and protocol are those of the fields; every request, response and error written by the code is read back with the same parts, and fits its buffer.

Status: partial. Missing: the parser is undefined for the index 99 and for a status that exceeds an int (C55_index_refuted, C55_status_overflow_refuted; shown to be the only cases by C55_parse_defined); the meaning is proved for blocks whose strings are well formed and have at most 256 characters, without the indexed range (C55_range_refuted) and with statuses of nine characters at most and not zero (C55_repeat_refuted); errors are read back only if there is room for the status (C55_error_refuted). The capsule parsers and the HTTP/3 frame layer are not part of this property.

Theorems (P_Qpack.v): `C55_int_decode`, `C55_int_bound`, `C55_int_encode`, `C55_int_fits`, `C55_int_round_trip`, `C55_huffman_total`, `C55_huffman_text`, `C55_huffman_unique`, `C55_parse_defined`, `C55_meaning_partial`, `C55_request`, `C55_request_fits`, `C55_post`, `C55_connect`, `C55_response`, `C55_error_partial`, `C55_index_refuted`, `C55_status_overflow_refuted`, `C55_huffman_error_refuted`, `C55_huffman_padding_refuted`, `C55_huffman_truncated_refuted`, `C55_range_refuted`, `C55_repeat_refuted`, `C55_error_refuted`

### C56 Requests and responses of HTTP/3 are read the same however the stream is cut

For every sequence of pieces of a stream: the bytes handed to the application as body data, the decision to close the connection with its error code, and the header, trailer and web transport session that were read depend only on the concatenation of the pieces; streams that consist of frames in an allowed order are accepted and yield exactly the content of the data frames, header and trailer; the first frame that is forbidden, out of order, too long or has a bad header block closes the connection with the defined code after exactly the data before it; nothing else does; parsing terminates and no buffer is overrun; a client reports the request as accepted exactly for status 2xx, once.

Status: partial. Proved of every stream and every way to cut it, for servers and clients: independence of the cut, termination, acceptance and refusal in both directions, data, header, trailer and session, and that a client reports acceptance exactly for status 2xx. False parts are refuted: the report is repeated within a piece, the end of the stream within a frame is not always noticed, interim responses and trailers without content are refused, the end of the stream is marked before the last data. The only undefined behaviour left is that of the header block parser (C55). What the callbacks of the application do is outside of the model.

Theorems (P_H3.v): `C56_cut`, `C56_defined`, `C56_read`, `C56_accepted`, `C56_refused`, `C56_closed`, `C56_answer`, `C56_told_once_refuted`, `C56_end_refuted`, `C56_server_end_refuted`, `C56_interim_refuted`, `C56_trailers_refuted`, `C56_fin_last_refuted`

### C57 Control streams and web transport streams of an HTTP/3 peer

A unidirectional stream opened by an HTTP/3 peer is handled the same however its bytes are cut into pieces. A control stream is accepted exactly if its first frame is a non-empty SETTINGS frame made of pairs of integers and no longer than 65536 bytes, and the frames after it are neither SETTINGS nor frames of other streams; the settings kept are the last values given. Otherwise STOP_SENDING is sent once, with the code for what was wrong. After the session number of a web transport stream, exactly the bytes that follow are handed to the application, if the session is known. Other types of streams are ignored. No access is outside of a buffer, and parsing always ends.

Status: partial. Unidirectional streams in full. C57_bidir_partial covers bidirectional streams of which the first piece contains the whole type; the rest is false (C57_bidir_refuted). Refuted: empty SETTINGS accepted, duplicate or reserved settings refused, second control stream refused.

Theorems (P_Ctl.v): `C57_cut`, `C57_defined`, `C57_read`, `C57_refused`, `C57_accepted`, `C57_stopped`, `C57_session`, `C57_ignored`, `C57_bidir_partial`, `C57_bidir_refuted`, `C57_empty_refuted`, `C57_settings_refuted`, `C57_second_refuted`

### C58 Capsules of web transport sessions

The capsules of a web transport control stream are received the same however the stream is cut into pieces. The beginning of a capsule is kept without event or error; a datagram, or the end of a session with its code and message, is heard exactly once with exactly its content, and nothing else is heard; a capsule that is empty, for which there is no memory, or that stands for no event is refused. The message written to close a session is heard with its code and message. Receiving ends and stays within its buffers, also if several capsules follow each other.

Status: partial. In full for streams of one capsule, or of the beginning of one. C58_defined_partial: receiving is defined unless bytes follow an accepted capsule; with them it never is (C58_second_refuted). Refuted as well: the empty DRAIN capsule that the code itself sends is refused, and so are unknown types. C58_memory: memory of the announced length is allocated before the value arrives.

Theorems (P_Caps.v): `C58_cut`, `C58_waiting`, `C58_one`, `C58_refused`, `C58_heard`, `C58_defined_partial`, `C58_close`, `C58_memory`, `C58_second_refuted`, `C58_zero_refuted`, `C58_unknown_refuted`

### C59 Queries of paths are read as written

The query of a path is what follows its first '?'. A parameter is the first component, between '&', that is its name or starts with its name and '='. A string parameter is the value with its escapes decoded, if it fits in the buffer given, and is refused if an escape is malformed or it does not fit; a number parameter is the decimal number that the decoded value is, the default if there is no value, and is refused otherwise. The functions terminate and stay within their buffers for all texts. The baton service accepts exactly requests for version 0, a baton below 256 and 1 to 256 lanes.

Status: partial. Parameters in full. Refuted: numbers from 18446744073709551610 on are refused although they fit in 64 bits; a string that fills the buffer is not terminated; an absent string parameter is not reported; the baton service never sees the version asked for, so the last sentence of the statement holds of the name "versi" only (C59_baton).

Theorems (P_Uri.v): `C59_path`, `C59_string`, `C59_string_refused`, `C59_number`, `C59_number_refused`, `C59_total`, `C59_defined`, `C59_baton`, `C59_limit_refuted`, `C59_terminated_refuted`, `C59_absent`, `C59_absent_refuted`, `C59_version_refuted`

### C60 Connections are woken in the order of their wake times

For every history in which connections are created, given wake times and deleted: the list of connections and the tree of wake times hold exactly the live connections, each once, with the wake time last set, in the order of time and, for equal times, in the order in which it was set; the number of connections is right. The connection asked for a packet is the first with the least wake time, if it is due. The time to wait is the time to the next wake time within the limit given, and 0 if a stateless packet waits. A connection that is due is asked after at most as many polls as there are connections with the same or earlier wake times, if each poll moves the connection asked to a time no earlier than that of the poll. A creation that fails changes nothing for other connections.

Status: partial. Proved: contents, order (FIFO among equal times) and count of both lists after every history of creations, changes and deletions of live connections; choice of the connection to ask; time to wait (clock below 2^62, delay below 2^63); no starvation. Refuted: the last sentence (a failed creation empties both lists and decrements the count, wrapping at 0), and 'if it is due' at time 0.

Theorems (P_Wake.v): `C60_lists`, `C60_earliest`, `C60_delay`, `C60_stateless`, `C60_served`, `C60_failed_create`, `C60_failed_create_refuted`, `C60_count_refuted`, `C60_due_refuted`

### C61 Connection ids are issued within the limit of the peer, and route to their connection

For every history of a connection: the connection ids it issues have consecutive sequence numbers, in the order in which they are announced; the peer never holds more ids that are not to be retired than the limit that it gave, and is given that number (up to nine) when there is space; exactly the ids older than the configured life time are asked to be retired, and never an id that is being announced; at every time, a packet is given to the connection exactly if it carries an id that was issued and not retired, and no id is used by two connections; a RETIRE_CONNECTION_ID frame removes exactly the id it names, or closes the connection if that is the id of its own path or was never sent. With ids of zero bytes no frame is sent. The number of ids kept is bounded.

Status: partial. Proved for connections without multipath: sequence numbers, limit, expiry, routing table, retirement, definedness below 2^31, ids of zero bytes. Refuted: frames that retire a number never sent are accepted; limits from 2^31 on give no ids, and 2^31 - 1 leads to a signed overflow; the number of ids kept is not bounded.

Theorems (P_Lcid.v): `C61_state`, `C61_send`, `C61_defined`, `C61_limit`, `C61_wake`, `C61_retire`, `C61_zero`, `C61_unissued_refuted`, `C61_limit_refuted`, `C61_overflow_refuted`, `C61_growth_refuted`

### C62 Byte streams read back what was written

For every series of integers, buffers, connection ids, strings and addresses: writing them stores, at the position of the stream, their shortest layouts one after the other and changes nothing else, if they fit; if not, it fails and changes nothing before the position. Reading the series back gives the same values and ends at the same place. On any data and at any position, a reader or a function that passes over an item loads nothing outside of the data and finds an item exactly if the bytes are one; passing over an item is the same as reading it. After a failure every later reading of one byte or more fails, and the length of the stream counts only bytes that were written.

Status: partial. Proved: writing in place exactly if it fits, round trip of every series (numbers below 2^62, addresses of family 2 or 10), readers exact and within the data, passing over agrees with reading, failures leave the position at the end but for connection ids and strings. Refuted: after a connection id or a string that is too long what follows is still read; byteskip_cid passes over ids that byteread_cid refuses; family 0 is read back as IPv6; numbers from 2^62 on are truncated; after a failure the length counts bytes that were never written.

Theorems (P_Bstream.v): `C62_write`, `C62_read`, `C62_round`, `C62_end`, `C62_skip`, `C62_sticky_refuted`, `C62_family_refuted`, `C62_large_refuted`, `C62_skip_refuted`, `C62_stale_refuted`

### C63 The spin bit changes once in each round trip

For two endpoints that spin and any exchange of packets on a path, in which packets may be lost or overtake one another: there is always exactly one change of the spin value on the way from the client to the server and back, so that the value of the client changes only when what it sent after its last change has come back, and changes in every round trip; the bit of each path follows the packets of that path. The bit read is the bit written, whatever the other bits of the first byte. Whatever policies the application sets, the functions called are those of the table; without spin the bit is 0; at least 1 of 16 connections of an endpoint does not spin by default.

Status: partial. Proved for packets that arrive in order or are lost, on one path: exactly one change on the way at all times, when client and server change, inversion by each round trip; header bit; policies set by picoquic_set_spinbit_policy and the default; share of connections that do not spin. Refuted: with packets that overtake there are three changes (the highest number is not checked); the bit of path 0 is sent on every path; picoquic_cnx_set_spinbit_policy accepts numbers out of the table.

Theorems (P_Spin.v): `C63_header`, `C63_edge`, `C63_flip`, `C63_follow`, `C63_trip`, `C63_policy`, `C63_defined`, `C63_reserve`, `C63_order_refuted`, `C63_path_refuted`, `C63_table_refuted`

### C64 A new address receives at most three challenges, with delays, and then fails

Each tuple of a path receives at most three PATH_CHALLENGE frames since its challenges were set: the second at least 250 ms after the first, the third at least two retransmission timers after the second, and it is marked as failed no sooner than four timers after the third. The array of challenges is never read out of bounds. No tuple is lost or reordered, except that a failed one becomes the last; only failed tuples other than the first are removed, after their demotion time. Each response answers a challenge of the peer, once. Full size packets are used only within the amplification limit. The endpoint wakes up no later than the next challenge.

Status: partial. Proved for every history of one path with times below 2^62 and timers below 2^60 microseconds: at most three challenges with the stated delays, no read out of the array, order and removal of tuples, padding within the amplification limit, responses only as asked, wake times, strict progress of the selected tuples. Refuted: the delays do not grow (with a short timer the third challenge follows more closely than the second); a tuple verified by a late answer remains marked as failed (with multipath its path is then abandoned), and a renewal of its challenges is never sent; no wake time is set for the removal of a failed tuple. Not modelled: the packet that holds the frames (its padding and its observed address frame), several paths, addresses and connection ids (see C30, C31).

Theorems (P_Chal.v): `C64_spaced`, `C64_order`, `C64_purge`, `C64_pad`, `C64_response`, `C64_sends`, `C64_wake`, `C64_select`, `C64_again`, `C64_progress`, `C64_bound`, `C64_backoff_refuted`, `C64_verified_refuted`, `C64_renew_refuted`, `C64_demote_refuted`

### C65 A connection id written in hexadecimal is read back

Printing a connection id either reports that the buffer is too small or writes exactly its digits in lower case and a final zero, within the buffer. Parsing accepts exactly the texts that spell 1 to 18 bytes in either case, and leaves the rest of the id at zero; every other text gives the empty id. What is printed is parsed back to the same id, and different ids have different texts.

Status: partial. Proved: printing for every id and buffer, parsing of exactly the texts of 1 to 18 bytes, rejection of all others, round trip for 1 to 18 bytes, different texts for different ids. Refuted: ids of 19 and 20 bytes, which are valid, are not read back (the limit in the parser is 18); the text of the empty id cannot be told from an error.

Theorems (P_Hexid.v): `C65_print`, `C65_parse`, `C65_reject`, `C65_round`, `C65_inj`, `C65_long_refuted`, `C65_empty_refuted`

### C66 The settings that an HTTP/3 endpoint writes are those that its peer keeps

The settings of HTTP/3 are always written in a buffer of at least 64 bytes, and take at most 40 bytes within the buffer. A peer that reads them on a control stream, cut in any way, accepts them and keeps exactly the values given, and zero for the others. The first bytes of the control stream of an endpoint announce extended CONNECT, and datagrams and one session of web transport exactly if datagrams are enabled.

Status: partial. Proved for values below 2^62 and flags of one bit, end to end with the parser of C57: size, room, acceptance, values kept, first bytes of the control stream. Refuted: settings in which nothing is given are written as an empty frame that the reading side refuses; a value of 2^62 or more is written, and read as another one. The settings of h3zero_protocol_init avoid both.

Theorems (P_Hset.v): `C66_fits`, `C66_size`, `C66_peer`, `C66_init`, `C66_empty_refuted`, `C66_limit_refuted`

### C67 Datagrams are sent whole, in order, within the packet and within the limit of the peer

Whatever buffers the application asks for when it is polled for datagrams, nothing is written outside of the packet and the polling ends. If it asks for one at most in each callback, what is added to the packet is its datagrams, in order, each in a DATAGRAM frame, a frame without length being the last thing in the packet; none is empty or longer than the peer accepts, one that fits is sent, and the peer's application is given the same datagrams. A connection that is still ready has more_data set. Queued datagrams are at most 1200 bytes long, and are sent whole, in order and once.

Status: partial. Proved: safety and termination for every application (C67_safe); the frames, their order, the limit on the data and the flags for applications that ask for one buffer at most in each callback (C67_loop, C67_sent, C67_more), end to end with the decoder of C10 (C67_peer); the queue (C67_queue, C67_fifo). Refuted: the frame may be longer than the limit of the peer, which is compared with the data only (C67_limit_refuted); queued datagrams ignore the limit (C67_queue_refuted); a second request in a callback can corrupt the frame (C67_twice_refuted); more_data is not set for an application ready on one path only (C67_path_refuted); an accepted datagram of 1200 bytes blocks the queue while packets have at most 1200 bytes (C67_stuck_refuted).

Theorems (P_Dgram.v): `C67_safe`, `C67_loop`, `C67_sent`, `C67_peer`, `C67_more`, `C67_queue`, `C67_fifo`, `C67_queue_more`, `C67_limit_refuted`, `C67_queue_refuted`, `C67_twice_refuted`, `C67_path_refuted`, `C67_stuck_refuted`

### C68 The list of frames waiting to be sent stays well linked, and its frames are sent whole, in order and once

Whatever frames are queued and packets prepared, at whatever addresses memory is given, the doubly linked list of miscellaneous frames is linked both ways, ends where its last pointer says, and neither queuing, removing nor preparing uses released memory. A packet takes the frames of its context from the first, whole, as many as fit; those left and those of other contexts stay in order; it is a pure acknowledgement only if all frames are, and more_data is set if and only if a frame of the context is left.

Status: partial. Proved at the level of pointers, against a list of contents (C68_queue, C68_delete, C68_format, C68_purge) and for all histories (C68_history). The wake time set when a frame is queued is not modelled. Refuted: a frame longer than a packet is accepted and blocks those behind it (C68_stuck_refuted); after a frame of no bytes more_data is not set though a frame is left (C68_empty_refuted).

Theorems (P_Misc.v): `C68_queue`, `C68_delete`, `C68_format`, `C68_purge`, `C68_history`, `C68_stuck_refuted`, `C68_empty_refuted`

## Findings proved as theorems

* `C05_replay_refuted`: C05 itself is false: after the peer acknowledged an ACK, a number that was received is reported as new and would be processed a second time. This holds for the configuration of the library (no horizon) and also with a horizon.
* `C06_path_ack_ecn_refuted`: False with multipath and ECN: when the counters do not fit, only the first of the four bytes of the frame type is replaced, and the result is an ACK frame for packet 34, which was never received.
* `C07_old_ack_refuted`: False for a frame that does not raise the highest acknowledged number: it is accepted but leaves a named packet in the queue.
* `C08_large_values_refuted`: Outside the range: values of 2^62 and above are silently altered, the encoder has no error path for them.
* `C09_long_loss_run_refuted`: Without that restriction the claim is false: the oldest pending packet advances also by packets declared lost, so that after a long run of losses the sender uses three bytes although the receiver is far behind.
* `C09_cid_length_mismatch_refuted`: It is also false when the destination connection id in use is longer than the one of path 0: the header length is predicted with the latter and the packet number loses the difference, even though the receiver has received everything below the oldest pending packet.
* `C10_skip_agrees_refuted`: Without the negotiation of multipath they differ: the decoder goes on right after the type.
* `C11_unnegotiated_refuted`: A frame of an extension that was not negotiated raises the error, but the packet is not abandoned: the bytes after the type are processed as frames.
* `C14_max_streams_zero_refuted`: MAX_STREAMS with the value 0, which RFC 9000 allows and which cannot lower anything, raises the limit to an id near 2^64 and is answered by an error.
* `C15_local_stream_error_refuted`: The error for a local stream that was not opened is STREAM_LIMIT_ERROR, not STREAM_STATE_ERROR (5) as RFC 9000, 19.8 asks.
* `C15_client_limit_refuted`: On a client the limit is computed with the role of the client: of the 8 streams advertised to the server, the eighth (id 4 * 7 + 1) is refused.
* `C15_zero_limit_refuted`: A limit of zero streams is not enforced: rank 0 wraps around.
* `C16_sub_compare_refuted`: The difference is not a comparator on all 64-bit values: the bound is needed.
* `C18_zero_rtt_refuted`: Found: after the update made for a small window with a smoothed round trip of zero (the first sample arrives in the microsecond of the sending), nothing is ever authorised again: the bucket is empty and a packet costs one nanosecond.
* `C19_fin_lost_refuted`: The FIN of a frame without data is an exception: when the packet has no room for it, the frame is dropped from the queue, though it is still needed, and the FIN is never sent again.
* `C20_reset_refuted`: False for RESET_STREAM: the id is read at the type byte, so the state of stream 4 is looked up and the frame is dropped. Connection: stream 8 was reset, not acknowledged.
* `C20_max_path_id_refuted`: False for MAX_PATH_ID: the frame that carries the current limit is "not needed".
* `C20_paths_blocked_refuted`: False for PATHS_BLOCKED.
* `C20_ack_frequency_refuted`: False for ACK_FREQUENCY: only outdated ones would be repeated.
* `C20_path_response_refuted`: False for PATH_RESPONSE.
* `C21_data_after_reset_refuted`: After a RESET_STREAM, data beyond its final size is accepted, and moves the final size.
* `C21_fin_below_data_refuted`: A FIN below data already received is accepted.
* `C21_reset_below_data_refuted`: A RESET_STREAM whose final size is below data already received is accepted.
* `C22_oversize_refuted`: Finding: the reset is one byte shorter than the datagram at most, and the datagram may be longer than the buffer of 1536 bytes in which the reset is written.
* `C24_reload_refuted`: Without that condition a token is used twice.
* `C25_empty_refuted`: A token with empty strings loses its expiration time.
* `C25_malformed_refuted`: Wrong bytes are accepted: here the length of the address is announced as 256 and the record is read as one without address.
* `C25_file_refuted`: A record of 2017 to 2048 bytes is saved and can not be loaded; what follows it in the file is lost.
* `C26_config_overflow_refuted`: The clear method accepts longer server ids: the loop then writes outside [server_id[16]].
* `C26_length_change_refuted`: Nothing stops the application from changing the length of connection ids after the load balancer is configured; later ids do not decode.
* `C26_parse_unterminated_refuted`: Without a byte after the text, the parser reads one byte too far.
* `C28_long_path_refuted`: The claim is false of long paths: after a first sample of 620 milliseconds and with an idle timeout of one minute, the first timeout shortens the delay from 1.575 to 0.93 seconds.
* `C28_short_idle_refuted`: It is also false of the first timeout when the idle timeout is short: the sixteenth of the idle timeout only applies after a timeout.
* `C28_shift_refuted`: With a long local idle timeout the shift is undefined from the sixty-fourth timeout on, and wraps to nothing before.
* `C29_undo_refuted`: The window restored can exceed the one before the loss: at two packets, a loss that turns out to be spurious doubles the window.
* `C30_unsent_refuted`: Without that hypothesis an answer may verify a tuple although nothing was sent on it: the answer is compared with all three values, also with those that were not sent.
* `C31_safe_refuted`: The hypothesis is needed, and can fail with an honest peer, when a copy of a frame arrives late: an id that was given back is stored again, used again, and freed while it is in use by the second acknowledgement of the first RETIRE_CONNECTION_ID frame.
* `C31_below_refuted`: Retired ids can come back: a frame with a number below Retire Prior To is stored like any other, nothing is given back, and the id is used (RFC 9000, 19.15: it must be given back at once).
* `C31_reused_number_refuted`: Over time one number can have two ids: when the first one was given back, a second one is stored without an error.
* `C31_multipath_full_refuted`: With multipath, acknowledgements do not free the ids that were given back: their frames are read at the wrong place. The store fills up, and a peer that respects the limit (two ids, one of which is new each time that one was given back) gets an error.
* `C31_multipath_null_refuted`: With multipath, a path created before the peer gave an id for it has a null pointer, which the first frame with Retire Prior To follows; and so does a frame that crosses the end of its path.
* `C31_multipath_dangling_refuted`: With multipath, the end of a path frees its ids but only forgets that of the first tuple; a second tuple, validated later, has a pointer to a freed id.
* `C31_deleted_tuple_refuted`: The id of a tuple that is deleted is never given back, not even when Retire Prior To asks for it: it keeps its reference, although no tuple uses it.
* `C31_no_migration_refuted`: An endpoint that asked the peer not to migrate answers an honest Retire Prior To with an error.
* `C31_demoted_refuted`: A path demoted by an error of the network keeps using an id that must be given back.
* `C33_abandon_reason_refuted`: Exceptions. The reasons APPLICATION_ABANDON and RESOURCE_LIMIT_REACHED of picoquic.h do not fit in a varint: the peer reads another value.
* `C33_bdp_empty_refuted`: A BDP frame written with the empty address of a ticket without address is an error for the peer.
* `C33_last_immediate_ack_refuted`: An IMMEDIATE_ACK frame at the end of a packet is ignored.
* `C35_duplicate_refuted`: A type above 63 can occur twice with different values.
* `C35_exponent_refuted`: ack_delay_exponent above 20 is accepted, and reduced to 8 bits.
* `C35_ack_delay_refuted`: max_ack_delay of 2^14 ms is accepted; 4294968 ms is taken as 704 microseconds.
* `C35_cid_limit_refuted`: active_connection_id_limit below 2 is accepted, and reduced to 32 bits.
* `C35_streams_refuted`: initial_max_streams_bidi above 2^60 is accepted.
* `C35_datagram_refuted`: max_datagram_frame_size of 2^32 is taken as no datagrams.
* `C35_streams_zero_refuted`: initial_max_streams_bidi of 0, when it is sent, allows a server streams up to 2^64 - 3.
* `C35_preferred_empty_refuted`: An empty preferred address is accepted.
* `C35_port_refuted`: The port of the IPv6 preferred address is lost: the one of the IPv4 address is sent.
* `C35_limit_zero_refuted`: A limit of 0 connection ids is not sent and is read as 2.
* `C35_hang_refuted`: A server never ends the reception of the parameters of a client of draft 29 that prefers version 2: the search for the upgrade does not advance.
* `C35_silent_refuted`: A server ignores all the parameters after a version to which there is no upgrade, also wrong ones, and records no error.
* `C37_reset_active_refuted`: Found: marking a stream active and then resetting it makes the loop endless.
* `C37_discard_refuted`: Found: so does asking the peer to stop sending on a stream that is also reset, as picoquic_discard_stream does.
* `C37_lower_limit_refuted`: Found: so does a server whose transport parameters lower the number of streams that the client already used with 0-RTT.
* `C38_zero_refuted`: Found: with initial_max_streams_uni = 0 the limit wraps and a stream is opened.
* `C38_absent_refuted`: Found: without initial_max_streams_bidi a client still uses stream 0.
* `C39_after_fin_refuted`: Found: a write after the end of the stream is accepted, and may be sent; the peer then sees two final sizes.
* `C42_oversize_refuted`: Finding: the size of the datagram is not compared with the buffer (the error PICOQUIC_ERROR_PACKET_TOO_LONG is never raised): a malformed packet longer than 1536 bytes is copied over the end of the buffer.
* `C43_malformed_refuted`: Finding: a text that decrypts but cannot be decoded is accepted, each time (tls_api.c 2882-2886 does not set the return code).
* `C44_busy_amplification_refuted`: Finding: a busy packet is sent for each coalesced Initial packet of a datagram, so that more than three times the bytes received can be sent to an address that is not validated (RFC 9000 section 8.1 allows three times).
* `C44_overread_refuted`: Finding: without connection ids, after a segment whose destination id is empty, a second segment with an unknown version is handled as if it started the datagram, and the lengths of its ids are used without verification (packet.c 988-1020).
* `C46_short_cid_refuted`: Finding: a server whose local connection ids have fewer than 8 bytes, and which wants addresses to be validated, puts such an id in the Retry packet, and then drops the packets which its clients send to that id: no connection is ever made.
* `C47_max_path_id_refuted`: The acknowledgement of MAX_PATH_ID followed by MAX_DATA: the value 8 is read as the type of a STREAM frame, and bytes of stream 16 that are in no acknowledged packet are recorded as received.
* `C47_path_retire_refuted`: The acknowledgement of PATH_RETIRE_CONNECTION_ID does not retire the id.
* `C47_observed_refuted`: The acknowledgement of OBSERVED_ADDRESS dereferences the path of the packet, NULL when that path was deleted.
* `C47_empty_crypto_refuted`: The acknowledgement of an empty CRYPTO frame at offset 0 acknowledges every position.
* `C48_crossed_refuted`: Finding: picoquic_start_key_rotation compares the number at which the last update was started with the largest number received from the peer, and these are not related (the comment says that a packet was acknowledged). Both sides start an update; then one that has sent nothing since starts another one and is not refused. From then on, whatever happens, the peer deciphers nothing that this side sends.
* `C48_reply_refuted`: Finding: a side that follows an update of its peer does not change the number that this check uses. It can start another update before it has sent one packet with the keys of the first; from then on the peer deciphers nothing that it sends.
* `C48_multipath_refuted`: Finding: with multipath the number of the first packet of the new keys is set to UINT64_MAX on each other path, and stays so on a path that is not used until the next update. The packets of that next update on this path are then all taken for packets of the previous keys and dropped, at any time, although each update was confirmed.
* `C48_limit_refuted`: Finding: the same check refuses updates that are due. A side that sends four packets for each one that it receives seals more and more packets with each key: with a limit of 7 it seals 112 with one, although every packet is delivered.
* `C48_hole_refuted`: Finding: the test for the automatic update subtracts a packet number from a count of packets. When more numbers were skipped than packets were sent during the handshake the difference wraps, and an update is made for each packet that is answered, here with a limit of one million.
* `C49_empty_refuted`: A server whose connection ids are empty (packet.c 2080-2085: the first packet of a datagram is recognized by the previous destination being the null connection id): each Initial packet of a datagram counts the whole datagram, so that a client, or somebody who forges its address, gets more than nine times what was sent, and much more with more packets.
* `C49_probe_refuted`: An MTU probe sent before the handshake ends is longer than what sender.c 2941-2945 checked, and goes beyond the limit.
* `C49_close_refuted`: The packets that close a connection whose handshake failed are neither checked against the limit nor counted (sender.c 2302-2545).
* `C50_skipped_number_refuted`: A skipped number is not always defended: the ACK of the packet before it makes the trap leave (picoquic_queue_retransmit_on_ack), and from then on an ACK frame that names the skipped number is accepted.
* `C50_ecn_null_refuted`: An ACK frame that raises the count of congestion marks makes the congestion control dereference NULL when the packet found for the largest number is a trap: the peer acknowledges with ECN counts a packet that was just repeated after a timeout, while the next number was skipped (frames.c 3802-3809).
* `C50_multipath_null_refuted`: With several paths, the poll dereferences NULL when a packet of one path is repeated while the list of a later path starts with a trap (picoquic_set_wake_up_from_packet_retransmit does not test it, loss_recovery.c 559-561 and 647-663).
* `C50_zero_rtt_wake_refuted`: When only packets of 0-RTT are pending, the poll sets no wake time, although a later poll would repeat one.
* `C51_immediate_last_refuted`: IMMEDIATE_ACK is ignored when it is the last frame of its packet (frames.c 5329-5346 tests for bytes after the frame).
* `C51_immediate_pending_refuted`: IMMEDIATE_ACK is ignored when another packet already waits for its acknowledgement (frames.c 4008-4029 does nothing then).
* `C51_first_two_refuted`: Before the first ACK frame, packets 1 and 0 in this order are not acknowledged at once, although they are two and the second is out of order.
* `C51_forgotten_refuted`: With more than 33 ranges, a packet that asks for an acknowledgement can be left out of the ACK frame, and the flag is cleared all the same: no later poll acknowledges it until another packet arrives, at whatever time it comes.
* `C51_ack_of_acks_refuted`: An ACK frame is sent although no packet asked for one, after eight packets with only ACK frames (RFC 9000 section 13.2.1 forbids a packet with only an ACK frame in response to a packet that is not ack-eliciting).
* `C51_announced_refuted`: The max_ack_delay that was announced to the peer is not used: with 5 ms announced, a packet can wait for 10 ms.
* `C52_first_stream_refuted`: When the transport parameters of the peer carry no limit on the streams of a type (the default is zero) the first stream of that type, opened before MAX_STREAMS comes, is never listed: picoquic_add_output_streams starts from the second. Here a server opens stream 1, the client then allows three streams: the stream is permitted and could send but the scheduler finds nothing.
* `C52_end_refuted`: The end of a stream without further data is not sent when the credit is exactly used up, although an empty STREAM frame with the FIN bit needs none: the stream is listed and permitted, only its end is to be sent, and the scheduler finds nothing.
* `C53_peer_limit_refuted`: The limit announced by the peer bounds the probes only: a peer whose max_udp_payload_size is 1200 receives packets of 1252 bytes, since the starting size of the path is never compared to it.
* `C53_overflow_refuted`: picoquic_set_mtu_max does not check its argument: with a limit of 9000 bytes, a peer that accepts them and a large buffer, the probe is larger than the buffer packet->bytes that is filled with zeros.
* `C53_migration_refuted`: After a change of address the acknowledgement of a probe that was sent to the old address sets the packet size of the new one.
* `C53_threshold_refuted`: The reset of the packet size after more than ten losses does not clear the count of losses, and the acknowledgement of a probe does not either: once the size was found again, the loss of a single packet of that size resets it.
* `C54_idle_agreed_refuted`: FINDING: they do not have to fit. When the local timeout is disabled, a peer that announces 18446744073709552 ms (584 million years) gets an idle timeout of 384 microseconds (transport.c 852), that is, of three retransmission timers.
* `C54_two_closes_refuted`: FINDING: a second close frame in the same packet brings a disconnected connection back. A client that has just finished the handshake receives two CONNECTION_CLOSE frames in one 1-RTT packet: the first disconnects (frames.c 4150) and calls the application; the second finds a state that is not less than client_ready_start and moves it to closing_received. The connection then sends a packet, drains, and makes the close callback again.
* `C54_no_close_callback_refuted`: FINDING: an application close received before the client is ready, or while the server waits for the end of the handshake, disconnects without the close callback.
* `C54_reset_after_close_refuted`: FINDING: a stateless reset received after the end makes one more callback (packet.c 1800): the state is not tested.
* `C54_revival_refuted`: FINDING: at a server it can come back to life. The server requires client certificates, has sent its flight and is in server_handshake; the application calls picoquic_close; before the connection is polled, the packet with the client's Finished arrives: picoquic_incoming_client_handshake (packet.c 1738, 1765) tests only that the state is below ready and moves to ready. The connection stays open and the request to close is lost.
* `C54_frame_type_refuted`: FINDING: the frame type given with the error is that of the last error, or of the last call of picoquic_close, even if they were ignored (quicctx.c 4720, sender.c 4107 assign it in all cases).
* `C54_error_replaced_refuted`: FINDING: a call of picoquic_close replaces the error of a handshake that failed (sender.c 4099-4103): the peer is told APPLICATION_ERROR.
* `C54_error_forgotten_refuted`: FINDING: an error found in state server_almost_ready is forgotten (quicctx.c 4700-4716 has no case for it). A server that has processed the Initial packet of a client accepts a 0-RTT packet of the same datagram; a frame of it is refused with a flow control error, but the connection goes on and becomes ready.
* `C54_draining_left_refuted`: FINDING: draining does not always silence a connection. When the application calls picoquic_close_immediate while frames are delivered, and the same packet contains a close frame, the state goes from draining to closing_received, and a close packet is sent, with an error code (2^64 - 1) that is no variable-length integer.
* `C54_no_draining_refuted`: FINDING: draining after a close by the peer can have no duration. It is measured from latest_progress_time, the time at which this end last sent data, not from the reception of the close (sender.c 2386): a connection that was only receiving is disconnected at once, and late packets find no connection.
* `C54_idle_replaces_refuted`: FINDING: the idle timer replaces the error of a connection being closed (sender.c 3708), which the application reads in the close callback.
* `C55_index_refuted`: FINDING: the index is compared with the size of the table with ">" (h3zero.c 566 and 633), so the index 99 reads an entry after the end of the static table: four bytes of a peer cause an access out of bounds.
* `C55_status_overflow_refuted`: FINDING: the digits of a status are accumulated in an [int] without limit (h3zero.c 366-382): ten digits overflow it.
* `C55_huffman_error_refuted`: FINDING: a string that is not the Huffman code of any text is not refused: its bytes are taken as they are (h3zero.c 425-434), here as a path.
* `C55_huffman_padding_refuted`: FINDING: padding of more than seven ones, which RFC 7541 (5.2) makes a decoding error, and the end-of-string symbol followed by anything, are accepted; the rest is ignored.
* `C55_huffman_truncated_refuted`: FINDING: a Huffman string of more than 256 characters is cut, without error: a path of 264 zeros is taken for one of 256.
* `C55_range_refuted`: FINDING: an indexed line for the range (entry 55, "bytes=0-") is ignored: there is no case for it in the switch of the indexed lines (h3zero.c 571-621).
* `C55_repeat_refuted`: FINDING: a status of value zero leaves the status "not set", so a second one is accepted and replaces it.
* `C55_error_refuted`: FINDING: when the buffer has no room for the status, h3zero_create_error_frame does not fail (h3zero.c 985-990) but goes on without it: a frame that the parser rejects.
* `C56_told_once_refuted`: FINDING: the same response tells the application three times that the request was accepted if it arrives in one piece, and once if the header arrives alone: the flag header_required is computed before the loop and not cleared in it (picohttp/h3zero_common.c 1315, 1327-1339).
* `C56_end_refuted`: FINDING: the end of a stream within the type or length of a frame is not an error for a client, though the stream was cut (picohttp/h3zero_common.c 1367-1372 compares the counters of the frame before; RFC 9114, 7.1 requires H3_FRAME_ERROR).
* `C56_server_end_refuted`: FINDING: a server processes a request although content of a frame is missing at the end of the stream; it never tests this (picohttp/h3zero_common.c 1280-1298).
* `C56_interim_refuted`: FINDING: an interim response (RFC 9114, 4.1: any number of them may precede the final one) is told to the application as a refusal, and the final response after it closes the connection with H3_FRAME_UNEXPECTED (picohttp/h3zero_common.c 687-692, 1327-1339).
* `C56_trailers_refuted`: FINDING: trailers that directly follow the header, without data, close the connection (RFC 9114, 4.1 allows a message without content).
* `C56_fin_last_refuted`: FINDING: if the last piece of the stream of a request other than POST contains the end of a data frame and another data frame, the application gets the mark of the end of the stream with the first part, and data, with another mark, after it (picohttp/h3zero_common.c 1263-1265).
* `C57_bidir_refuted`: FINDING: a bidirectional web transport stream is refused if its type arrives in two pieces: h3zero_parse_remote_bidir_stream tests current_frame_type, which is zero, instead of stream_type to see whether the type is complete (h3zero_common.c 535).
* `C57_empty_refuted`: FINDING: an empty SETTINGS frame, which RFC 9114 (7.2.4) permits, is refused with H3_SETTINGS_ERROR: no buffer is allocated, and the parser of settings is given NULL (h3zero_common.c 456-477, 1937).
* `C57_settings_refuted`: FINDING: the same setting twice, and a setting reserved for HTTP/2 (2 to 5), are accepted; RFC 9114 (7.2.4 and 7.2.4.1) requires H3_SETTINGS_ERROR (the second is a MUST).
* `C57_second_refuted`: FINDING: a second control stream is accepted, and its frames are read; RFC 9114 (6.2.1) requires H3_STREAM_CREATION_ERROR. Its first frame needs not be SETTINGS.
* `C58_second_refuted`: FINDING: any byte after a capsule that was accepted, in the same piece or in a later one, is an access outside of the buffers. h3zero_accumulate_capsule resets neither is_length_known nor value_read (h3zero_common.c 2011-2018), and picowt_receive_capsule does not release the capsule; so the length is 0 while value_read is still that of the last capsule, the number of bytes to copy is 0 - value_read modulo 2^64, and memcpy is called with almost 2^64 bytes behind the buffer. A peer that sends two capsules crashes the other.
* `C58_zero_refuted`: FINDING: the DRAIN_WEBTRANSPORT_SESSION capsule that picowt_send_drain_session_message sends, of length 0 as the draft says, is refused by picowt_receive_capsule: no buffer is allocated for 0 bytes, and a missing buffer is an error.
* `C58_unknown_refuted`: FINDING: capsules of unknown types are refused; RFC 9297, section 3.2, says that they must be skipped silently.
* `C59_limit_refuted`: FINDING: the numbers from 18446744073709551610 to 18446744073709551615 fit in 64 bits but are refused: the test before the multiplication is x >= UINT64_MAX / 10 (h3zero_uri.c 261), which makes the second test of no use.
* `C59_terminated_refuted`: FINDING: a string that fills the buffer is not terminated by a zero, and the result is still 0 (h3zero_uri.c 241-243).
* `C59_absent_refuted`: FINDING: an absent parameter is taken for one that is there: h3zero_query_parameter_string returns 0 and leaves both the buffer and *parsed_length as they were, so that a caller that did not initialize them reads what was there before (h3zero_uri.c 286-297). Here the length left, 77, is even beyond the buffer.
* `C59_version_refuted`: FINDING: the baton service looks up the first five bytes of "version" (wt_baton.c 558: the length given is 5), so that a version in a request is never seen: "/b?version=9" is accepted as version 0.
* `C60_failed_create_refuted`: FINDING: a creation that fails makes the context forget the other connections: three connections are alive and due, and after it none is ever asked for a packet, none is in the list of connections (they are not even freed with the context), and the time to wait is the longest.
* `C60_count_refuted`: FINDING: when the first creation fails, the number of connections becomes 2^32 - 1; every Initial packet is then refused as "server busy" (packet.c 114-117) until a connection is created otherwise.
* `C60_due_refuted`: FINDING: time 0 means "no limit": a poll at time 0 (where simulated clocks start) asks a connection that is not due.
* `C61_unissued_refuted`: FINDING: a RETIRE_CONNECTION_ID frame for a number that was never sent is accepted; RFC 9000, 19.16: it must be treated as a connection error.
* `C61_limit_refuted`: FINDING: the limit of the peer is converted to an int (transport.c 705, sender.c 2580): a peer that accepts 2^31 ids is given none, although there is space.
* `C61_overflow_refuted`: FINDING: a peer that accepts 2^31 - 1 ids makes the sum of the limit and of the number of expired ids overflow an int, when an id expires (sender.c 2580).
* `C61_growth_refuted`: FINDING: ids that are too old are kept until the peer retires them, and are replaced meanwhile: with a peer that accepts 4 and retires none, each life time adds 4 ids, and 24 are kept after six.
* `C62_sticky_refuted`: FINDING: an error does not stay: a connection id with a length over 20 is refused, but the position is then that of its first byte (bytestream.c 328, 329), and so for a string that is too long (363, 364); what follows is read from the middle of the item.
* `C62_family_refuted`: FINDING: an address that is not set (family 0) is written as such with 16 bytes, and read back as an address of IPv6 (bytestream.c 394-398, 413-417).
* `C62_large_refuted`: FINDING: numbers of 2^62 or more lose their two first bits without error (bytestream.c 138-147): for example a time, or a value of UINT64_MAX, in a log.
* `C62_skip_refuted`: FINDING: byteskip_cid passes over an id of more than 20 bytes, that byteread_cid refuses (bytestream.c 338-345).
* `C62_stale_refuted`: FINDING: when an item does not fit, the position becomes the end of the array, though the bytes in between were not written: bytestream_length (bytestream.c 87-90) then counts them, and the functions of picoquic/logwriter.c, that do not look at the results (for example 913-942, with a server name and protocols of any length), copy them to the log: the bytes of an array of the stack that was never set.
* `C63_order_refuted`: FINDING: the value is set by every packet that is decrypted, not only by those with the highest number so far as RFC 9000 section 17.4 asks (packet.c 1950, spinbit.c 32-35): after packets that arrive out of order there are three changes on the way, and the client changes twice in a round trip.
* `C63_path_refuted`: FINDING: the value is kept for each path, but a packet carries that of path 0, whatever its own path (spinbit.c 37-42): on path 1 the server does not send back the bit that it received there.
* `C63_table_refuted`: FINDING: picoquic_cnx_set_spinbit_policy accepts picoquic_spinbit_on (3) and any other number (quicctx.c 4278-4281); the table has three entries (spinbit.c 79-83), and the next packet sent calls a function out of it.
* `C64_backoff_refuted`: FINDING: the delays do not grow: the third challenge may follow the second more closely than the second followed the first.
* `C64_verified_refuted`: FINDING: a tuple that is verified by a late answer is still marked as failed (with multipath, its path is then abandoned: picoquic/paths.c 519-520).
* `C64_renew_refuted`: FINDING: new challenges that are set for such a tuple are never sent, whatever the time, and no wake time is set for them.
* `C64_demote_refuted`: FINDING: no wake time is set for the removal of a failed tuple: it stays until something else wakes the endpoint.
* `C65_long_refuted`: FINDING: ids have up to 20 bytes, but those of 19 or 20 bytes are not read back.
* `C65_empty_refuted`: FINDING: the text of the empty id, which is valid, cannot be told from an error.
* `C66_empty_refuted`: FINDING: settings in which nothing is given are written as an empty frame, which is valid, but which the reading side of the same code refuses.
* `C66_limit_refuted`: FINDING: a value of 2^62 or more is accepted and another one is read by the peer.
* `C67_limit_refuted`: FINDING: the limit of the peer is for the whole frame (RFC 9221, section 3) but it is compared with the length of the data: a frame longer than the peer accepts can be sent.
* `C67_queue_refuted`: FINDING: queued datagrams are not compared with the limit of the peer at all: a peer that takes no datagrams closes the connection with FRAME_ENCODING_ERROR.
* `C67_twice_refuted`: FINDING: an application that asks for a buffer twice in a callback, the first time for a datagram that takes the whole packet: the type of the frame is overwritten, and the peer is given the length as a part of the datagram.
* `C67_path_refuted`: FINDING: an application that lacks room and stays ready on this path only does not have more_data set, as it would if it were ready on any path (C67_more).
* `C67_stuck_refuted`: FINDING: a queued datagram of 1200 bytes, which is accepted, is never sent, and the ones behind it wait, while packets have at most 1200 bytes.
* `C68_stuck_refuted`: FINDING: a frame of any length is accepted in the list; one that is longer than a packet is never sent, and keeps those behind it from being sent.
* `C68_empty_refuted`: FINDING: a frame of no bytes ends the packet, and more_data is not set though another frame is left.

## Findings that are not theorems

Observed while modelling; outside of the statements or of the modelled code.

* Data is delivered to the application after a reset was signalled (frames.c 1190-1300).
* `picoquic_frames_cid_decode` on empty input reads the length byte (util.c 830-845);
  harmless when the announced length was 0.
* The hexadecimal text of a connection id of 19 or 20 bytes does not parse (util.c 309-319).
* `picoquic_decode_crypto_hs_frame` computes "last" after advancing (frames.c 2307).
* `picoquic_uint8_to_str`, `picohash_create_ex` (dereference before the NULL check).
* Remote unidirectional streams are never deleted (frames.c 116-146).
* A zero-length FIN on a local send-only stream is accepted.
* `picoquic_reset_stream` (sender.c 339): inverted test, uses `fin_offset`.
* A zero-length non-FIN STREAM frame at offset 0 acknowledges everything (frames.c 3437).
* `picoquic_delete_stream_if_closed` returns 0 when it frees a stream already closed
  (possible use after free at frames.c 1283-1296 and 1809).
* The sort value of the data repeat queue changes with time (frames.c 1893).
* `picoquic_connection_error` in states such as server_almost_ready records nothing.
* A FIN frame with data counts the stream as complete before its gaps are filled (1219-1223).
* `picoquic_discard_stream` uses IS_CLIENT instead of IS_LOCAL.
* MAX_STREAM_DATA, STOP_SENDING, STREAMS_BLOCKED errors do not stop the parsing.
* CRYPTO data at an epoch below the TLS read epoch is kept for ever; after a TLS
  failure the epoch loop goes on.
* The BDP frame uses a lifetime both as duration and as absolute time (6331, 6296).
* NEW_CONNECTION_ID without path id is accepted with multipath.
* PATH_CHALLENGE and PATH_RESPONSE are not counted as ack-eliciting.
* A malformed STREAM header, a truncated type, short ACK_FREQUENCY and TIME_STAMP
  frames end the packet without a connection error.
* Packet loop: hang when a RESET_STREAM frame does not fit (room 18 to 24) or when an
  active stream writes nothing (excluded by `calm` and `provides`).
* `initial_max_data` of the transport parameters overwrites `maxdata_remote`.
* A pure FIN is blocked by flow control; a reset requested after the stream left the
  output list is never sent.
* timing.c 245: inverted test of the period.
* `copy_stream_frames_for_retransmit` with a malformed frame abandons what was written.
* `picoquic_set_stream_priority` drops a stream whose limit was lowered.
* packet.c: `new_ctx_created` is never set; the reserved-bit check of
  `screen_initial_packet` is dead code; a coalesced Initial with another destination
  id creates a context and is then dropped.
* `server_encrypt_retry_token` checks text + 17 bytes but writes text + 24.
* The client does not check that the source id of a Retry differs.
* The result of `verify_proposed_tuple` is overwritten; `retire_acked` branches are dead.
* `process_lost_packet` ignores an error of `copy_before_retransmit`.
* Lost CONNECTION_CLOSE, IMMEDIATE_ACK, PING, BDP, OBSERVED_ADDRESS, PATH_ABANDON frames
  are always repeated.
* The return code of the reception of transport parameters is overridden with 0
  (tls_api.c 923).

* h3zero_common.c 1280-1298 with 1059-1090: on a CONNECT stream, a piece without body data
  (only the type and length of a DATA frame, an unknown frame, or the bare end of the
  stream) makes the server process the request again.  It logs a duplicate request, and
  then sends a HEADERS frame of length zero (01 40 00), since `ret = -1` is overwritten;
  the application is not told of a bare end of the stream.
* sender.c 325-350: `picoquic_reset_stream` answers ALREADY_CLOSED if the FIN was sent and
  the list of acknowledged ranges does not cover the stream; the test looks inverted.
* paths.c 196-214: in a packet with challenges only, the length is computed before the
  observed address frame is written after it; the frame is left out (or overwritten by the
  padding), although its count of repetitions and its time were updated.
* `is_nat_rebinding` (paths.c 59) is assigned nowhere; the branch without padding is dead.


## Theorems and their assumptions

`Print Assumptions` answers "Closed under the global context" for the following 506 theorems:
C01_exact_prefix, C01_always_prefix, C02_fin_exact, C02_fin_once_and_last, C03_prefix, C03_exact, C03_fin, C03_kept, C03_defined, C04_record_exact, C04_ranges_separated, C04_never_invents, C04_highest_kept, C04_duplicate_report, C04_counters_exact, C05_no_reaccept_partial, C05_replay_refuted, C06_ack_frame_sound, C06_all_ranges_named, C06_sending_is_history, C06_peer_releases_received, C06_path_ack_ecn_refuted, C07_releases_exactly, C07_releases_only_named, C07_accepted_is_well_formed, C07_unsent_rejected, C07_trap_rejected, C07_old_ack_refuted, C08_encode_shortest, C08_round_trip, C08_decode_exact, C08_decode_in_bounds, C08_skip_exact, C08_codecs_agree, C08_second_decode, C08_large_values_refuted, C08_two_bytes, C09_restore_exact, C09_sender_length_sufficient, C09_long_loss_run_refuted, C09_cid_length_mismatch_refuted, C10_skip_safe, C10_walk_terminates, C10_dispatch_terminates, C10_skip_agrees, C10_skip_agrees_refuted, C11_only_permitted, C11_forbidden_stops, C11_forbidden_stops_later, C11_unnegotiated_refuted, C12_stream_within_limit, C12_total_is_sum, C12_connection_within_limit, C12_stream_refused, C12_reset_refused, C12_stream_accepted, C13_stream_limit, C13_connection_limit, C14_connection_credits, C14_stream_credits, C14_max_streams_zero_refuted, C15_opened_streams, C15_unopened_refused_partial, C15_local_stream_error_refuted, C15_client_limit_refuted, C15_zero_limit_refuted, C16_history, C16_find, C16_find_previous, C16_walk, C16_comparators, C16_sub_compare_refuted, C17_lookup, C17_found_iff, C17_live_inserted, C18_bucket, C18_interval, C18_wait, C18_changes, C18_rate_across_changes, C18_zero_rtt_refuted, C19_pieces, C19_queue, C19_enqueue, C19_drains, C19_fin_lost_refuted, C20_checked_partial, C20_exact_partial, C20_packet_partial, C20_preemptive_partial, C20_reset_refuted, C20_max_path_id_refuted, C20_paths_blocked_refuted, C20_ack_frequency_refuted, C20_path_response_refuted, C21_final_size_constant_partial, C21_stream_after_fin_partial, C21_reset_after_final_partial, C21_data_after_reset_refuted, C21_fin_below_data_refuted, C21_reset_below_data_refuted, C22_shape, C22_interval, C22_oversize_refuted, C23_create, C23_count, C23_accept, C23_token, C24_defined, C24_valid, C24_once_partial, C24_reload_refuted, C24_exact, C24_reachable, C24_available, C25_round_trip, C25_empty_refuted, C25_safe, C25_malformed_refuted, C25_load_safe, C25_file, C25_file_refuted, C26_decodes, C26_stays_decodable, C26_distinct, C26_config_safe_partial, C26_config_overflow_refuted, C26_length_change_refuted, C26_parse_safe, C26_parse_unterminated_refuted, C26_parse_round_trip, C27_sorted_list, C27_published, C27_address, C28_smoothed, C28_sample, C28_minimum, C28_timer, C28_backoff, C28_backoff_strict, C28_cap, C28_idle_cap, C28_handshake, C28_handshake_cap, C28_handshake_long, C28_long_path_refuted, C28_short_idle_refuted, C28_shift_refuted, C29_minimum, C29_halved, C29_once_per_round, C29_growth, C29_avoidance, C29_delay, C29_undo, C29_undo_refuted, C30_validated, C30_unsent_refuted, C31_consistent, C31_frame, C31_limit, C31_one_tuple, C31_retire_prior_to, C31_safe, C31_safe_refuted, C31_below_refuted, C31_reused_number_refuted, C31_multipath_full_refuted, C31_multipath_null_refuted, C31_multipath_dangling_refuted, C31_deleted_tuple_refuted, C31_no_migration_refuted, C31_demoted_refuted, C32_wire, C32_long, C32_retry, C32_short, C32_predicted, C32_predicted_short, C32_safe, C33_round_trip, C33_written_if_room, C33_skip_exact, C33_abandon_reason_refuted, C33_bdp_empty_refuted, C33_last_immediate_ack_refuted, C34_always_prefix, C34_exact, C34_bounded, C35_round_trip, C35_fits, C35_accepted, C35_accepted_iff, C35_refused_partial, C35_agreement, C35_duplicate_refuted, C35_exponent_refuted, C35_ack_delay_refuted, C35_cid_limit_refuted, C35_streams_refuted, C35_datagram_refuted, C35_streams_zero_refuted, C35_preferred_empty_refuted, C35_port_refuted, C35_limit_zero_refuted, C35_hang_refuted, C35_silent_refuted, C36_reassembly_defined, C36_buffers_bounded, C37_ends_partial, C37_reset_active_refuted, C37_discard_refuted, C37_lower_limit_refuted, C38_stream_count_partial, C38_zero_refuted, C38_absent_refuted, C39_next_bytes, C39_reset, C39_after_fin_refuted, C40_wire, C41_scheduled, C41_sent, C42_long, C42_short, C42_authentic, C42_safe, C42_oversize_refuted, C43_exact, C43_once, C43_authentic, C43_table, C43_malformed_refuted, C44_reply, C44_no_amplification, C44_busy_bound, C44_busy_amplification_refuted, C44_safe, C44_overread_refuted, C45_client, C45_server, C45_end_to_end, C46_client, C46_end_to_end, C46_short_cid, C46_short_cid_refuted, C47_exact_partial, C47_max_path_id_refuted, C47_path_retire_refuted, C47_observed_refuted, C47_empty_crypto_refuted, C48_defined, C48_in_sync_partial, C48_reordered, C48_forged, C48_failure_limit, C48_crossed_refuted, C48_reply_refuted, C48_multipath_refuted, C48_limit_refuted, C48_hole_refuted, C49_defined, C49_limit_partial, C49_closing_partial, C49_exact, C49_released, C49_empty_refuted, C49_probe_refuted, C49_close_refuted, C50_lost_for_a_reason, C50_timeout_for_a_reason, C50_nothing_left, C50_wake_time_exact, C50_progress, C50_one_fate, C50_skipped_number, C50_safe_without_holes, C50_safe_paths, C50_skipped_number_refuted, C50_ecn_null_refuted, C50_multipath_null_refuted, C50_zero_rtt_wake_refuted, C51_due_is_acked, C51_ten_ms, C51_delay_bounds, C51_tune_total, C51_frequency_latest, C51_wake_in_time, C51_reordering, C51_enough_packets, C51_fin_is_acked, C51_named_received, C51_immediate_last_refuted, C51_immediate_pending_refuted, C51_first_two_refuted, C51_forgotten_refuted, C51_ack_of_acks_refuted, C51_announced_refuted, C52_sorted, C52_choice, C52_none, C52_packet, C52_round_robin, C52_not_forgotten, C52_sends_if_any, C52_first_stream_refuted, C52_end_refuted, C53_defined, C53_sizes, C53_validated, C53_validated_after, C53_not_stuck, C53_three_lost, C53_search_end, C53_peer_limit_refuted, C53_overflow_refuted, C53_migration_refuted, C53_threshold_refuted, C54_forward, C54_quiet, C54_few, C54_one_reply, C54_spaced, C54_ends, C54_wake, C54_holds, C54_idle, C54_idle_agreed, C54_idle_agreed_refuted, C54_callbacks, C54_two_closes_refuted, C54_no_close_callback_refuted, C54_reset_after_close_refuted, C54_no_way_back, C54_revival_refuted, C54_error_told, C54_frame_type_refuted, C54_failure_told, C54_error_replaced_refuted, C54_error_forgotten_refuted, C54_close_told, C54_draining_left_refuted, C54_no_draining_refuted, C54_idle_replaces_refuted, C55_int_decode, C55_int_bound, C55_int_encode, C55_int_fits, C55_int_round_trip, C55_huffman_total, C55_huffman_text, C55_huffman_unique, C55_parse_defined, C55_meaning_partial, C55_request, C55_request_fits, C55_post, C55_connect, C55_response, C55_error_partial, C55_index_refuted, C55_status_overflow_refuted, C55_huffman_error_refuted, C55_huffman_padding_refuted, C55_huffman_truncated_refuted, C55_range_refuted, C55_repeat_refuted, C55_error_refuted, C56_cut, C56_defined, C56_read, C56_accepted, C56_refused, C56_closed, C56_answer, C56_told_once_refuted, C56_end_refuted, C56_server_end_refuted, C56_interim_refuted, C56_trailers_refuted, C56_fin_last_refuted, C57_cut, C57_defined, C57_read, C57_refused, C57_accepted, C57_stopped, C57_session, C57_ignored, C57_bidir_partial, C57_bidir_refuted, C57_empty_refuted, C57_settings_refuted, C57_second_refuted, C58_cut, C58_waiting, C58_one, C58_refused, C58_heard, C58_defined_partial, C58_close, C58_memory, C58_second_refuted, C58_zero_refuted, C58_unknown_refuted, C59_path, C59_string, C59_string_refused, C59_number, C59_number_refused, C59_total, C59_defined, C59_baton, C59_limit_refuted, C59_terminated_refuted, C59_absent, C59_absent_refuted, C59_version_refuted, C60_lists, C60_earliest, C60_delay, C60_stateless, C60_served, C60_failed_create, C60_failed_create_refuted, C60_count_refuted, C60_due_refuted, C61_state, C61_send, C61_defined, C61_limit, C61_wake, C61_retire, C61_zero, C61_unissued_refuted, C61_limit_refuted, C61_overflow_refuted, C61_growth_refuted, C62_write, C62_read, C62_round, C62_end, C62_skip, C62_sticky_refuted, C62_family_refuted, C62_large_refuted, C62_skip_refuted, C62_stale_refuted, C63_header, C63_edge, C63_flip, C63_follow, C63_trip, C63_policy, C63_defined, C63_reserve, C63_order_refuted, C63_path_refuted, C63_table_refuted, C64_spaced, C64_order, C64_purge, C64_pad, C64_response, C64_sends, C64_wake, C64_select, C64_again, C64_progress, C64_bound, C64_backoff_refuted, C64_verified_refuted, C64_renew_refuted, C64_demote_refuted, C65_print, C65_parse, C65_reject, C65_round, C65_inj, C65_long_refuted, C65_empty_refuted, C66_fits, C66_size, C66_peer, C66_init, C66_empty_refuted, C66_limit_refuted, C67_safe, C67_loop, C67_sent, C67_peer, C67_more, C67_queue, C67_fifo, C67_queue_more, C67_limit_refuted, C67_queue_refuted, C67_twice_refuted, C67_path_refuted, C67_stuck_refuted, C68_queue, C68_delete, C68_format, C68_purge, C68_history, C68_stuck_refuted, C68_empty_refuted.
