# Formal model of picoquic in Rocq: design

Source modelled: `/repo` (picoquic, pinned commit), read as text.
Coq 8.16.1, files in `rocq/theories`, logical name `Verif`.
(This file is assembled by `tools/mkdesign.py` from `tools/design_head.md`, the
notes and the theorem files.)

## Method

* Each modelled C function becomes one total computable Gallina function.
  Every definition carries a comment with the file and line range it models and
  what was simplified.
* Bytes are `N` below 256, buffers are `list N`.  Pointers into a buffer become
  the remaining suffix of the list, so that a read past the end is a visible
  outcome (`None`, i.e. the C NULL return) or, where the C code would perform an
  unchecked read, a distinct `UB` outcome.
* Machine integers are `N` (or `Z`); when wrap-around can matter the
  `mod 2^64` is written explicitly.
* Loops run on fuel; running out is a distinct outcome, which a theorem excludes
  (or which the theorem about an endless loop is about).
* Model files (`X_model.v`) contain definitions only, `X_spec.v` the small
  specification vocabulary, `X*_proofs.v` lemmas, and `P_*.v` only the property
  theorems (each closed by `exact lemma`), a satisfiability example beside each,
  and `Print Assumptions`.
* Statements use their own vocabulary (sets of numbers, byte sequences, sums,
  histories), not the model's helper functions.
* If the property is false of the code, a `..._refuted` theorem gives a
  concrete witness, and the strongest true variant is proved beside it
  (suffix `_partial` if less than the full property).

## What is modelled and how it is proved

| id | modelled code | proof method |
|----|---------------|--------------|
| C01, C02, C36 | frames.c 1051-1342 and the chunk tree: stream reassembly, direct delivery, callbacks, splitting of received packets (memory addresses in `Mem`) | invariant over all frame histories, refinement to "longest covered prefix" |
| C03 | sender stream queue, frame formatting, retransmission, decoding, C01 model, network of whole packets | invariant of the composed transition system |
| C04, C05 | sacks.c: list update, query, acknowledged ACKs | refinement to a set of numbers; witness for C05 |
| C06, C07 | frames.c: ACK writer 3815-3956, header parser, range walk, retransmit queue | induction over ranges |
| C08 | both varint codecs (intformat.c, util.c) | case analysis on the four lengths, arithmetic |
| C09 | packet.c 491-514, sender length choice | linear arithmetic over N with explicit window |
| C10, C11, C33 | frames.c: writers, decode_frames dispatch, skippers | per-frame lemmas, induction on payload length |
| C12, C14, C15, C21 | receive flow control, stream creation, limit frames, final sizes | invariants over histories |
| C13, C37-C41 | sender.c and frames.c: stream queue, output list, stream frames, packet loop, STOP_SENDING | invariants over histories, measures for termination |
| C16 | picosplay.c as a functional tree with zipper rotations | in-order sequence preservation |
| C17 | picohash.c | refinement to a list of items |
| C18 | pacing.c | potential argument over all runs |
| C19 | frames.c 1877-2245, retransmission splitter and data repeat queue | induction over pieces and queues |
| C20, C47 | loss_recovery.c / frames.c: needs-repeat decisions, acknowledgements of frames | per-frame case analysis, induction over payloads, refutation witnesses |
| C22, C23, C44 | packet.c: datagrams of unknown connections, stateless resets, screening, segments | case analysis, induction over coalesced segments |
| C24, C25 | token_store.c | invariants over histories; codec lemmas |
| C26 | picoquic_lb.c, the block cipher abstract | xor algebra |
| C27 | port_blocking.c | induction on the list |
| C28, C29 | RTT estimator, retransmission timers, newreno.c | invariants |
| C30, C31 | quicctx.c, paths.c: remote id stash, challenges, tuples | invariants over histories |
| C32, C42 | packet headers, header protection, packet protection (ciphers abstract) | codec lemmas |
| C34 | CRYPTO stream and tls_stream_process, TLS abstract | same refinement as C01 |
| C35 | transport.c, version upgrade | codec lemmas, exact characterisation of the accepted blocks |
| C43, C46 | tls_api.c 2693-2890: address validation tokens, Retry | codec lemmas, registry histories |
| C48 | packet.c 622-758, tls_api.c 1516-1600, quicctx.c 4740-4761: key updates at both ends, AEAD ideal | invariant over all histories, simulation for forged packets, witnesses |
| C49 | packet.c 1369-1480, 1731-1851, 2048-2396, sender.c 2152-2545, 2920-3237, 3722-4080: sizes and states of a server, TLS and formatting as inputs | invariant and potential over all histories, witnesses |
| C50 | loss_recovery.c 173-225, 297-663, 934-968, 1029-1073, frames.c 2919-2995, 3593-3812, sender.c 934-963, 1071-1103: one number space in state ready, result of the copies as input | invariant over all histories of sends, ACK frames and polls; witnesses |
| C51 | frames.c 2719-2875, 3815-3956, 4008-4110, 5231-5346, sacks.c 258-294, 347-380, packet.c 636-643, 1973-1976, 2297-2300, sender.c 3305-3372, quicctx.c 2681-2691, 4070-4082: one path, state ready | invariant over all histories of packets, polls, acknowledged ACKs and new estimates; witnesses |
| C52 | frames.c 1344-1416, 1562-1863, quicctx.c 3299-3449, 3451-3508, transport.c 578-661, sender.c 137-424: the scheduling part of the sending side model; no path affinity | every event decomposed into elementary changes; sorted list, and every permitted unexhausted stream listed, as invariants per elementary change; completeness of a raised limit; last service time by the history of packets; witnesses |
| C53 | sender.c 1467-1570, 3541-3555, loss_recovery.c 693-704, 876-897, frames.c 2536-2542, 3625-3633, 4755-4775, quicctx.c 2669-2678: path MTU state with the packets in flight and those declared lost; UB of the zero fill as distinct outcome | invariants per event over all histories; potential (rank of the remaining sizes) for the number of lost probes; finite classification of the states of the search for its result; computed witnesses |
| C54 | picoquic.h 165-186, quicctx.c 4695-4738, sender.c 2302-2541, 3679-3795, 3866-4126, frames.c 4116-4200, 6377-6662, 6975-6998, packet.c 889-957, 1369-1992, 2285-2305, transport.c 848-856: the twenty states, error and close fields, timers; packets as lists of frames; results of TLS as inputs | case analysis of each event in each state (by computation), induction over runs with invariants and potentials, induction over the frames of a packet; computed witnesses |
| C55 | picohttp/h3zero.c 103-166, 172-272, 334-667, 704-1003, 1140-1787, h3zero.h 184-195: integers, static table, Huffman tables and decoder, parser and writers of header blocks; pointers into the frame and copies are lists, allocation never fails | relation for representations (both directions); the code of RFC 7541 built from its lengths in the specification, tree checked node by node by computation and the decoder shown equal to a walk over bits; induction over lines with an invariant relating fields to parts; writers shown to write lines of the specification; computed witnesses |
| C56 | picohttp/h3zero_common.c 140-147, 622-801, 1217-1298, 1311-1372, h3zero.c 52-77, h3zero.h 260-283: the state of a data stream, its parser (the buffer of frame headers is 16 bytes of memory, an access outside is undefined), the loops of servers and clients; callbacks, files and flow control are events or left out | a machine that takes one byte at a time; invariant between its position and the state of the code (left-over bytes in the buffer included); every call of the parser is shown to be some steps of the machine (H3b, H3c), so pieces are a run of the machine over their concatenation (H3d); the machine is compared with frames and messages of the specification in both directions (H3d, H3e); reports of clients by an invariant on the header (H3f) |
| C57 | h3zero_common.c 342-607 (frame content, control stream, session number, bidirectional and unidirectional streams of the peer), 845-875 (what is done with a piece, without FIN), 1933-1966 (settings), h3zero.c 1036-1062 (number from a stream) | a machine that takes one byte at a time; the parser, called with any piece, does what the machine does with its bytes (invariant between the state of the stream and the position of the machine, induction on the fuel of the loop); frames and settings as inductive relations; every byte string is a sequence of acceptable frames followed by an incomplete or a refused one. Not modelled: FIN, logging, the lookup of prefixes (any predicate) |
| C58 | h3zero_common.c 1995-2090 (accumulation of a capsule), h3zero_common.h 141-160, webtransport.c 278-362 (close and drain messages), 371-416 (capsules received) | a machine that takes one byte at a time, as for C57; number of bytes to copy computed modulo 2^64, copies outside of a buffer or of more bytes than there are undefined; every byte string is the beginning of a capsule, refused, or an accepted capsule followed by bytes. Any predicate says which allocations succeed. Not modelled: what is done with datagrams, the queueing of the messages on the stream, FIN, logging |
| C59 | h3zero_uri.c 120-316 (all functions), wt_baton.c 550-578 (parameters of a request) | queries as inductive relations (components, first value of a name, escapes); search by induction on the components, with the invariant that begin_index is at the start of one; decoding by induction on the escapes, converse by induction on the fuel; arithmetic of 8 and 64 bits with wrap |
| C60 | quicctx.c 1295-1490 (list, wake tree, earliest, delays), 3845-3895 and 4775-4868 (the lists in creation and deletion), sender.c 4162-4208 (polls), on the splay tree of C16 | the live connections in the order in which their times were set, as an inductive relation on histories; invariant: the tree is ordered, a permutation of them, and equal on each time; starvation by induction on the connections before one |
| C61 | quicctx.c 3577-3822 (local connection ids, without multipath lists), 1143-1157 and 4910-4933 (table by id, as a map, see C17), sender.c 2543-2605 (new ids as needed), frames.c 384-410 (size of the frame), 691-722 (RETIRE_CONNECTION_ID) | invariant on histories: ids sorted by number and time, counts, retire_before and the age of what is below it, oldest time, table = ids; loop of expiry and loop of creation by induction; undoing a creation for lack of space gives back the same ids, number and table; ints with overflow as undefined |
| C62 | bytestream.c 28-437 (byte streams of the binary logs; allocation and clearing left out, size_t of 64 bits), intformat.c 27-58, 90-162 | a writer of a layout as a predicate closed under `ret \|=`, series by induction; a reader of a layout as a predicate (finds exactly that layout), determinism of layouts, hence the round trip; loads and stores outside of the data are undefined outcomes |
| C63 | spinbit.c 30-83, quicctx.c 810-835, 3955-3966, 4278-4281 (policies), sender.c 658-672 and packet.c 437-438 (first byte), packet.c 1944-1950 (every decrypted packet); a network of two endpoints with one path, losses and reordering | invariant: the list of values around the loop has exactly one change (removal of an element does not add a change, an odd number remains); shares by complete enumeration of the random bytes; a call out of the table is undefined |
| C64 | paths.c 33-138, 236-325 (challenges, their times, demotion, selection), quicctx.c 1575-1618 (list of tuples), 1957-1989 (renewal), frames.c 4655-4675, 4720-4775 (challenge and answer of the peer), loss_recovery.c 465-477 (failure after losses); one path, times and room as inputs | the events of each tuple since its challenges were set are kept in a log; invariant that links the count and the time of a tuple with its log; measure of what remains to be sent for progress; a read out of the array is undefined |
| C65 | util.c 253-319 (printing and parsing of connection ids; the reading of digits is shared with the load balancer configuration, C26) | the spelling of bytes as an inductive relation; the loop of the parser decides it; nibbles by complete enumeration; a read out of the table and a write past the buffer are undefined |
| C66 | h3zero_common.c 1899-1940 (writing of settings, the length written twice in place) and 289-316 (first bytes of the control stream); the peer is the parser of C57 | writers chained as in the frames; the content is a list of pairs in the sense of C57, whose theorem on accepted control streams gives the values kept |
| C67 | frames.c 5003-5203 (the buffer given to the application, the frame on demand, the queue), 4547-4563, quicctx.c 4504-4550, sender.c 2724-2747 (the loop); the packet is a memory in which a write outside is a distinct outcome; the application is any sequence of answers, which writes all of what it asked for and does not call picoquic_mark_datagram_ready from the callback; memory is assumed available | prefixes of the memory after each write; induction on the loop; the peer is the dispatcher of frames of C10 |
| C68 | quicctx.c 4504-4589 (creation, queuing, removal and purge of frames, with both links and both ends), frames.c 4547-4600 (search, one frame, all frames of a context); memory is a partial map from addresses, use of an address that is not allocated is a distinct outcome; malloc gives any address not in use, or fails | refinement of the linked memory to a list of contents, segment by segment; induction on the packet and on the history |
| C45 | version negotiation | characterisation of decisions |

## Trusted base

* Coq's kernel and `vm_compute`.
* The hand translation from C to Gallina; each definition cites the lines it models.
* Assumptions: `Print Assumptions` is run beneath every theorem; the result of each is
  in the table "Theorems" below.
* The reading of the C standard used for the translation: two's complement fixed-width
  integers, defined unsigned wrap-around, a flat address space for the pointer
  comparisons of the datagram functions and of the writers (`bytes + n > bytes_max`
  is taken as a comparison of offsets), 64-bit `size_t`, little-endian integers in
  the token file.

Hypotheses that stand for code that is not modelled:

* ciphers: C42 takes the AEAD and the header-protection mask as parameters
  (`ciphers_ok`: decryption undoes encryption); C43 takes the token cipher
  (`aead_ok`, and `bound_to` for the at-most-once theorem); C22, C23, C44 take them
  in an environment (`env_ok`, `tokens_ok`); the Retry integrity tag of C45/C46 is a
  deterministic function of 16 bytes; C26 takes any block cipher;
* TLS: C34 takes any TLS stack, C35 only the bytes that it carries;
* randomness: C30 assumes that challenges are all different and not guessed;
* arithmetic: C28 and C29 exclude sums that overflow 64 bits; the double
  computation of `picoquic_cc_update_cwin_for_long_rtt` is an integer division;
  the rates of C18 are inputs; C31 bounds active_connection_id_limit by 2^31;
* applications: callbacks do what the respective record says (`provides`, `calm`).

Not modelled: memory allocation failure, TLS and AEAD internals, sockets and the
packet loop threads, logging, BBR, Cubic and the other congestion controllers than
NewReno, the performance log, HTTP/3 and the sample programs.
