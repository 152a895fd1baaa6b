{"claims": [
{"property": "C01", "status": "partial", "theorems": ["c01_replay_refuted", "c01_small_replay_refuted", "c01_no_replay_partial", "c01_remembered_partial", "c01_exact_behaviour", "c01_seqno_is_max", "c01_overflow_panics", "c01_sending", "c01_sending_ends", "c01_unmasked"], "note": "false in general (numbers from 256 on are never remembered); proved below 256, and the complete behaviour is characterised for all histories"},
{"property": "C02", "status": "partial", "theorems": ["c02_race_refuted", "c02_later_duplicate_rejected_partial", "c02_none_lost_partial", "c02_mutual_exclusion", "c02_alone_is_sequential", "c02_alone_reset"], "note": "false in general (ABA race, witness schedule); proved: mutual exclusion, later duplicates rejected and no number lost below 256, for all schedules"},
{"property": "C03", "status": "proved", "theorems": ["c03_channel_round_trip", "c03_empty_versioned_refuted"], "note": "for all keys, ids, payloads and versions, under the laws of the primitives (prims_ok); excluded and shown necessary: an empty payload with a version; excluded as a 256-bit hash coincidence: an unversioned packet whose shifted bytes are the hash of a versioned text"},
{"property": "C04", "status": "proved", "theorems": ["c04_accepted_is_honest", "c04_accepted_is_encryption", "c04_short_rejected"], "note": "for every datagram"},
{"property": "C05", "status": "proved", "theorems": ["c05_handshake_round_trip", "c05_other_nodes_ignore", "c05_short_rejected", "c05_accepted_is_honest"], "note": "same side conditions as C03"},
{"property": "C06", "status": "proved", "theorems": ["c06_packet_survives"], "note": "any trailing bytes; packets carry one or two messages as in the sender"},
{"property": "C07", "status": "proved", "theorems": ["c07_signed_bytes_recovered", "c07_signature_covers_packet"], "note": "packets below 64 KiB (offsets are u16; the receive buffer is 2048 bytes)"},
{"property": "C08", "status": "proved", "theorems": ["c08_attribution", "c08_accepted_packet"], "note": "end to end from the datagram to the deliveries; the case of a source named by id only is C60"},
{"property": "C09", "status": "proved", "theorems": ["c09_never_decreases", "c09_dates_checked"], "note": "over all histories without removal or reset of the peer"},
{"property": "C10", "status": "partial", "theorems": ["c10_split_partial", "c10_delivered", "c10_long_messages_refuted", "c10_split_ends"], "note": "proved up to 2048 serialized bytes on a working channel (1968 with a channel proposal, 1936 with a confirmation); shown false for every longer message: the parts sent leave gaps"},
{"property": "C11", "status": "proved", "theorems": ["c11_only_authentic", "c11_any_order"], "note": "sequential processing of parts, arbitrary interleaving of transfers; pieces non-empty"},
{"property": "C12", "status": "partial", "theorems": ["c12_terminates_partial", "c12_endless_refuted", "c12_repeated_partial", "c12_overwrite_refuted"], "note": "termination proved for non-empty parts and refuted with an empty one; a repeated part is never counted, but with other bytes it replaces the earlier one"},
{"property": "C13", "status": "proved", "theorems": ["c13_fifo", "c13_insert"], "note": "refinement to a bounded queue, with and without initial peers"},
{"property": "C14", "status": "proved", "theorems": ["c14_selection", "c14_fill"], "note": "random positions are arbitrary distinct positions; amount = u32::MAX with an exception overflows and is excluded"},
{"property": "C15", "status": "proved", "theorems": ["c15_lookups", "c15_ids_kept", "c15_tags_kept", "c15_added"], "note": ""},
{"property": "C16", "status": "partial", "theorems": ["c16_failed_add_refuted", "c16_failed_add_partial", "c16_built"], "note": "false as stated: a duplicated key leaves its tag behind and a retry succeeds; everything else is unchanged"},
{"property": "C17", "status": "proved", "theorems": ["c17_answers_matched", "c17_answers_arrive", "c17_final", "c17_table_emptied"], "note": "all interleavings of atomic steps; query ids distinct"},
{"property": "C18", "status": "proved", "theorems": ["c18_tables_consistent"], "note": "for any number of local ids, over all node operations; hypothesis: no collisions between the 256-bit channel ids of different peers or priorities"},
{"property": "C19", "status": "proved", "theorems": ["c19_same_secrets", "c19_used_only_after", "c19_converges"], "note": "Two complete nodes (Model/AdnlNode.v), any number of messages, losses, repetitions and reorderings; no reset, as the property says; messages that fit in one packet. Both nodes may do anything with others meanwhile and receive any datagrams from them; excluded are datagrams that name the other of the two and are not its own (C82 shows why) and coinciding channel ids."},
{"property": "C20", "status": "proved", "theorems": ["c20_add_peer", "c20_peers_admissible", "c20_remove_peer"], "note": "invariant over all node operations, including peers added by received packets"},
{"property": "C21", "status": "proved", "theorems": ["c21_address_list"], "note": "exact characterisation; the sum now + tolerance is taken without overflow"},
{"property": "C22", "status": "proved", "theorems": ["c22_packing", "c22_packing_injective", "c22_wire"], "note": "all addresses"},
{"property": "C23", "status": "proved", "theorems": ["c23_datagrams_fit"], "note": "bound 1360 for every datagram of every history"},
{"property": "C24", "status": "proved", "theorems": ["c24_queries", "c24_messages", "c24_ping", "c24_not_ping"], "note": ""},
{"property": "C25", "status": "partial", "theorems": ["c25_reset_after_silence_partial", "c25_healthy_channel_refuted"], "note": "proved for the channel the query was sent over; the channel that is dropped is the peer's current one, which may be another, healthy one (witness)"},
{"property": "C26", "status": "proved", "theorems": ["c26_roundtrip", "c26_short"], "note": "zstd is a parameter with the law zstd_ok"},
{"property": "C27", "status": "partial", "theorems": ["c27_payload_refuted", "c27_payload_partial", "c27_query_partial", "c27_answer_partial"], "note": "false as stated: a payload that equals the compressed form of other data is delivered as that data; the payloads delivered unchanged are characterized exactly"},
{"property": "C28", "status": "proved", "theorems": ["c28_limits"], "note": ""},
{"property": "C29", "status": "proved", "theorems": ["c29_reassembly", "c29_completion", "c29_transfer"], "note": "RaptorQ is a parameter with the laws fec_ok"},
{"property": "C30", "status": "proved", "theorems": ["c30_parts", "c30_acknowledged"], "note": ""},
{"property": "C31", "status": "partial", "theorems": ["c31_fresh_refuted", "c31_window_refuted", "c31_fresh_partial", "c31_source_partial"], "note": "false as stated: beyond the window all repair chunks repeat one symbol, and sequence numbers of different parts are compared (overflow in checked builds)"},
{"property": "C32", "status": "partial", "theorems": ["c32_limit_refuted", "c32_limit_partial", "c32_checked"], "note": "false as stated: the limit is checked before the answer is wrapped; with 43 bytes of room it holds"},
{"property": "C33", "status": "partial", "theorems": ["c33_query_removed", "c33_answer_refuted", "c33_timer_refuted", "c33_answer_partial"], "note": "holds for queries; false for answers whose transmission fails or whose timer fires late"},
{"property": "C34", "status": "proved", "theorems": ["c34_ids"], "note": ""},
{"property": "C35", "status": "proved", "theorems": ["c35_timeouts", "c35_estimate", "c35_waiting", "c35_deadline"], "note": "assumes min <= max in the options"},
{"property": "C36", "status": "partial", "theorems": ["c36_limit_refuted", "c36_limit_partial"], "note": "false as stated: garbage collection between looking up the semaphore and taking the permit voids the limit; holds otherwise"},
{"property": "C37", "status": "proved", "theorems": ["c37_served_values", "c37_storage", "c37_accepted"], "note": "over all histories of a node; hypothesis: the hashed keys of the history do not collide"},
{"property": "C38", "status": "proved", "theorems": ["c38_refused", "c38_other_keys", "c38_replaced", "c38_kept"], "note": ""},
{"property": "C39", "status": "proved", "theorems": ["c39_merged"], "note": "for live stored lists of fewer than 2^32 nodes; without a limit on the length of the merged list"},
{"property": "C40", "status": "proved", "theorems": ["c40_prefix", "c40_same", "c40_bound", "c40_symmetric", "c40_closer"], "note": ""},
{"property": "C41", "status": "partial", "theorems": ["c41_closest_refuted", "c41_size_refuted", "c41_own_id", "c41_find_node_partial"], "note": "false as stated: within the last bucket the choice is arbitrary, k = 0 gives one node; proved between buckets, end to end from the query to the answer"},
{"property": "C42", "status": "proved", "theorems": ["c42_find_value"], "note": "end to end from the query to the answer, over all histories of a node"},
{"property": "C43", "status": "partial", "theorems": ["c43_first_failure_refuted", "c43_timeouts_refuted", "c43_timeouts_expected", "c43_penalties_partial", "c43_lookups", "c43_stores", "c43_discovery"], "note": "false as stated: the first failure is free and timeouts count as successes; the rule holds from the first failure on without timeouts"},
{"property": "C44", "status": "partial", "theorems": ["c44_address_refuted", "c44_values_partial"], "note": "false: replies with another update rule are not verified and the key of the reply is not compared with the requested one; the part that holds is proved"},
{"property": "C45", "status": "partial", "theorems": ["c45_batch_refuted", "c45_order_refuted", "c45_refill_refuted", "c45_selection_partial", "c45_asked_partial", "c45_members_once"], "note": "known, good, different peers including all closest ones; false for the rest of the batch, for the order and for peers added later"},
{"property": "C46", "status": "partial", "theorems": ["c46_limit_refuted", "c46_limit_partial", "c46_each_once", "c46_ends", "c46_progress", "c46_new_peers", "c46_new_peers_ends", "c46_history"], "note": "all claims but the limit: up to six queries are in flight although the limit is five. With new peers appearing meanwhile (c46_new_peers) the set of known peers is assumed not to be full (65536 peers), since a full set replaces members."},
{"property": "C47", "status": "proved", "theorems": ["c47_peers", "c47_added", "c47_many"], "note": ""},
{"property": "C48", "status": "partial", "theorems": ["c48_refuted", "c48_removed_partial"], "note": "false: a removed peer stays a neighbour until the next shuffle and still receives broadcasts"},
{"property": "C49", "status": "proved", "theorems": ["c49_c51_authentic"], "note": "every delivery of an ordinary broadcast has a valid signature of the reported sender over data and date and was received in time"},
{"property": "C50", "status": "partial", "theorems": ["c50_refuted", "c50_once_partial"], "note": "false for a message dated in the second of its first reception or later (delivered again at the end of the timeout after the log forgot it); proved for messages dated before that second"},
{"property": "C51", "status": "proved", "theorems": ["c49_c51_authentic"], "note": "every FEC delivery is decoded from packets received in time and signed by the reported sender, has the announced size and the hash that is the broadcast id"},
{"property": "C52", "status": "partial", "theorems": ["c52_refuted", "c52_squatted_refuted", "c52_arrives_partial"], "note": "false: one badly signed packet in the sender's name ends the reception, and a packet of somebody else with the same hash that comes first makes the sender's packets ignored; proved when neither happens before the delivery, whatever else is sent"},
{"property": "C53", "status": "partial", "theorems": ["c53_refuted", "c53_sources_partial"], "note": "false: after the source symbols the sequence number doubles, so only one repair packet is sent; proved that all source symbols and at least one distinct repair symbol are sent"},
{"property": "C54", "status": "partial", "theorems": ["c54_refuted", "c54_log_partial", "c54_kept"], "note": "false: a collector pass between the two halves of a timeout leaks one entry for ever; proved bound of maximum plus number of such passes, removal of the oldest only, and retention for at least the timeout"},
{"property": "C55", "status": "proved", "theorems": ["c55_order", "c55_woken"], "note": "For every interleaving; wake-up under fair scheduling with an explicit bound on the number of rounds. Sequentially consistent atomics; tokio Barrier(2) modelled."},
{"property": "C56", "status": "partial", "theorems": ["c56_refuted", "c56_spins_refuted", "c56_bounded_partial"], "note": "False of the code: a cancelled wait leaves its barrier and its lock behind. Proved instead: at most one broadcast per cancelled wait stays queued while somebody waits."},
{"property": "C57", "status": "proved", "theorems": ["c57_builder", "c57_reason_hidden", "c57_start"], "note": "Any chain of builder calls (the code accepts up to four layers): success exactly when the socket is bound and every key exists, with the exact subscribers in order; otherwise nothing is started. Also any sequence of add/start calls on a node. Finding: with more than one layer a socket failure is reported as 'ADNL was not initialized'."},
{"property": "C58", "status": "proved", "theorems": ["c58_adnl", "c58_rldp", "c58_dht", "c58_overlay", "c58_constructor_ids_distinct"], "note": "byte strings below 2^24 bytes as required by the TL format"},
{"property": "C59", "status": "partial", "theorems": ["c59_no_retry_refuted", "c59_endless_refuted", "c59_ends", "c59_result_partial"], "note": "both claims false: a node is never resolved again and the search goes on while lists arrive without addresses"},
{"property": "C60", "status": "partial", "theorems": ["c60_unsigned_source_refuted"], "note": "false: a packet naming its source by id needs no signature; shown for every lawful instance of the primitives, node, peer and payload"},
{"property": "C61", "status": "proved", "theorems": ["c61_published", "c61_address", "c61_overlay_node"], "note": ""},
{"property": "C62", "status": "proved", "theorems": ["c62_announced", "c62_accepted"], "note": ""},
{"property": "C63", "status": "partial", "theorems": ["c63_newest_refuted", "c63_table_partial"], "note": "false: the record of a known node is never replaced; the table by itself keeps the newest"},
{"property": "C64", "status": "proved", "theorems": ["c64_ping", "c64_announcing", "c64_foreign", "c64_total"], "note": ""},
{"property": "C65", "status": "proved", "theorems": ["c65_answer", "c65_received", "c65_exchange"], "note": ""},
{"property": "C66", "status": "proved", "theorems": ["c66_delivered"], "note": "under the hypothesis that no other decompression of the payload carries the same signature"},
{"property": "C67", "status": "partial", "theorems": ["c67_unchanged", "c67_refuted", "c67_once_partial"], "note": "forwarding unchanged to other neighbours proved; at most once is false for packet numbers from 256 on and proved below, under the date conditions of C50"},
{"property": "C68", "status": "proved", "theorems": ["c68_arrives", "c68_addressed"], "note": "Same setting as C19. Repetition is excluded only while fewer than 256 packets were sent: beyond that C01 is false of the code. Messages that fit in one packet; no reset; others as in C19."},
{"property": "C69", "status": "proved", "theorems": ["c69_isolated", "c69_first_wins", "c69_lives_alone", "c69_queries", "c69_others_refused", "c69_not_handled", "c69_direct", "c69_arrives"], "note": "Non-interference between overlays for every history; first creation/registration wins (finding: a private overlay added under an existing public id silently gets the public one); exact dispatch of queries; end-to-end delivery of an ordinary broadcast between two nodes."},
{"property": "C70", "status": "proved", "theorems": ["c70_inside_buffer", "c70_signature_inside"], "note": "Index-checked model of in-place decoding: never out of bounds, same result as the value-level decoder, for every datagram."},
{"property": "C71", "status": "proved", "theorems": ["c71_one_meaning", "c71_only_what_was_said", "c71_signs_statements", "c71_packet", "c71_member", "c71_value", "c71_address", "c71_broadcast", "c71_part", "c71_identifiers", "c71_identifiers_used", "c71_overlays_differ", "c71_overlay_refuted"], "note": "Every text put under a signature determines its kind and content (absent a hash collision among the messages hashed); same for identifiers. Finding: the overlay of a broadcast is not signed, so it can be replayed in another overlay (c71_overlay_refuted)."},
{"property": "C72", "status": "proved", "theorems": ["c72_genuine", "c72_handed", "c72_once", "c72_answer_arrives", "c72_round_trip", "c72_failed"], "note": "End-to-end queries between two nodes over all executions of the unreliable network; on top of C17, C19 and C68. Channels are not reset meanwhile."},
{"property": "C73", "status": "proved", "theorems": ["c73_authentic", "c73_once", "c73_arrives", "c73_no_error_refuted", "c73_dropped", "c73_kept"], "note": "All interleavings of tasks, timers and clock, one step per shared access. Finding: a task that is late reports 'received too much' although every piece came exactly once (c73_no_error_refuted); the message is reported all the same."},
{"property": "C74", "status": "partial", "theorems": ["c74_again_partial", "c74_timer_refuted", "c74_late_removal_refuted"], "note": "False in general: removal is by id, so the timer of the earlier transfer (c74_timer_refuted) or a late task of it (c74_late_removal_refuted) removes the new transfer and the second copy is lost. Proved, for all interleavings, when nothing of the earlier transfers is left (tasks ended, timers run out)."},
{"property": "C75", "status": "proved", "theorems": ["c75_genuine", "c75_exact", "c75_answered", "c75_anyone_refuted"], "note": "Two RLDP nodes with all their tasks, all interleavings and deliveries, arbitrary other traffic; the query is answered identically whenever it is asked (see C76 for what happens otherwise). Messages under the query's own (random) transfer ids come from the two nodes; c75_anyone_refuted shows that this is needed because transfers are not bound to a peer."},
{"property": "C76", "status": "partial", "theorems": ["c76_once_partial", "c76_once_refuted", "c76_mixed_refuted"], "note": "False in general: after the responder has cleaned up, a late message of the query makes it execute again (c76_once_refuted), and two different answers may be mixed into one nobody gave (c76_mixed_refuted). Proved until the clean-up."},
{"property": "C77", "status": "partial", "theorems": ["c77_exchange", "c77_received_partial", "c77_received_refuted"], "note": "False in general: when the responder's timer fires during reception, later chunks are confirmed as complete without being received (c77_received_refuted). Proved: as long as the responder has neither forgotten the query nor let its timer fire, a query reported as sent was received completely (c77_received_partial); a transfer that loses nothing ends with success at both sides, for all data."},
{"property": "C78", "status": "proved", "theorems": ["c78_keys", "c78_replaced"], "note": "Key derivation stated on byte positions, replacement for every state of the node."},
{"property": "C79", "status": "partial", "theorems": ["c79_sent", "c79_result", "c79_seen", "c79_asked", "c79_ends", "c79_history", "c79_local", "c79_checked", "c79_stored", "c79_check_all_refuted", "c79_limit_refuted", "c79_address_refuted"], "note": "False clauses: check_all has no effect, one forged answer decides store_address in either direction, peers with the documented limit refuse lookups. Everything else proved for all schedules (sets of peers that are not full)."},
{"property": "C80", "status": "partial", "theorems": ["c80_asked", "c80_added_partial", "c80_history", "c80_counted", "c80_abort_refuted", "c80_count_refuted"], "note": "False in general: one malformed record aborts the discovery and the later answers are lost; the count includes known peers. Proved when no record is malformed."},
{"property": "C81", "status": "proved", "theorems": ["c81_exchange", "c81_news", "c81_fits", "c81_network", "c81_introduced"], "note": "End to end: codec, query routing of the overlay node, records, and the two ADNL nodes. The random sample is a hypothesis (distinct positions, as many as wanted and possible)."},
{"property": "C82", "status": "partial", "theorems": ["c82_unopened", "c82_unsigned", "c82_channel_refuted", "c82_date_refuted"], "note": "False in general: a packet that names its source by id only needs no signature, so one datagram of a third party replaces the channel or locks the peer out. Proved for datagrams that cannot be opened and for those in the name of a public key."},
{"property": "C83", "status": "partial", "theorems": ["c83_adnl", "c83_packet", "c83_rldp", "c83_dht", "c83_overlay", "c83_signed", "c83_searches", "c83_packet_read_partial", "c83_nodes_read_partial", "c83_ipv6_refuted", "c83_record_refuted"], "note": "Writing is proved for all types. Reading is false in general: IPv6 addresses make the whole packet or answer unreadable, and records with several addresses or a priority fail the signature check; proved for IPv4 addresses, at least one message and 64-byte signatures."},
{"property": "C84", "status": "partial", "theorems": ["c84_spreads", "c84_floods", "c84_limited_refuted"], "note": "False when nodes pass on to fewer neighbours than they have (options secondary_broadcast_target_count): a neighbour can be left out by everybody. Proved for full flooding, and in general for all nodes to which the message was passed. Ordinary (unfragmented) broadcasts only; an FEC packet whose data hash equals the id of the broadcast is excluded."},
{"property": "C85", "status": "partial", "theorems": ["c85_found", "c85_asked", "c85_learned_refuted"], "note": "False for peers learnt during the lookup: the first new peer of every refill is skipped, so a lookup can end without asking the only node that has the value although its record was received. Proved for all nodes that are asked, and that every peer known at the start of a full-batch lookup is asked."},
{"property": "C86", "status": "partial", "theorems": ["c86_finishes_partial", "c86_never_stuck_partial", "c86_exclusive", "c86_fill_refuted", "c86_iterate_refuted"], "note": "False for two uses of public functions: filling two sets of peers from each other at the same time, and adding a DHT peer while iterating over the known peers. Proved for everything else, with any number of tasks. Locks only: the tables' contents are in the other models; the branches an operation takes are arguments."},
{"property": "C87", "status": "partial", "theorems": ["c87_order", "c87_accepts", "c87_before", "c87_start", "c87_once", "c87_receives", "c87_sends", "c87_shutdown", "c87_over", "c87_flushed", "c87_drop_refuted"], "note": "False for dropping: the receiving loop holds a reference to the node, so a started node that is dropped without shutdown runs forever. Everything else is proved."},
{"property": "C88", "status": "proved", "theorems": ["c88_ends", "c88_largest"], "note": "The system is any function; c88_largest assumes that it refuses exactly what is above a limit."},
{"property": "C89", "status": "proved", "theorems": ["c89_matched"], "note": "The order of the iteration is an argument; concurrent changes of the table are not part of it."},
{"property": "C90", "status": "proved", "theorems": ["c90_sent", "c90_learned", "c90_origin"], "note": "The consequence of a source being named by id only (no signature) is C82."},
{"property": "C91", "status": "partial", "theorems": ["c91_steady_partial", "c91_cleaner", "c91_decoder_ends", "c91_decoder_waits", "c91_late_refuted"], "note": "False after one silence of the timeout: packets that come again do not stop the removal, and parts already received are lost. Proved when all pauses are shorter than the timeout minus one second (times are compared in whole seconds)."},
{"property": "C92", "status": "partial", "theorems": ["c92_floor_partial", "c92_numbered_partial", "c92_alone", "c92_date_refuted", "c92_replay_refuted", "c92_numbers_refuted"], "note": "False around restarts of the peer: the date is read and stored in two steps, so it can move back, and a late second reset forgets numbers. Proved: the date never falls below that at the start and older packets never pass; without restarts the numbers are gapless and unique. Delivering to a history and resetting one are single steps here; their inner steps are C02."},
{"property": "C93", "status": "partial", "theorems": ["c93_agree_partial", "c93_alone", "c93_removed_refuted", "c93_deaf_refuted"], "note": "False when the peer is removed meanwhile (remove_peer holds no lock between its steps) and when it is known under two local ids (the lock is per local id, the channel per peer). Proved for creating, resetting and adding under one local id. One peer; other peers' entries, with other ids, are left out."},
{"property": "C94", "status": "proved", "theorems": ["c94_symbols", "c94_delivers"], "note": "Under full flooding, which the property supposes: with limited target counts a neighbour can be left out (C84). Data of which another reading after decompression has the same hash is excluded. How the sender emits its packets is C53; here they come to some nodes from outside."},
{"property": "C95", "status": "partial", "theorems": ["c95_recovers_partial", "c95_silenced_refuted", "c95_crossed_refuted"], "note": "The full statement is false of the code: a peer that remembers packets drops the first messages after the reset as repeated (c95_silenced_refuted), and if the peer speaks first, its confirmation of the old key is taken for one of the new key and the messages of the node that did the reset are lost (c95_crossed_refuted). Proved for nodes without packet history when the one that did the reset speaks first."},
{"property": "C96", "status": "partial", "theorems": ["c96_untouched_partial", "c96_parts_refuted"], "note": "The connection is proved untouched for all histories. The last part of the statement is false of messages sent in parts: these are kept in one table for all peers, and of two peers that send the same message at the same time one is not heard (c96_parts_refuted). That messages in one packet are handed over whatever others do is c68_arrives."},
{"property": "C97", "status": "partial", "theorems": ["c97_authentic", "c97_genuine", "c97_once_partial", "c97_answered", "c97_possible", "c97_fits"], "note": "All parts are proved, except that the subscribers are asked at most once only as long as the other node has not forgotten the query (10 s after the answer): c76_once_refuted. Assumed as in C60 and C75: nobody forges packets that name the peer, nobody else uses the transfer id, numbers fit into their fields; c97_answered and c97_possible are for nodes that send a version."},
{"property": "C98", "status": "partial", "theorems": ["c98_returns", "c98_final", "c98_which", "c98_patient_sending", "c98_prompt_sending", "c98_patient_waiting", "c98_prompt_waiting", "c98_noticed", "c98_endless_refuted", "c98_sending_measured", "c98_waiting_measured", "c98_sending_estimate", "c98_waiting_estimate", "c98_backoff_partial", "c98_backoff_refuted", "c98_halved_refuted"], "note": "Three clauses are false of the code: the duration is not limited, because every new symbol or message restarts the wait (c98_endless_refuted); without an estimate a failure leads to the estimate 0 and the minimum timeout from then on (c98_backoff_refuted); an answer that arrives within one look is measured twice, the second time as 0 (c98_halved_refuted). The rest is proved for all timings."},
{"property": "C99", "status": "proved", "theorems": ["c99_carried", "c99_stored_found", "c99_fits"], "note": "For connections on which both letters of the query arrive in time (trip_ok); the connection may be in any state that the traffic of C72 leads to."},
{"property": "C100", "status": "proved", "theorems": ["c100_routed", "c100_unserved", "c100_heard", "c100_apart", "c100_own_queries", "c100_own_messages", "c100_overlay", "c100_dht", "c100_ping", "c100_typed", "c100_timed_out", "c100_timeout"], "note": "Assumed of applications: they leave queries and messages with foreign constructors alone. The answers travel over connections on which both letters arrive in time (trip_ok of C99)."},
{"property": "C101", "status": "proved", "theorems": ["c101_carried", "c101_broadcast", "c101_fits", "c101_network", "c101_rldp"], "note": "For broadcasts sent in one piece. The packets of fragmented broadcasts (984 bytes with their header) are longer than one datagram allows for custom messages and travel in parts (C102); that enough of them suffice is C94. Assumed of applications as in C100."},
{"property": "C102", "status": "proved", "theorems": ["c102_arrives", "c102_sizes", "c102_fec", "c102_network"], "note": "One message in any state of the connection; its datagrams come in any order with nothing else in between (other traffic in between: C11, C73). Longer messages are split by the code in a way that never arrives (C10). A packet without a version must not happen to look like one with a version (as in C72 and C73)."},
{"property": "C103", "status": "partial", "theorems": ["c103_carried", "c103_targets", "c103_limit_refuted", "c103_party", "c103_server", "c103_rldp"], "note": "The last sentence is false: with a limit of 2048 bytes or more such broadcasts are still sent in one piece and never arrive (c103_limit_refuted); everything else is proved. The defaults do not compress; a compressed payload has the limits of c101_fits."}
]}
