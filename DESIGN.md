# Formal model of broxus/everscale-network: design

The properties are in `properties.jsonl`, their status and theorem names in `MANIFEST.json`, the
wrong programs the theorems were tested against in `seeded/LOG.jsonl`.  This file says what is
modelled and how, what is trusted, what each property became, and what was found.

## Layout

* `rocq/theories/Base/`  – byte strings, little/big endian numbers, list lemmas, results.
* `rocq/theories/Model/` – executable Gallina model, one file per source file (or per
  group of functions).  No proofs.  Every definition cites the lines of `/repo` it models.
* `rocq/theories/Spec/`  – small specifications written without the model's helpers, the laws assumed
  of external libraries with lawful stand-ins, and sample histories for the examples.
* `rocq/theories/Proof/` – lemmas.
* `rocq/theories/Props/` – the property theorems, each closed by `exact`, each followed by
  `Print Assumptions` and by an `Example` in which a concrete, non-trivial case meets its hypotheses.

Names: theorem `cNN_...` belongs to property CNN.  `..._refuted`: the property, or a clause of it, is
false of the modelled code, shown by a witness or for all cases of a kind.  `..._partial`: only part of
the property holds or is proved; the comment above the theorem and the table below say what is missing.

Conventions: bytes are `N` (a byte string is well formed, `bytes_ok`, when all elements are < 256).
`u32`/`u64` arithmetic is unbounded except where a property is about wrap-around or overflow, where
`mod 2^32`/`mod 2^64` or an explicit panic value is written out.  Panics, and loops that do not end, are
explicit values.  Nothing is bounded: histories, numbers of peers, messages, threads and sizes are
arbitrary in the theorems, except where a theorem states a limit of the wire format.

## How concurrency, time and chance are modelled

* Concurrent code (`PacketsHistory`, `QueriesCache`, `BroadcastReceiver`, multipart transfers and
  their timers, the state of a peer, the tables of channels, the RLDP semaphores and transfer table, broadcast tasks, timers and the log collector, the locks of all tables) is a transition system with one step per
  shared access; theorems quantify over all interleavings (lists of events).  Atomics are taken as
  sequentially consistent.  `tokio::sync::Barrier` does not take an arrival back when the waiting
  future is dropped.
* The rest of the node is a sequential state machine: one received datagram, one call of the API, one
  timer is one step; histories are arbitrary lists of steps.
* Clock readings, random choices, fresh keys, iteration orders of hash maps and the results of I/O are
  arguments of the steps, hence universally quantified.
* The network (C19, C68, C72, C75-C77, C95, C97) is a bag of datagrams that may be lost, repeated and reordered.  In C19,
  C68, C95 and C97 the two nodes may have to do with others at any time (C96).

## Trusted base

* The Coq 8.16.1 kernel (including its virtual machine for `vm_compute`; `coqchk` re-checks everything
  without it), the standard library, and std++ for finite maps (`gmap`).
* `Print Assumptions` says "Closed under the global context" for every theorem in `Props/`: no theorem
  uses an axiom, of the standard library or other.  The whole-library context listed by `coqchk` contains
  the seven constants `Coq.ssr.ssrunder.Under_rel.*`, which belong to the standard library (a module sealed
  by a module type) and are loaded through std++; no theorem depends on them.
* Hypotheses that appear in theorem statements:
  * `prims_ok P` (`Spec/CryptoSpec.v`): lengths of SHA-256 digests, keys, shared secrets, key streams and
    signatures; digests and public keys are bytes; public keys of secrets are valid; X25519 agreement
    is commutative; genuine signatures verify.  Lawful instances: `toy`, `light`, `brief`.  Nothing is assumed
    about secrecy.  Secrecy of encrypted content is not a subject of any theorem.
  * `no_collision` / `separate` (and the channel id variant in C18): SHA-256 has no collision *among the
    messages hashed in the history at hand*.  It is never stated as "or there is a collision", which
    would be trivially true.
  * `only_says` (C71): a signature that verifies under a key was made by its owner over that text.
    Elsewhere authenticity is stated as "has a valid signature under the key", without unforgeability.
  * `zstd_ok z` (`Spec/CompressionSpec.v`): decoding two concatenated frames gives the two contents.
    Instance: `toy_zstd`.
  * `fec_ok F` (`Spec/FecSpec.v`): number and size of source symbols; a decoder fed symbols of some data
    gives nothing or that data; it gives the data once it has all source symbols.  Instance: `toy_fec`.
    One source block is used, the n-th repair packet has the number K + n, as in the raptorq crate.
* The reading of the Rust source.  tl-proto (TL encoding: padding, vectors, flags, constructor ids computed
  from the scheme), everscale-crypto (ed25519, TL public keys), tokio (channels, barrier, timers), dashmap
  (maps with atomic operations), crossbeam-queue, zstd and raptorq are modelled from their
  documented behaviour; the definitions that rely on it say so.  TL constructor ids are
  literals in `Model/Scheme.v`; that they are the CRC-32 of the lines of the scheme is computed there, that they
  are distinct is proved (`c58_constructor_ids_distinct`).

## What is modelled

| source file | model |
|---|---|
| `util/packets_history.rs` | `History` (sequential), `HistoryConc` (per atomic operation) |
| `adnl/encryption.rs`, `channel.rs`, `handshake.rs`, `packet_view.rs` | `Encryption`, `Channel`, `Handshake` on byte values, `InPlace` with checked indices and pointers |
| `adnl/node_id.rs`, `util/mod.rs`, `util/address_list.rs`, `util/updated_at.rs`, `adnl/peer.rs`, `adnl/transfer.rs` | `AdnlNode`, `Peer`, `Transfer` (sequential), `TransferConc`, `PeerConc` (per shared access, with timers) |
| `adnl/node/{mod,sender,receiver}.rs` | `AdnlNode`, `NodeQueries`, `TablesConc`: peers, channels, sending of messages, queries and pings, receiving of datagrams down to subscribers and answers |
| `adnl/peers_set.rs`, `keystore.rs`, `queries_cache.rs`, `ping_subscriber.rs`, `subscriber/mod.rs` | `PeersSet`, `Keystore`, `Queries`, `Subscribers`, `Layers` |
| `proto/{adnl,rldp,dht,overlay,rpc}.rs` | `Tl`, `Scheme`, `ProtoAdnl`, `ProtoRldp`, `ProtoDht`, `ProtoOverlay` |
| `rldp/{compression,decoder,encoder,incoming_transfer,outgoing_transfer,transfers_cache,node}.rs` | `Compression`, `Fec`, `RldpTransfer`, `RldpQuery`, `RldpTable`, `RldpLimit`, `RldpNode`, `RldpTiming` |
| `dht/{storage,buckets,node,peers_iter,entry,streams,futures}.rs` | `DhtStorage`, `DhtBuckets`, `DhtNode`, `DhtStream`, `DhtTasks` |
| `overlay/{overlay,overlay_id,node,broadcast_receiver}.rs` | `OverlayPeers`, `Broadcast`, `OverlayNode`, `Receiver` |
| `util/network_builder.rs`, the `Deferred` layers | `Builder` |
| the locks of all shared tables | `Locks` |
| `adnl/socket.rs`, `start_sender`, `start_receiver`, `start`, `shutdown`, `Drop` of the ADNL node | `Socket`, `Lifecycle` |

Not modelled: the UDP socket itself (any datagrams and failures), the pseudo random generator (`util/fast_rand.rs`; any
choice is allowed), metrics, tracing, `Display`/`Debug`, the defaults of options without a model, the periodic loops themselves (their bodies are steps that may happen at any time), relaxed memory
effects beyond sequential consistency, running time, and secrecy.

## Properties

| id | property | what is modelled | how it is proved | status | remarks |
|---|---|---|---|---|---|
| C01 | Replay protection | `PacketsHistory` sequentially: 8 words, index, masks | refutation by witness; invariant over all histories for numbers below the window; exact characterisation of the rest | partial | false in general (numbers from 256 on are never remembered); proved below 256, and the complete behaviour is characterised for all histories |
| C02 | Concurrent packets do not race past replay protection | `deliver_packet`, one step per atomic operation, any number of threads | invariant: the compare-and-swap to IN_TRANSIT is a lock; log of accepted numbers | partial | false in general (ABA race, witness schedule); proved: mutual exclusion, later duplicates rejected and no number lost below 256, for all schedules |
| C03 | Channel encryption round-trip between the two ends | `Channel::new/encrypt/decrypt` on bytes | round-trip algebra | proved | for all keys, ids, payloads and versions, under the laws of the primitives (prims_ok); excluded and shown necessary: an empty payload with a version; excluded as a 256-bit hash coincidence: an unversioned packet whose shifted bytes are the hash of a versioned text |
| C04 | Channel decryption accepts only faithful packets | same | inversion of `decrypt` | proved | for every datagram |
| C05 | Handshake packet round-trip | `build_handshake_packet`, `parse_handshake_packet` | as C03 | proved | same side conditions as C03 |
| C06 | Packet contents survive the wire | TL primitives, ADNL messages, packet contents | round trip by combinator lemmas | proved | any trailing bytes; packets carry one or two messages as in the sender |
| C07 | The receiver verifies exactly the bytes the sender signed | `PacketContentsSignature::extract` on bytes | list splitting | proved | packets below 64 KiB (offsets are u16; the receive buffer is 2048 bytes) |
| C08 | Handshake packets are attributed only to keys that signed them | `check_packet` on the node state | case analysis; end-to-end inversion of reception | proved | end to end from the datagram to the deliveries; the case of a source named by id only is C60 |
| C09 | Reinit dates only move forward | `try_reinit_sender`, the reinit part of `check_packet` | invariant over histories | proved | over all histories without removal or reset of the peer |
| C10 | Large messages arrive whole | splitting loop of `send_message` and reassembly | refuted above a size for every message; proved below | partial | proved up to 2048 serialized bytes on a working channel (1968 with a channel proposal, 1936 with a confirmation); shown false for every longer message: the parts sent leave gaps |
| C11 | Reassembled messages are authentic | `Transfer::add_part` | invariant over parts | proved | sequential processing of parts, arbitrary interleaving of transfers; pieces non-empty |
| C12 | Adding a part always terminates and ignores repeated offsets | `add_part` with explicit fuel | refuted by witnesses; termination measure for non-empty parts | partial | termination proved for non-empty parts and refuted with an empty one; a repeated part is never counted, but with other bytes it replaces the earlier one |
| C13 | Peer set is a bounded set with first-in first-out replacement | `PeersSetState`: map, index vector, cursor | refinement to a bounded queue | proved | refinement to a bounded queue, with and without initial peers |
| C14 | Random peer selection | selection functions over arbitrary positions | set reasoning | proved | random positions are arbitrary distinct positions; amount = u32::MAX with an exception overflows and is excluded |
| C15 | Keystore lookups are consistent | `Keystore` | invariant | proved |  |
| C16 | A failed keystore insertion changes nothing | `Keystore` | refutation; frame | partial | false as stated: a duplicated key leaves its tag behind and a retry succeeds; everything else is unchanged |
| C17 | Answers reach exactly the query they belong to | `QueriesCache` with its tasks as a transition system | invariant over all interleavings | proved | all interleavings of atomic steps; query ids distinct |
| C18 | Channel tables stay consistent | both channel tables; create, confirm, remove, reset | invariant over all node operations | proved | for any number of local ids, over all node operations; hypothesis: no collisions between the 256-bit channel ids of different peers or priorities |
| C19 | Channel establishment converges | two complete nodes and a bag of datagrams | invariant over all executions | proved | Two complete nodes (Model/AdnlNode.v), any number of messages, losses, repetitions and reorderings; no reset, as the property says; messages that fit in one packet. Both nodes may do anything with others meanwhile and receive any datagrams from them; excluded are datagrams that name the other of the two and are not its own (C82 shows why) and coinciding channel ids. |
| C20 | Peer table semantics | `add_peer`, `remove_peer` | invariant | proved | invariant over all node operations, including peers added by received packets |
| C21 | Address list validation | `parse_address_list` | equivalence | proved | exact characterisation; the sum now + tolerance is taken without overflow |
| C22 | Socket address packing is lossless | packing functions | round trip | proved | all addresses |
| C23 | Every datagram fits the MTU and the receive buffer | `send_message`, `send_packet` over the real codec | length computation over all histories | proved | bound 1360 for every datagram of every history |
| C24 | Subscribers are asked in order and exactly one handles | dispatch loops with a log of calls | induction | proved |  |
| C25 | A channel is reset only after silence | `update_drop_timeout`, `reset_drop_timeout`, query timeout | invariant over timed histories; refutation by witness | partial | proved for the channel the query was sent over; the channel that is dropped is the peer's current one, which may be another, healthy one (witness) |
| C26 | Compression round-trip | `compress`, `decompress` over abstract frames | algebra | proved | zstd is a parameter with the law zstd_ok |
| C27 | RLDP payloads are delivered unchanged | payload path of RLDP | refutation; exact characterisation | partial | false as stated: a payload that equals the compressed form of other data is delivered as that data; the payloads delivered unchanged are characterized exactly |
| C28 | Incoming transfers are bounded | `IncomingTransfer` over an abstract decoder | invariant | proved |  |
| C29 | RLDP reassembly returns the original data | same | invariant with an honest sender | proved | RaptorQ is a parameter with the laws fec_ok |
| C30 | Outgoing parts cover the data exactly | `OutgoingTransfer`, encoder | arithmetic, invariant | proved |  |
| C31 | Every chunk of a part carries a fresh symbol | same | refutations; invariant inside the window | partial | false as stated: beyond the window all repair chunks repeat one symbol, and sequence numbers of different parts are compared (overflow in checked builds) |
| C32 | Any answer within the size limit can be delivered | size checks on both sides over the codec | refutation; bound | partial | false as stated: the limit is checked before the answer is wrapped; with 43 bytes of room it holds |
| C33 | RLDP transfer table entries are always removed | life cycle of table entries, timers as events | invariant; refutations | partial | holds for queries; false for answers whose transmission fails or whose timer fires late |
| C34 | Transfer ids of a query and its answer never collide | `negate_id` | algebra | proved |  |
| C35 | RLDP timeouts are bounded | `QueryOptions`, `is_timed_out` | arithmetic invariant | proved | assumes min <= max in the options |
| C36 | At most max_peer_queries RLDP queries per peer run in parallel | semaphore map with its collector as a transition system | refutation; invariant otherwise | partial | false as stated: garbage collection between looking up the semaphore and taking the permit voids the limit; holds otherwise |
| C37 | The DHT storage serves only live, authenticated values | `Storage` and its node | invariant over histories | proved | over all histories of a node; hypothesis: the hashed keys of the history do not collide |
| C38 | Stored values are replaced only by newer ones | `Storage::insert` | case analysis | proved |  |
| C39 | Overlay node lists are merged keeping the newest record of each node | merging of overlay node lists | specification of the merge | proved | for live stored lists of fewer than 2^32 nodes; without a limit on the length of the merged list |
| C40 | Affinity is the common prefix length | `get_affinity` | XOR metric lemmas | proved |  |
| C41 | Node lookup returns the closest nodes | `Buckets::find` and the query handler | bit-level lemmas; refutations | partial | false as stated: within the last bucket the choice is arbitrary, k = 0 gives one node; proved between buckets, end to end from the query to the answer |
| C42 | find_value replies honour k and the storage | handler of findValue | invariant, end to end | proved | end to end from the query to the answer, over all histories of a node |
| C43 | Peer penalties follow the documented rule | penalties | counting specification; refutations | partial | false as stated: the first failure is free and timeouts count as successes; the rule holds from the first failure on without timeouts |
| C44 | A DHT lookup returns only authentic values of the requested key | `parse_value_result`, `find_address` | refutation; inversion | partial | false: replies with another update rule are not verified and the key of the reply is not compared with the requested one; the part that holds is proved |
| C45 | Lookup order prefers the closest good peers | `PeersIter` | refutations; permutation reasoning | partial | known, good, different peers including all closest ones; false for the rest of the batch, for the order and for peers added later |
| C46 | A lookup stream explores every selected peer once and ends | value stream as a transition system | invariant, measure | partial | all claims but the limit: up to six queries are in flight although the limit is five. With new peers appearing meanwhile (c46_new_peers) the set of known peers is assumed not to be full (65536 peers), since a full set replaces members. |
| C47 | Only verified peers enter an overlay | overlay peers | invariant | proved |  |
| C48 | A removed public peer is no longer contacted | same | refutation; frame | partial | false: a removed peer stays a neighbour until the next shuffle and still receives broadcasts |
| C49 | Delivered broadcasts are authentic | ordinary broadcasts with clock, log, collector | invariant over timed histories | proved | every delivery of an ordinary broadcast has a valid signature of the reported sender over data and date and was received in time |
| C50 | Broadcasts are delivered at most once | same | refutation at the boundary; invariant | partial | false for a message dated in the second of its first reception or later (delivered again at the end of the timeout after the log forgot it); proved for messages dated before that second |
| C51 | Delivered FEC broadcasts are authentic | FEC broadcasts, tasks, decoder | invariant | proved | every FEC delivery is decoded from packets received in time and signed by the reported sender, has the announced size and the hash that is the broadcast id |
| C52 | Forged packets cannot suppress a broadcast | same | refutation; progress argument | partial | false: one badly signed packet in the sender's name ends the reception, and a packet of somebody else with the same hash that comes first makes the sender's packets ignored; proved when neither happens before the delivery, whatever else is sent |
| C53 | Outgoing FEC broadcast sends the announced number of packets | sending loop | refutation; loop invariant | partial | false: after the source symbols the sequence number doubles, so only one repair packet is sent; proved that all source symbols and at least one distinct repair symbol are sent |
| C54 | The broadcast log is bounded | counters of the collector | refutation; invariant | partial | false: a collector pass between the two halves of a timeout leaks one entry for ever; proved bound of maximum plus number of such passes, removal of the oldest only, and retention for at least the timeout |
| C55 | Received broadcasts are handed to waiting users without loss | `BroadcastReceiver`, any number of callers and tasks | invariant, progress under fair rounds | proved | For every interleaving; wake-up under fair scheduling with an explicit bound on the number of rounds. Sequentially consistent atomics; tokio Barrier(2) modelled. |
| C56 | Cancelling a wait does not disturb other waiters | with cancellation | refutation; counting invariant | partial | False of the code: a cancelled wait leaves its barrier and its lock behind. Proved instead: at most one broadcast per cancelled wait stays queued while somebody waits. |
| C57 | Layers subscribe before the node starts | builder chain and layers | induction over calls | proved | Any chain of builder calls (the code accepts up to four layers): success exactly when the socket is bound and every key exists, with the exact subscribers in order; otherwise nothing is started. Also any sequence of add/start calls on a node. Finding: with more than one layer a socket failure is reported as 'ADNL was not initialized'. |
| C58 | TL codec of all protocol messages is unambiguous | all proto files | codec combinators | proved | byte strings below 2^24 bytes as required by the TL format |
| C59 | Overlay node discovery retries unresolved nodes and terminates | discovery rounds | refutations; invariant | partial | both claims false: a node is never resolved again and the search goes on while lists arrive without addresses |
| C60 | Only signed packets are accepted outside channels | `check_packet` | refutation for every lawful instance | partial | false: a packet naming its source by id needs no signature; shown for every lawful instance of the primitives, node, peer and payload |
| C61 | Values published through the API are accepted and found | `sign_entry`, `store_*` and the storage of another node | end-to-end computation | proved |  |
| C62 | A node's announcement is accepted by other nodes | `sign_local_node`, `add_dht_peer` | same | proved |  |
| C63 | The routing table keeps the newest record of each node | `Buckets::insert` inside the node | refutation; table lemma | partial | false: the record of a known node is never replaced; the table by itself keeps the newest |
| C64 | DHT queries are answered, others are left alone | `try_consume_query` | case analysis, fuel shown sufficient | proved |  |
| C65 | Peer exchange of an overlay only carries valid records | `process_get_random_peers`, `exchange_random_peers` | invariant | proved |  |
| C66 | Ordinary broadcasts of honest senders are delivered unchanged | sender and receiver of a broadcast | end-to-end computation | proved | under the hypothesis that no other decompression of the payload carries the same signature |
| C67 | Broadcasts are forwarded unchanged and at most once | forwarding log | invariant; refutation | partial | forwarding unchanged to other neighbours proved; at most once is false for packet numbers from 256 on and proved below, under the date conditions of C50 |
| C68 | Messages between two nodes arrive | as C19 with messages | invariant over all executions | proved | Same setting as C19. Repetition is excluded only while fewer than 256 packets were sent: beyond that C01 is false of the code. Messages that fit in one packet; no reset; others as in C19. |
| C69 | Overlays of one node are independent | overlay node | non-interference by projection; dispatch by cases | proved | Non-interference between overlays for every history; first creation/registration wins (finding: a private overlay added under an existing public id silently gets the public one); exact dispatch of queries; end-to-end delivery of an ordinary broadcast between two nodes. |
| C70 | Decoding a datagram stays inside its buffer | `PacketView`, in-place decryption, `extract` with checked accesses | simulation by the value-level model | proved | Index-checked model of in-place decoding: never out of bounds, same result as the value-level decoder, for every datagram. |
| C71 | Signatures and identifiers serve one purpose only | every text that is signed or hashed to an identifier | injectivity of encodings | proved | Every text put under a signature determines its kind and content (absent a hash collision among the messages hashed); same for identifiers. Finding: the overlay of a broadcast is not signed, so it can be replayed in another overlay (c71_overlay_refuted). |
| C72 | A query between two nodes returns the answer given to it | two nodes with their query tables and subscribers | invariant over all executions | proved | End-to-end queries between two nodes over all executions of the unreliable network; on top of C17, C19 and C68. Channels are not reset meanwhile. |
| C73 | Parts of one message may be processed by several tasks at once | `Transfer`, the transfer table and its timers, one step per shared access | invariants over all interleavings | proved | All interleavings of tasks, timers and clock, one step per shared access. Finding: a task that is late reports 'received too much' although every piece came exactly once (c73_no_error_refuted); the message is reported all the same. |
| C74 | A message sent again is delivered again | as C73 | false in general: witnesses; otherwise simulation that forgets earlier transfers, and C73 | partial | False in general: removal is by id, so the timer of the earlier transfer (c74_timer_refuted) or a late task of it (c74_late_removal_refuted) removes the new transfer and the second copy is lost. Proved, for all interleavings, when nothing of the earlier transfers is left (tasks ended, timers run out). |
| C75 | An RLDP query between two nodes returns the answer given to it | two composite RLDP nodes (`RldpNode`: table, receivers, senders, query and answer tasks, timers) and the network | invariant relating every transfer of the query to its content, over all events; liveness by a simulation of the lossless exchange | proved | Two RLDP nodes with all their tasks, all interleavings and deliveries, arbitrary other traffic; the query is answered identically whenever it is asked (see C76 for what happens otherwise). Messages under the query's own (random) transfer ids come from the two nodes; c75_anyone_refuted shows that this is needed because transfers are not bound to a peer. |
| C76 | An RLDP query is executed at most once | as C75 | invariant on the tasks of the responder; witnesses for the failures | partial | False in general: after the responder has cleaned up, a late message of the query makes it execute again (c76_once_refuted), and two different answers may be mixed into one nobody gave (c76_mixed_refuted). Proved until the clean-up. |
| C77 | A transfer reported as sent was received | as C75; the lossless exchange of one transfer | induction over parts and symbols; invariant relating what the sender believes to what was received; witness for the failure | partial | False in general: when the responder's timer fires during reception, later chunks are confirmed as complete without being received (c77_received_refuted). Proved: as long as the responder has neither forgotten the query nor let its timer fire, a query reported as sent was received completely (c77_received_partial); a transfer that loses nothing ends with success at both sides, for all data. |
| C78 | Channels are keyed as the protocol says and replaced only by newer ones | `Channel::new`, `create_channel`, `process_message` | by cases, for every state of the node | proved | Key derivation stated on byte positions, replacement for every state of the node. |
| C79 | Storing a value with a check tells whether the DHT has it | `StoreValue`, `then_check`, the lookup stream over the growing node (`DhtTasks`) | invariant over all histories of the operation, composed with C61 for what the peers do | partial | False clauses: check_all has no effect, one forged answer decides store_address in either direction, peers with the documented limit refuse lookups. Everything else proved for all schedules (sets of peers that are not full). |
| C80 | Discovery asks every known DHT node and learns all valid nodes | `find_more_dht_nodes` (`DhtTasks`) | invariant over all orders of answers; witness and general refutations for the abort and the count | partial | False in general: one malformed record aborts the discovery and the later answers are lost; the count includes known peers. Proved when no record is malformed. |
| C81 | Members of an overlay exchange the peers they know | `exchange_random_peers_ext` (`OverlayExchange`), the query routing of the overlay node and the pair of ADNL nodes | by composition: invariant of the overlay, codec round trip, and the round trip of C72 | proved | End to end: codec, query routing of the overlay node, records, and the two ADNL nodes. The random sample is a hypothesis (distinct positions, as many as wanted and possible). |
| C82 | Only the peer itself can change the connection with it | the node of C08, with datagrams of third parties (`forged_datagram`) | case analysis of the reception; general refutations for every lawful cryptography, node and known peer, the second one with the monotonicity of C09 | partial | False in general: a packet that names its source by id only needs no signature, so one datagram of a third party replaces the channel or locks the peer out. Proved for datagrams that cannot be opened and for those in the name of a public key. |
| C83 | The wire format is the one of the TL scheme | a reader of TL declarations and the encoding they define (`Spec/TlScheme.v`, with the text of scheme.tl word for word), values with named fields (`Spec/TlValues.v`); codecs of C58, `add_dht_peer` | computation of the parsed declarations, then per type by rewriting with range lemmas; for packets with arbitrary optional fields a lemma per field, without case distinction over the 4096 combinations | partial | Writing is proved for all types. Reading is false in general: IPv6 addresses make the whole packet or answer unreadable, and records with several addresses or a priority fail the signature check; proved for IPv4 addresses, at least one message and 64-byte signatures. |
| C84 | A broadcast reaches the whole overlay | any number of overlay nodes (C50, C77) joined by a network that reorders, repeats and loses messages and carries messages of adversaries (`Spec/GossipSpec.v`) | invariant over the run of all nodes: who has the broadcast, who passed it on and to whom; induction over paths; the refutation by a run of sample nodes | partial | False when nodes pass on to fewer neighbours than they have (options secondary_broadcast_target_count): a neighbour can be left out by everybody. Proved for full flooding, and in general for all nodes to which the message was passed. Ordinary (unfragmented) broadcasts only; an FEC packet whose data hash equals the id of the broadcast is excluded. |
| C85 | A value stored in the DHT is found by others | a network of DHT nodes (each the node of C37-C44) and a reader with the lookup of C46 (`Spec/DhtNetSpec.v`); answers are computed by the nodes, losses and everything else on the nodes are decided by the environment | invariant of the node that holds the value and of the answers it gave, over all events; C46 for the rest; the refutation by a run of a sample network | partial | False for peers learnt during the lookup: the first new peer of every refill is skipped, so a lookup can end without asking the only node that has the value although its record was received. Proved for all nodes that are asked, and that every peer known at the start of a full-batch lookup is asked. |
| C86 | The library's locks never bring it to a standstill | the acts of taking and dropping locks of every operation on the shared tables (`Locks`): shards of `DashMap`s, the lock of `PeersSet`, mutexes | an order on all locks along which every operation takes them; a stuck set of tasks would be an endless ascent among finitely many awaited locks; the refutations by concrete schedules | partial | False for two uses of public functions: filling two sets of peers from each other at the same time, and adding a DHT peer while iterating over the known peers. Proved for everything else, with any number of tasks. Locks only: the tables' contents are in the other models; the branches an operation takes are arguments. |
| C87 | A node works from its start until it is shut down | registration, start, shutdown, references, and one turn of each of the two loops between queue, socket and handlers (`Lifecycle`) | invariants over all events by case analysis of a step; the refutation by a sample life | partial | False for dropping: the receiving loop holds a reference to the node, so a started node that is dropped without shutdown runs forever. Everything else is proved. |
| C88 | The receive buffer gets as large as the system allows | the binary search with checked 32-bit arithmetic (`Socket`) | induction over the number of questions; the size found is characterised for every interval | proved | The system is any function; c88_largest assumes that it refuses exactly what is above a limit. |
| C89 | Peers are found by their addresses | `match_peer_addresses` on the peer table (`PeerAddresses`) | induction over the iteration | proved | The order of the iteration is an argument; concurrent changes of the table are not part of it. |
| C90 | Packets go where the peer is known to be and tell where their sender is | `send_message`, `send_packet`, `check_packet`, `add_peer` of the ADNL node | case analysis of a send, with induction over the parts of a long message; packets are described by an independent reading (`Spec/AddressingSpec.v`) | proved | The consequence of a source being named by id only (no signature) is C82. |
| C91 | A broadcast received in parts is given up only after silence | the cleaner task, the removal task, the decoder task and the collector of FEC broadcasts (`Broadcast`) | invariant over all events: an unfinished entry has a sleeping cleaner; the refutation by a sample history | partial | False after one silence of the timeout: packets that come again do not stop the removal, and parts already received are lost. Proved when all pauses are shorter than the timeout minus one second (times are compared in whole seconds). |
| C92 | Packets of one peer that are handled at the same time do not disturb each other | the accesses of `try_reinit_sender`, `check_packet` and `send_packet` to the state of one peer, one step each (`PeerConc`) | invariant over all schedules of any number of tasks; a task alone is shown to be the sequential model; the refutations by concrete schedules | partial | False around restarts of the peer: the date is read and stored in two steps, so it can move back, and a late second reset forgets numbers. Proved: the date never falls below that at the start and older packets never pass; without restarts the numbers are gapless and unique. Delivering to a history and resetting one are single steps here; their inner steps are C02. |
| C93 | The tables of channels agree, whatever is done at the same time | `create_channel`, `reset_peer`, `remove_peer`, `add_peer` of one peer, one access to a table per step, with the guards they hold (`TablesConc`) | invariant over all schedules: at most one task is in the middle, and what it still has to do leads to agreement; the refutations by concrete schedules | partial | False when the peer is removed meanwhile (remove_peer holds no lock between its steps) and when it is known under two local ids (the lock is per local id, the channel per peer). Proved for creating, resetting and adding under one local id. One peer; other peers' entries, with other ids, are left out. |
| C94 | A broadcast in several packets reaches everybody whom its packets can reach | the overlay nodes and the network of C84, with packets of one fragmented broadcast (`Spec/GossipFecSpec.v`) | per reception: the node has seen the symbol or passes it on to all neighbours but the one it came from (case analysis of a step); induction over the run, then over paths; delivery from the invariant of the decoder (C52) | proved | Under full flooding, which the property supposes: with limited target counts a neighbour can be left out (C84). Data of which another reading after decompression has the same hash is excluded. How the sender emits its packets is C53; here they come to some nodes from outside. |
| C95 | Two nodes talk again after one of them reset the connection | the two nodes of C19 with `reset_peer` of `Model/AdnlNode.v` (`Spec/ResetSpec.v`) | the invariant of C19 read as one about the new key; the proposal replaces the old channel by C78; two more turns by the lemmas of C68; two refutations by computation on a sample | partial | The full statement is false of the code: a peer that remembers packets drops the first messages after the reset as repeated (c95_silenced_refuted), and if the peer speaks first, its confirmation of the old key is taken for one of the new key and the messages of the node that did the reset are lost (c95_crossed_refuted). Proved for nodes without packet history when the one that did the reset speaks first. |
| C96 | Peers do not disturb each other | the node of `Model/AdnlNode.v`; what concerns a peer in `Spec/BystanderSpec.v` | a frame lemma for every operation: only the entries of the peer it is about change; the channels of others have other handles and ids; refutation by computation | partial | The connection is proved untouched for all histories. The last part of the statement is false of messages sent in parts: these are kept in one table for all peers, and of two peers that send the same message at the same time one is not heard (c96_parts_refuted). That messages in one packet are handed over whatever others do is c68_arrives. |
| C97 | RLDP queries work through both layers | `Spec/StackSpec.v` puts the RLDP nodes of `Model/RldpNode.v` on top of the ADNL nodes of `Model/AdnlNode.v`: RLDP messages are encoded, sent and received as custom messages; `Model/RldpNode.v`: `rldp_reads` | invariant: every letter under way and every message handed to RLDP was sent by the RLDP of the other node; then C75 and C76 for the RLDP layers; liveness by simulation: every step of a lossless RLDP schedule is carried out by the ADNL layers (C68), and the schedule of C75 sends only short, well-formed messages and delivers only new ones | partial | All parts are proved, except that the subscribers are asked at most once only as long as the other node has not forgotten the query (10 s after the answer): c76_once_refuted. Assumed as in C60 and C75: nobody forges packets that name the peer, nobody else uses the transfer id, numbers fit into their fields; c97_answered and c97_possible are for nodes that send a version. |
| C98 | RLDP queries end in time and tell the round-trip time | the timing variables of the two loops of a query (`Model/RldpTiming.v`), with the clock and the progress seen at each turn as arguments; the results of the queries of `Model/RldpNode.v` | induction over the looks, with the time and number of the last news computed independently (`Spec/TimingSpec.v`); queries only go forward (invariant over all events); the refutations hold for all options | partial | Three clauses are false of the code: the duration is not limited, because every new symbol or message restarts the wait (c98_endless_refuted); without an estimate a failure leads to the estimate 0 and the minimum timeout from then on (c98_backoff_refuted); an answer that arrives within one look is measured twice, the second time as 0 (c98_halved_refuted). The rest is proved for all timings. |
| C99 | Values of the DHT travel between nodes | the DHT node of `Model/DhtNode.v` behind the queries of `Model/NodeQueries.v`, over the network of C72; `Spec/TripSpec.v` describes a query and its answer | composition: the round trip of C72, the insertion of C61, the invariant of C85 that the value is kept, and bounds on the sizes of the encodings | proved | For connections on which both letters of the query arrive in time (trip_ok); the connection may be in any state that the traffic of C72 leads to. |
| C100 | Each layer of a node gets its queries, and applications get their answers | the layers as subscribers, typed queries and the timeout (`Model/Layers.v`), on top of `Model/Subscribers.v`, `DhtNode.v`, `OverlayNode.v` and the queries of C72; which constructors belong to which layer is in `Spec/LayersSpec.v` | induction over the list of subscribers; every layer refuses foreign constructors in every state (C64, C69); composition with the round trip of C72 | proved | Assumed of applications: they leave queries and messages with foreign constructors alone. The answers travel over connections on which both letters arrive in time (trip_ok of C99). |
| C101 | Broadcasts and queries of overlays travel between nodes | the overlays of `Model/OverlayNode.v` and `Broadcast.v` as subscribers (`Model/Layers.v`) over the network of C72; the RLDP of C97; `Spec/OverlayTripSpec.v` says what a turn of the connection hands over | composition: the turn of C72 delivers the message, C100 leads it to the overlays, C66, C67 and C84 say what they do with it; sizes of the encodings are bounded; C97 with the overlay layer as answering subscriber | proved | For broadcasts sent in one piece. The packets of fragmented broadcasts (984 bytes with their header) are longer than one datagram allows for custom messages and travel in parts (C102); that enough of them suffice is C94. Assumed of applications as in C100. |
| C102 | Messages that need several datagrams arrive whole between two nodes | sending and receiving of `Model/AdnlNode.v`, the transfers of `Model/Transfer.v`; `Spec/LongSpec.v` lets the datagrams of one message arrive in any order | every datagram sent is shown to be acceptable to the other node in every state that agrees with it on the keys, the channel and the history; acceptance of one leaves the others acceptable; the parts are put together by C10; sizes are bounded with the estimate of the code | proved | One message in any state of the connection; its datagrams come in any order with nothing else in between (other traffic in between: C11, C73). Longer messages are split by the code in a way that never arrives (C10). A packet without a version must not happen to look like one with a version (as in C72 and C73). |
| C103 | With the default options every broadcast can be carried and nodes serve each other | `Overlay::broadcast` and the choice of targets (`Model/OverlayApi.v`), the default options (`Model/Defaults.v`) | case analysis of the call with the bounds of C101 and C102; C14 for the targets; C99 for the DHT; C75 for RLDP; the refutation uses the general statement of C10 on long messages | partial | The last sentence is false: with a limit of 2048 bytes or more such broadcasts are still sent in one piece and never arrive (c103_limit_refuted); everything else is proved. The defaults do not compress; a compressed payload has the limits of c101_fits. |

## Findings

Behaviour of the code that contradicts a stated property or that a user would not expect.  Where a theorem
establishes it, the theorem is named; the rest was noticed while modelling and is visible in the model.

### ADNL

* Replay protection: packet numbers from 256 on are accepted any number of times (`c01_replay_refuted`); two
  concurrent copies can both be accepted (`c02_race_refuted`); numbers near 2^64 overflow (`c01_overflow_panics`).
* A packet that names its source only by id is accepted without a signature outside a channel
  (`c60_unsigned_source_refuted`).  With one such datagram anybody who knows the public key of a node can replace the
  channel between it and a peer (`c82_channel_refuted`) or make it refuse all direct packets of the peer
  (`c82_date_refuted`).
* Messages longer than about two packets are never delivered: the offset of a part is advanced twice, so the
  parts leave gaps (`c10_long_messages_refuted`).
* An empty part makes the reassembly loop forever; a part repeated with other bytes replaces the first
  (`c12_endless_refuted`, `c12_overwrite_refuted`).
* Adding a key under a fresh tag fails when the key exists, but the tag stays behind (`c16_failed_add_refuted`).
* A query that times out may drop a newer, healthy channel (`c25_healthy_channel_refuted`).
* A versioned packet with an empty payload does not decrypt (`c03_empty_versioned_refuted`).
* After the reset of a peer the own numbering restarts while the remote still confirms old numbers, which is
  refused as too new.  The incremented receiver reinit date is not sent.  `Peer::reset` is documented to make the peer
  reset its state with the next message; in fact a peer that remembers packets drops the next messages as repeated
  (`c95_silenced_refuted`).
* `ConfirmChannel` names the key it confirms, but the receiver does not look at it.  A peer that has not heard of a reset
  confirms the old key; the node that did the reset takes this for a confirmation of the new one, marks its channel
  ready and sends everything over a channel the peer does not have (`c95_crossed_refuted`).
* The packet history is off by default, and then more than ten priority packets downgrade every later packet
  to the ordinary channel.
* `channels_by_peers` has one entry per peer id, whatever the local id.
* `get_random_peers` with an exception overflows at `u32::MAX`.
* When the socket cannot be bound and other layers exist, building reports "ADNL was not initialized"
  instead of the reason (`c57_reason_hidden`).

* Multipart transfers are removed by id, so a timer or a late task of an earlier transfer removes a newer one of
  the same message, which is then lost (`c74_timer_refuted`, `c74_late_removal_refuted`).  Two last parts at the
  same time make one task report "received too much" (`c73_no_error_refuted`).
* `transfer_timeout_sec` is documented as the time a transfer may take; the timer only ends transfers that have
  been silent for that long.  `add_part` is documented to ignore an offset that exists; it replaces the data.
* `query_min_timeout_ms` is documented to override smaller timeouts; `query_raw` does not apply it;
  `compute_query_timeout`, which would, is left to the callers.
* The timer of a multipart transfer decides that it is silent and removes it in two steps: a part that comes in between
  is lost with it (visible in `Model/TransferConc.v`).
* `match_peer_addresses` inverts the table of peers into a map by address, so of several peers behind one address only
  one is reported (C89 says which).
* An IPv6 address (`adnl.address.udp6` of the scheme) anywhere in the address list of a packet makes the packet unreadable; in the
  record of one node it makes an answer with many nodes unreadable (`c83_ipv6_refuted`).
* Parts of long messages are kept by the hash of the message, for all peers together.  When two peers send the same
  message and the parts arrive alternately, it is handed over in the name of one of them only, and the last parts of the
  other one stay behind as a transfer that never completes (`c96_parts_refuted`).
* `remove_peer` for one local id drops the channel of the peer whatever local id it belongs to.
* Dropping a started node does not stop it although `Drop` calls `shutdown`: the receiving loop holds a reference to the
  node, so the last reference is never dropped (`c87_drop_refuted`).  The same holds for the storage collector of a DHT
  node, a loop without end that outlives the node (not modelled).
* `start` after `shutdown` succeeds; the loops end at their first idle turn.
* **Two packets of a restarted peer can undo each other** (C92). `try_reinit_sender` reads the known date and stores the
  new one in two steps. Two packets of different lives can leave the older date (`c92_date_refuted`), so that a packet
  of an earlier life passes. Two packets of the same life can both reset the histories, the second reset after the first
  packet has passed: a copy of that packet passes again (`c92_replay_refuted`), and two packets are sent under one
  number, the second of which the peer drops (`c92_numbers_refuted`). A `compare_exchange` on the date would settle both.
* **The tables of channels can end up in disagreement** (C93). `remove_peer` holds no lock between its steps: a channel
  created meanwhile is left for an unknown peer, and is used with its old key when the peer is added again
  (`c93_removed_refuted`). `reset_peer` locks the peer under one local id, but the table of channels is per peer: a
  channel created under another local id meanwhile can lose its entries by id. It is then used for sending, receives
  nothing, and the repeated offer of the peer does not repair it (`c93_deaf_refuted`).

### RLDP

* A payload that happens to be the compressed form of other data is delivered as that data
  (`c27_payload_refuted`).
* Beyond the window all repair chunks carry the same symbol, and sequence numbers of different parts are
  compared (`c31_fresh_refuted`, `c31_window_refuted`).
* The answer limit is checked before the answer is wrapped (`c32_limit_refuted`).
* Table entries of answers leak when sending fails or a timer fires late (`c33_answer_refuted`, `c33_timer_refuted`);
  a cancelled query leaves its entries behind.
* The limit of parallel queries per peer is void after a collection between lookup and acquisition
  (`c36_limit_refuted`).
* Timeouts are only bounded when min <= max in the options.
* A responder that has cleaned a query up executes it again when one of its messages comes late
  (`c76_once_refuted`).  If the subscribers answer differently then, chunks of both answers share one transfer id
  and the requester may put an answer together that nobody gave (`c76_mixed_refuted`).  The clocks are not
  modelled: the responder waits for twice the longest timeout first.
* The timer of a responder replaces the transfer by `Done` even while it is being received.  Every further chunk
  is then confirmed as complete, so the sender reports success, and the responder tries to parse the incomplete
  data (`c77_received_refuted`).
* Transfers are not bound to a peer: whoever knows the transfer id can confirm its parts or answer in the place of
  the peer (`c75_anyone_refuted`).
* A query has no overall deadline: every newly confirmed symbol restarts the wait for the peer, and every message for the answer, useful or not, does too (`c98_endless_refuted`). A peer that trickles keeps the query, its transfer entries and one place of the per-peer limit for ever.
* A query to a peer without an estimate of the round-trip time waits for the maximum timeout; if it fails, it returns the estimate 0 (`0 * 2`), with which all later queries wait for the minimum timeout only, and the doubling never gets it off the ground (`c98_backoff_refuted`).
* When the answer is complete at the same look that noticed its messages, the clock has just been restarted, and a time of 0 is averaged in: the estimate returned is at most half of the time measured (`c98_halved_refuted`).

### DHT

* `find_node` with k = 0 returns one node, and the choice within the last bucket is arbitrary
  (`c41_size_refuted`, `c41_closest_refuted`); looking up the own id returns nothing (`c41_own_id`).
* The first failure of a peer is free and timeouts count as successes (`c43_first_failure_refuted`,
  `c43_timeouts_refuted`); announcing itself lowers a peer's penalty.
* A reply is not compared with the requested key, and values with another update rule are not verified: a
  peer can make `find_address` return any address and key (`c44_address_refuted`).
* A batch is not made of the closest peers, farther peers are asked first, a refill skips the first new peer
  (`c45_batch_refuted`, `c45_order_refuted`, `c45_refill_refuted`).  Because of the last point a lookup with new peers can end
  without asking the only node that has the value, although it received its record (`c85_learned_refuted`).
* Up to six queries are in flight although the limit is five (`c46_limit_refuted`).
* `find_overlay_nodes` never resolves a node again and may loop forever (`c59_no_retry_refuted`, `c59_endless_refuted`).
* The record of a known node is never replaced by a newer one (`c63_newest_refuted`).
* Merged overlay lists grow without bound.
* `check_all` of a store with a check is never read (`c79_check_all_refuted`).  One unsigned answer of any peer makes
  `store_address` report success, another one makes it fail, whatever the other peers stored (`c79_address_refuted`).
* Lookups always ask for six nodes; a peer with the documented limit of five (the code's default is twenty) refuses all
  of them (`c79_limit_refuted`).
* `find_more_dht_nodes` gives up at the first record with an unusable key or address and drops all later answers; its
  count includes peers that were known before (`c80_abort_refuted`, `c80_count_refuted`).
* The signature of a node's record is checked against the record as this code would write it, with one address and priority
  0.  Records that their owner signed with several addresses or a priority are refused (`c83_record_refuted`).
* Calling `add_dht_peer` (or anything that ends there) while iterating over `iter_known_peers` deadlocks: the iterator holds
  the lock of the set (`c86_iterate_refuted`).
* The references yielded by `iter_known_peers` outlive the lock under which they were taken (not modelled).

### Overlay

* `PeersSet::randomly_fill_from` reads the other set while it writes its own: two sets filled from each other at the same
  time deadlock (`c86_fill_refuted`).  The library itself fills in one direction only.
* A removed peer stays a neighbour until the next shuffle (`c48_refuted`).
* A broadcast dated in the second of its reception or later can be delivered twice (`c50_refuted`).
* A FEC broadcast is bound to the source of the first packet with its hash, before any signature is checked: whoever
  repeats the hash in their own name first makes the node ignore the real sender (`c52_squatted_refuted`).
* One badly signed packet in the sender's name ends the reception of a FEC broadcast (`c52_refuted`), and packets are
  redistributed before they are verified.
* After the source symbols the packet number jumps, so one repair packet is sent instead of half as many
  as source symbols (`c53_refuted`).
* A collector pass between the two halves of a timeout leaks an entry (`c54_refuted`).
* Packets that come after one silence as long as the timeout do not save an unfinished FEC broadcast: its removal is
  already scheduled and the parts received before and after are lost (`c91_late_refuted`).
* A cancelled wait for a broadcast leaves its barrier and its lock behind (`c56_refuted`, `c56_spins_refuted`).
* FEC packets numbered from 256 on are forwarded any number of times (`c67_refuted`).
* The overlay id is not under the signature of a broadcast: it can be replayed in another overlay of the
  same receiver in the sender's name (`c71_overlay_refuted`).
* Flags of ordinary broadcasts are not authenticated; with the any-sender flag, which all own broadcasts have, the
  broadcast id does not depend on the sender.
* A private overlay added under the id of an existing public one silently gets the public one (`c69_first_wins`).
* Broadcasts are passed on to a limited number of random neighbours: a member can be left out by all its neighbours
  although no message is lost (`c84_limited_refuted`).
* Ordinary broadcasts and FEC broadcasts share one table of seen ids: a FEC packet whose data hash is the id of an
  ordinary broadcast suppresses that broadcast (hence the hypothesis `no_fec` of C84).
* `max_ordinary_broadcast_len` must stay well below 2048: with a larger value, broadcasts of 2048 bytes or more are
  sent in one piece, are split into parts that no peer can put together, and never arrive (C103, because of C10).
* `Overlay::send_message` sends any data, but the receiving side reads it as a broadcast: anything else is reported as
  unreadable there and no subscriber sees it (`c69_direct`).  Only queries carry data of the user's choice.

## Testing the theorems

Each line of `seeded/LOG.jsonl` is one edit of the model in a scratch copy: the edit was applied, every definition and
statement was rebuilt, every proof that mentions a changed definition was run again, and the property theorems that rest on
a failing proof were listed.  An edit that left every theorem standing led to a stronger theorem, named in the line
together with what fails since.  Three edits repair a reported defect; there the refutation has to fail.
