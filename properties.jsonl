{"id": "C01", "title": "Replay protection", "statement": "With packet history enabled, once a packet with some sequence number has been accepted from a peer on a channel, no later packet with the same sequence number is accepted from it until the histories are reset.", "quantifier": "all histories of received sequence numbers (any 64-bit values, any order, any length)", "why_tests_cant": "the window logic depends on the whole history of accepted numbers; a test only replays a few sequences, and never the ones that cross a window boundary in every possible way", "anchors": ["src/util/packets_history.rs: PacketsHistory::deliver_packet, reset", "src/adnl/node/receiver.rs: check_packet"]}
{"id": "C02", "title": "Concurrent packets do not race past replay protection", "statement": "When several tasks check packets against one history at once, in any interleaving of their atomic operations, two tasks never both accept the same sequence number, and no accepted number is forgotten.", "quantifier": "all interleavings of any number of concurrent deliver operations on one history", "why_tests_cant": "the number of interleavings of the lock-free loop is unbounded and tests cannot force a schedule", "anchors": ["src/util/packets_history.rs: PacketsHistory::deliver_packet"]}
{"id": "C03", "title": "Channel encryption round-trip between the two ends", "statement": "Two peers that hold each other's channel public keys derive matching secrets: whatever one encrypts for the channel (ordinary or priority, with or without a protocol version) the other finds under the announced channel id and decrypts to exactly the same bytes and the same version.", "quantifier": "all pairs of distinct node ids, all key pairs, all payloads and versions", "why_tests_cant": "covers every payload length, every id order and every key; the unit test uses one 12-byte message", "anchors": ["src/adnl/channel.rs: Channel::new, encrypt, decrypt, build_priority_secret", "src/adnl/encryption.rs: decode_version, build_packet_cipher"]}
{"id": "C04", "title": "Channel decryption accepts only faithful packets", "statement": "If a received datagram is accepted on a channel then it is byte for byte the packet that honest encryption of the returned payload and version produces (apart from the channel id); in particular a datagram differing in any ciphertext, checksum or version byte is never silently decoded to other data.", "quantifier": "all byte strings received on a channel", "why_tests_cant": "quantifies over all datagrams an attacker may send, including ambiguous ones that look both versioned and unversioned", "anchors": ["src/adnl/channel.rs: Channel::decrypt", "src/adnl/encryption.rs"]}
{"id": "C05", "title": "Handshake packet round-trip", "statement": "A handshake packet built for a node is recognised by every node that holds the corresponding key, and yields exactly the sent bytes and version; a node without the key leaves it alone; too short packets are rejected.", "quantifier": "all keystores, payloads, ephemeral keys and versions", "why_tests_cant": "all payload lengths and key sets", "anchors": ["src/adnl/handshake.rs: build_handshake_packet, parse_handshake_packet"]}
{"id": "C06", "title": "Packet contents survive the wire", "statement": "Every packet the sender serializes (any messages, address, sequence numbers, reinit dates, optional signature and source key) is parsed by the receiver into exactly the same fields.", "quantifier": "all well-formed outgoing packets", "why_tests_cant": "the hand-written flag-driven codec has 2^k shapes and unbounded payload sizes", "anchors": ["src/proto/adnl.rs: OutgoingPacketContents::write_to, IncomingPacketContents::read_from, AddressList, Message"]}
{"id": "C07", "title": "The receiver verifies exactly the bytes the sender signed", "statement": "For every packet serialized with a signature, cutting out the signature on the receiving side reconstructs byte for byte the serialization of the packet without signature, i.e. the message that was signed.", "quantifier": "all well-formed outgoing packets and all 64-byte signatures", "why_tests_cant": "offset arithmetic in unsafe in-place editing must be right for every layout of the optional fields", "anchors": ["src/proto/adnl.rs: PacketContentsSignature::extract", "src/adnl/node/sender.rs: send_packet"]}
{"id": "C08", "title": "Handshake packets are attributed only to keys that signed them", "statement": "With mandatory signatures, a packet received outside a channel that carries a full source key is accepted only if it carries a valid signature of that key over the packet, and it is attributed to the hash of that key; a packet on a channel is attributed to the channel's peer and never carries an explicit source.", "quantifier": "all received packets, node states and clock values", "why_tests_cant": "attacker-chosen packets: all combinations of optional fields", "anchors": ["src/adnl/node/receiver.rs: check_packet"]}
{"id": "C09", "title": "Reinit dates only move forward", "statement": "The reinit date known for a peer never decreases; packets with an older date, with a date too far in the future, or addressed to a future incarnation of this node are rejected; whenever the date grows over a non-zero one all four packet histories of the peer are reset.", "quantifier": "all sequences of received reinit dates and clock values", "why_tests_cant": "invariant over arbitrary histories", "anchors": ["src/adnl/peer.rs: Peer::try_reinit_sender", "src/adnl/node/receiver.rs: check_packet"]}
{"id": "C10", "title": "Large messages arrive whole", "statement": "A message of any size handed to send (query, answer or custom message) and split into parts is reassembled by the receiver into exactly the same message when all packets arrive.", "quantifier": "all message sizes and all orders of arrival, for each channel state of the sender", "why_tests_cant": "sizes are unbounded and the splitting arithmetic differs per channel state", "anchors": ["src/adnl/node/sender.rs: send_message, build_part_message", "src/adnl/transfer.rs: Transfer::add_part", "src/adnl/node/receiver.rs: process_message"]}
{"id": "C11", "title": "Reassembled messages are authentic", "statement": "Whatever parts arrive, in whatever order, from whomever, a message is only delivered from a multipart transfer when its hash equals the transfer id; parts of a message cut into non-empty pieces are reassembled independently of arrival order and duplicates.", "quantifier": "all sequences of parts with arbitrary offsets, lengths and contents", "why_tests_cant": "attacker-controlled unbounded part sequences", "anchors": ["src/adnl/transfer.rs: Transfer::add_part"]}
{"id": "C12", "title": "Adding a part always terminates and ignores repeated offsets", "statement": "Processing one received part finishes after finitely many steps, and a part at an offset that is already present changes nothing.", "quantifier": "all sequences of parts", "why_tests_cant": "non-termination and state change on rare part layouts cannot be ruled out by sampling", "anchors": ["src/adnl/transfer.rs: Transfer::add_part"]}
{"id": "C13", "title": "Peer set is a bounded set with first-in first-out replacement", "statement": "A peer set never holds duplicates and never more than its capacity; insert returns true exactly when the peer was absent; it always holds the last inserted `capacity` new peers; its version counts the successful insertions.", "quantifier": "all sequences of insertions, all capacities", "why_tests_cant": "invariant relating hash map, ring buffer and cursor over unbounded histories", "anchors": ["src/adnl/peers_set.rs: PeersSet::insert, with_peers_and_capacity, contains, get, len, is_full, version"]}
{"id": "C14", "title": "Random peer selection", "statement": "A random selection of `amount` peers consists of distinct members of the set, never contains the excluded peer, and has exactly min(amount, number of eligible members) elements; filling one set from another only adds members of the other that are not excluded.", "quantifier": "all sets, amounts, excluded peers and all random choices", "why_tests_cant": "all outcomes of the random generator", "anchors": ["src/adnl/peers_set.rs: get_random_peers, randomly_fill_from"]}
{"id": "C15", "title": "Keystore lookups are consistent", "statement": "Every tag resolves to a stored key, every stored key is found by its own id, and adding a key never changes what existing tags and ids resolve to.", "quantifier": "all sequences of add operations, including failing ones", "why_tests_cant": "invariant over histories", "anchors": ["src/adnl/keystore.rs: Keystore::add_key, key_by_id, key_by_tag"]}
{"id": "C16", "title": "A failed keystore insertion changes nothing", "statement": "If adding a key with a tag is rejected because of a duplicated key or tag, the keystore is left as it was.", "quantifier": "all keystores, keys and tags", "why_tests_cant": "atomicity on error paths for all states", "anchors": ["src/adnl/keystore.rs: Keystore::add_key"]}
{"id": "C17", "title": "Answers reach exactly the query they belong to", "statement": "In any interleaving of queries, answers, timeouts and cancellations, each query receives at most one answer and only an answer carrying its own query id (ids being distinct), a second answer or an answer to an unknown query is ignored, and when every query has finished the table of pending queries is empty.", "quantifier": "all interleavings of any number of queries with arbitrary incoming answers", "why_tests_cant": "schedules of asynchronous tasks and remote messages", "anchors": ["src/adnl/queries_cache.rs", "src/adnl/node/mod.rs: Node::query_raw"]}
{"id": "C18", "title": "Channel tables stay consistent", "statement": "Over any history of channel creation, confirmation, peer removal and reset, every channel id used for receiving belongs to the current channel of some peer and every current channel is reachable under both of its receiving ids.", "quantifier": "all histories of channel operations, for one local id", "why_tests_cant": "two tables updated together over unbounded histories", "anchors": ["src/adnl/node/receiver.rs: create_channel", "src/adnl/node/mod.rs: remove_peer, reset_peer"]}
{"id": "C19", "title": "Channel establishment converges", "statement": "When two nodes exchange create/confirm messages, in any order with losses and repetitions but without a reset, both end up with the same pair of secrets, and a side starts to use a channel for sending only after the other side has created it.", "quantifier": "all delivery orders, losses and duplications of channel messages between two nodes", "why_tests_cant": "distributed interleavings", "anchors": ["src/adnl/node/receiver.rs: create_channel, handle_received_data", "src/adnl/node/sender.rs: send_message", "src/adnl/channel.rs: is_still_valid"]}
{"id": "C20", "title": "Peer table semantics", "statement": "Adding a peer never adds the node itself or an address equal to its own, consults the filter before anything changes, keeps the key and channel key of known peers while updating the address, and removal forgets the peer together with its channels.", "quantifier": "all histories of add/remove operations and filters", "why_tests_cant": "invariant over histories and arbitrary filters", "anchors": ["src/adnl/node/mod.rs: add_peer, remove_peer, get_peer_address"]}
{"id": "C21", "title": "Address list validation", "statement": "An address list is accepted exactly when it has an address, its reinit date is not later than now plus the tolerance, and it does not expire before now; the returned address is the list's first one.", "quantifier": "all address lists, clocks and tolerances", "why_tests_cant": "boundary conditions over all integers", "anchors": ["src/util/address_list.rs: parse_address_list"]}
{"id": "C22", "title": "Socket address packing is lossless", "statement": "Storing an IPv4 address and port in the packed form and reading them back gives the same address, and different addresses are stored differently; conversion to and from the wire address is lossless as well.", "quantifier": "all 2^48 addresses", "why_tests_cant": "2^48 cases", "anchors": ["src/adnl/peer.rs: pack_socket_addr, unpack_socket_addr", "src/proto/adnl.rs: Address"]}
{"id": "C23", "title": "Every datagram fits the MTU and the receive buffer", "statement": "Whatever message is sent (any kind, any payload length), every emitted datagram is shorter than 1500 bytes and than the 2048-byte receive buffer.", "quantifier": "all messages, payload lengths, channel states and versions", "why_tests_cant": "all payload lengths; size hints are constants unrelated to the codec", "anchors": ["src/adnl/node/sender.rs: send_message, send_packet", "src/proto/adnl.rs"]}
{"id": "C24", "title": "Subscribers are asked in order and exactly one handles", "statement": "A query or custom message is offered to subscribers in registration order until the first one that consumes it or fails; later ones are never asked; it is rejected exactly when all reject it.", "quantifier": "all lists of subscribers and messages", "why_tests_cant": "arbitrary subscriber lists", "anchors": ["src/subscriber/mod.rs: process_query", "src/adnl/node/receiver.rs: process_message_custom"]}
{"id": "C25", "title": "A channel is reset only after silence", "statement": "A query timeout resets a peer's channel only if no packet was received on that channel between an earlier timed out query and now, and that earlier timeout happened more than the configured reset timeout ago.", "quantifier": "all histories of query timeouts and received packets with a non-decreasing clock", "why_tests_cant": "histories over time", "anchors": ["src/adnl/channel.rs: update_drop_timeout, reset_drop_timeout", "src/adnl/node/mod.rs: query_raw"]}
{"id": "C26", "title": "Compression round-trip", "statement": "Decompressing the result of compression gives back the data for every input longer than the threshold; shorter inputs are passed through unchanged.", "quantifier": "all byte strings shorter than 4 GiB", "why_tests_cant": "all inputs", "anchors": ["src/rldp/compression.rs: compress, decompress"]}
{"id": "C27", "title": "RLDP payloads are delivered unchanged", "statement": "The query or answer bytes handed to RLDP or to a broadcast are the bytes the receiving subscriber sees, whether or not compression is enabled.", "quantifier": "all payloads", "why_tests_cant": "a payload that looks compressed is a rare input no random test produces", "anchors": ["src/rldp/compression.rs", "src/rldp/transfers_cache.rs: process_rldp_query", "src/rldp/node.rs: query", "src/overlay/overlay.rs: receive_broadcast"]}
{"id": "C28", "title": "Incoming transfers are bounded", "statement": "At every moment of an incoming RLDP transfer the collected data is no longer than the announced total size, the total size never changes after the first message and never exceeds the configured maximum.", "quantifier": "all sequences of received message parts", "why_tests_cant": "attacker-chosen histories", "anchors": ["src/rldp/incoming_transfer.rs: IncomingTransfer::process_chunk"]}
{"id": "C29", "title": "RLDP reassembly returns the original data", "statement": "Whatever chunks of an honest sender are lost, duplicated, delayed or reordered, if the receiver completes the transfer its data is exactly the sender's data, for any number of parts.", "quantifier": "all data sizes and all delivery patterns of the sender's chunks", "why_tests_cant": "unbounded sizes and delivery patterns", "anchors": ["src/rldp/incoming_transfer.rs", "src/rldp/outgoing_transfer.rs: start_next_part", "src/rldp/transfers_cache.rs: IncomingContext::receive"]}
{"id": "C30", "title": "Outgoing parts cover the data exactly", "statement": "The successive parts of an outgoing transfer are consecutive slices of at most 2,000,000 bytes whose concatenation is the data; a part is left only after the receiver confirmed it complete, and a transfer reports success only after the last part was acknowledged.", "quantifier": "all data lengths and all sequences of confirmations, including forged and repeated ones", "why_tests_cant": "unbounded lengths and histories", "anchors": ["src/rldp/outgoing_transfer.rs", "src/rldp/transfers_cache.rs: handle_message, OutgoingContext::send"]}
{"id": "C31", "title": "Every chunk of a part carries a fresh symbol", "statement": "While a part is being sent, no two chunks carry the same symbol, so that every received chunk helps decoding, and the sending window compares sequence numbers of the same part.", "quantifier": "all data sizes, losses and confirmation histories", "why_tests_cant": "needs long transfers with losses and missing confirmations", "anchors": ["src/rldp/outgoing_transfer.rs: prepare_chunk", "src/rldp/encoder.rs: RaptorQEncoder::encode"]}
{"id": "C32", "title": "Any answer within the size limit can be delivered", "statement": "If a subscriber's answer is accepted by the responder because it does not exceed the requested maximal answer size, the requester, configured with the same limit, accepts its transfer.", "quantifier": "all answer sizes and limits", "why_tests_cant": "boundary values of every limit", "anchors": ["src/rldp/transfers_cache.rs: process_rldp_query", "src/rldp/incoming_transfer.rs: process_chunk"]}
{"id": "C33", "title": "RLDP transfer table entries are always removed", "statement": "For every RLDP query and every answered query, whatever succeeds, fails or times out, both transfer ids it registered are eventually removed from the transfer table.", "quantifier": "all outcomes of sending and receiving, in all orders of completion", "why_tests_cant": "error paths combined with timers", "anchors": ["src/rldp/transfers_cache.rs: query, create_answer_handler"]}
{"id": "C34", "title": "Transfer ids of a query and its answer never collide", "statement": "The answer transfer id is determined by the query transfer id, differs from it, and deriving it twice gives the original id back.", "quantifier": "all 256-bit ids", "why_tests_cant": "2^256 ids", "anchors": ["src/rldp/transfers_cache.rs: negate_id"]}
{"id": "C35", "title": "RLDP timeouts are bounded", "statement": "The adaptive query timeout always lies between the configured minimum and maximum, whatever round-trip times were measured, and the waiting time granted to a transfer grows only with received updates.", "quantifier": "all histories of measured round-trip times", "why_tests_cant": "histories", "anchors": ["src/rldp/transfers_cache.rs: QueryOptions, is_timed_out"]}
{"id": "C36", "title": "At most max_peer_queries RLDP queries per peer run in parallel", "statement": "For each peer, at every moment at most the configured number of RLDP queries is in flight.", "quantifier": "all interleavings of queries and periodic garbage collection", "why_tests_cant": "schedules of async tasks", "anchors": ["src/rldp/node.rs: query, gc"]}
{"id": "C37", "title": "The DHT storage serves only live, authenticated values", "statement": "Every value the local DHT storage returns has not expired, is stored under the hash of its own key description, obeys the name and index limits, and is either signed by the key's owner or is a list of overlay nodes each of which carries a valid signature for that overlay.", "quantifier": "all histories of (possibly malicious) store requests, garbage collections and clock values", "why_tests_cant": "attacker-chosen histories", "anchors": ["src/dht/storage.rs: StorageOptions, Storage::insert, get_ref, insert_signed_value, insert_overlay_nodes, gc"]}
{"id": "C38", "title": "Stored values are replaced only by newer ones", "statement": "A signed value is replaced only by a value of the same key with a strictly later expiry; a rejected or failed store leaves the stored value unchanged; a value never disappears before it expires.", "quantifier": "all histories of store requests", "why_tests_cant": "invariant over histories", "anchors": ["src/dht/storage.rs: insert_signed_value, gc"]}
{"id": "C39", "title": "Overlay node lists are merged keeping the newest record of each node", "statement": "Storing an overlay node list merges it with the live stored one: each node appears once, with its highest version among both, no node is lost, and nothing else is added.", "quantifier": "all stored and received lists", "why_tests_cant": "all combinations of duplicates and versions", "anchors": ["src/dht/storage.rs: insert_overlay_nodes, make_overlay_nodes_value"]}
{"id": "C40", "title": "Affinity is the common prefix length", "statement": "The affinity of two ids is the number of leading bits they share (255 when they share at least 255), it is symmetric, and larger affinity means smaller XOR distance.", "quantifier": "all pairs of 256-bit ids", "why_tests_cant": "2^512 cases", "anchors": ["src/dht/buckets.rs: get_affinity"]}
{"id": "C41", "title": "Node lookup returns the closest nodes", "statement": "A lookup of k nodes for a key returns at most k known nodes, and no known node outside the answer is closer (XOR distance) to the key than one in the answer.", "quantifier": "all routing tables, keys and k", "why_tests_cant": "all tables and keys; metric reasoning over 256 bits", "anchors": ["src/dht/buckets.rs: Buckets::find"]}
{"id": "C42", "title": "find_value replies honour k and the storage", "statement": "A value request with k = 0 or above the configured maximum is refused; otherwise the reply is the live stored value or at most k nodes.", "quantifier": "all storages, keys and k", "why_tests_cant": "all boundary values", "anchors": ["src/dht/node.rs: process_find_value"]}
{"id": "C43", "title": "Peer penalties follow the documented rule", "statement": "Each failed query adds two penalty points to the peer, each successful one removes one point (never below zero), and a peer is considered bad exactly while its points exceed the threshold.", "quantifier": "all histories of query outcomes", "why_tests_cant": "histories", "anchors": ["src/dht/node.rs: update_peer_status, is_bad_peer", "src/dht/mod.rs: NodeOptions"]}
{"id": "C44", "title": "A DHT lookup returns only authentic values of the requested key", "statement": "Every value yielded by a DHT value lookup (for instance the address of a peer) belongs to the requested key and is signed by the owner of that key.", "quantifier": "all replies of all queried peers", "why_tests_cant": "malicious replies", "anchors": ["src/dht/node.rs: parse_value_result, verify_signed_dht_value, find_address"]}
{"id": "C45", "title": "Lookup order prefers the closest good peers", "statement": "The peers selected for a lookup round are known, not bad, not local duplicates, and contain the peers with the highest affinity to the key.", "quantifier": "all peer sets, affinities and batch sizes", "why_tests_cant": "all peer sets", "anchors": ["src/dht/peers_iter.rs: PeersIter::fill, next"]}
{"id": "C46", "title": "A lookup stream explores every selected peer once and ends", "statement": "The value stream queries each peer of its iterator exactly once, never keeps more queries in flight than its limit, yields every value that a queried peer returned, and ends when all peers have been processed, for every order of completion.", "quantifier": "all peer lists and all completion orders", "why_tests_cant": "async schedules", "anchors": ["src/dht/streams.rs: DhtValuesStream, DhtNodesStream"]}
{"id": "C47", "title": "Only verified peers enter an overlay", "statement": "A peer becomes a public peer of an overlay only with a node record for this overlay, of an Ed25519 key, carrying a valid signature of that key over its id, the overlay and the version; the node itself is never added.", "quantifier": "all received node records", "why_tests_cant": "attacker-chosen records", "anchors": ["src/overlay/overlay_id.rs: verify_overlay_node", "src/overlay/overlay.rs: add_public_peer, add_public_peers, filter_nodes, process_get_random_peers"]}
{"id": "C48", "title": "A removed public peer is no longer contacted", "statement": "After a public peer is removed from an overlay it is neither returned as known nor used as a broadcast neighbour until it is added again.", "quantifier": "all overlay states and histories", "why_tests_cant": "histories of additions and removals with small peer counts", "anchors": ["src/overlay/overlay.rs: remove_public_peer, update_neighbours"]}
{"id": "C49", "title": "Delivered broadcasts are authentic", "statement": "Every ordinary broadcast delivered to the user carries a valid signature of the reported sender over the delivered data and date, and the date is not older than the broadcast timeout.", "quantifier": "all received messages", "why_tests_cant": "attacker-chosen messages, with optional compression", "anchors": ["src/overlay/overlay.rs: receive_broadcast, make_broadcast_to_sign, is_broadcast_outdated"]}
{"id": "C50", "title": "Broadcasts are delivered at most once", "statement": "No broadcast is delivered to the user twice by one node, however often and from however many neighbours it is received.", "quantifier": "all histories of receptions, garbage collections and clock values", "why_tests_cant": "histories spanning the broadcast log size and timeouts", "anchors": ["src/overlay/overlay.rs: create_broadcast, spawn_broadcast_gc_task, Overlay::new gc loop"]}
{"id": "C51", "title": "Delivered FEC broadcasts are authentic", "statement": "Data delivered from an FEC broadcast hashes to the broadcast id, has the announced size when not compressed, and every chunk used to decode it was signed by the reported sender.", "quantifier": "all sequences of received FEC packets", "why_tests_cant": "attacker-chosen packet sequences", "anchors": ["src/overlay/overlay.rs: receive_fec_broadcast, spawn_fec_transfer_receiver, process_fec_broadcast"]}
{"id": "C52", "title": "Forged packets cannot suppress a broadcast", "statement": "If a node receives enough genuine packets of an FEC broadcast in time, it delivers the broadcast, no matter what forged packets are mixed in.", "quantifier": "all interleavings of genuine and forged packets", "why_tests_cant": "attacker-chosen interleavings", "anchors": ["src/overlay/overlay.rs: receive_fec_broadcast, spawn_fec_transfer_receiver"]}
{"id": "C53", "title": "Outgoing FEC broadcast sends the announced number of packets", "statement": "An outgoing FEC broadcast sends the one and a half times redundancy it announces: every source symbol once and all further announced packets as distinct repair symbols.", "quantifier": "all data sizes", "why_tests_cant": "all sizes", "anchors": ["src/overlay/overlay.rs: send_fec_broadcast, prepare_fec_broadcast", "src/rldp/encoder.rs"]}
{"id": "C54", "title": "The broadcast log is bounded", "statement": "The number of finished broadcasts remembered by an overlay returns to the configured maximum after each garbage collection pass, and unfinished ones are kept for at least the broadcast timeout.", "quantifier": "all interleavings of the timeout tasks with the collector", "why_tests_cant": "async schedules", "anchors": ["src/overlay/overlay.rs: Overlay::new gc loop, spawn_broadcast_gc_task"]}
{"id": "C55", "title": "Received broadcasts are handed to waiting users without loss", "statement": "Broadcasts are handed to callers of wait_for_broadcast in order, each to exactly one caller, none is lost, and whenever a broadcast is queued and a caller waits, the caller is woken, for every interleaving of pushes and waits.", "quantifier": "all interleavings of any number of producers and consumers", "why_tests_cant": "async schedules", "anchors": ["src/overlay/broadcast_receiver.rs: BroadcastReceiver::push, pop"]}
{"id": "C56", "title": "Cancelling a wait does not disturb other waiters", "statement": "If a caller stops waiting for a broadcast (its future is dropped), every later broadcast still reaches the remaining callers.", "quantifier": "all interleavings with cancellation", "why_tests_cant": "async cancellation points", "anchors": ["src/overlay/broadcast_receiver.rs: BroadcastReceiver::push, pop"]}
{"id": "C57", "title": "Layers subscribe before the node starts", "statement": "A network built with the builder starts ADNL only after every requested layer has been created successfully and subscribed; if a layer fails nothing is started.", "quantifier": "all combinations of layers and failures", "why_tests_cant": "all combinations", "anchors": ["src/util/network_builder.rs", "src/adnl/mod.rs: Deferred", "src/adnl/node/mod.rs: start, add_query_subscriber"]}
{"id": "C58", "title": "TL codec of all protocol messages is unambiguous", "statement": "Every ADNL, RLDP, DHT and overlay message is decoded to itself from its encoding, whatever bytes follow, and two different messages never share an encoding.", "quantifier": "all well-formed messages of unbounded size", "why_tests_cant": "all messages", "anchors": ["src/proto/adnl.rs", "src/proto/rldp.rs", "src/proto/dht.rs", "src/proto/overlay.rs", "src/scheme.tl"]}
{"id": "C59", "title": "Overlay node discovery retries unresolved nodes and terminates", "statement": "Searching overlay nodes through the DHT retries nodes whose address was not found in a previous round, and finishes when the DHT has nothing new to offer.", "quantifier": "all DHT replies", "why_tests_cant": "unbounded rounds", "anchors": ["src/dht/node.rs: find_overlay_nodes"]}
{"id": "C60", "title": "Only signed packets are accepted outside channels", "statement": "When signatures are required, a packet received outside a channel is delivered as coming from a peer only if it carries a valid signature of that peer's key, however the packet names its source.", "quantifier": "all received packets and node states", "why_tests_cant": "attacker-chosen packets", "anchors": ["src/adnl/node/receiver.rs: check_packet"]}
{"id": "C61", "title": "Values published through the API are accepted and found", "statement": "A value signed with the entry API, an address published with store_address and an overlay node published with store_overlay_node are accepted by every storage whose limits they obey; until it expires the value is returned by the node that stored it and accepted by whoever asked, with the published data.", "quantifier": "all keys, names, indices, data, servers and clients", "why_tests_cant": "needs the whole path sign, store, find, verify for all data", "anchors": ["src/dht/entry.rs: EntryWithData", "src/dht/storage.rs: insert", "src/dht/node.rs: parse_value_result, store_address, find_address, store_overlay_node"]}
{"id": "C62", "title": "A node's announcement is accepted by other nodes", "statement": "The signed record that a node sends about itself is accepted by every other node with synchronised clocks, which then knows the node under its id with its announced address.", "quantifier": "all pairs of nodes and histories of the receiving one", "why_tests_cant": "all states of the receiver", "anchors": ["src/dht/node.rs: sign_local_node, add_dht_peer"]}
{"id": "C63", "title": "The routing table keeps the newest record of each node", "statement": "After a node announced a newer record of itself, lookups return the newest record and not an older one.", "quantifier": "all histories of announcements", "why_tests_cant": "histories", "anchors": ["src/dht/node.rs: add_dht_peer", "src/dht/buckets.rs: insert"]}
{"id": "C64", "title": "DHT queries are answered, others are left alone", "statement": "A ping is answered with its own number; a query preceded by announcements is answered like the query itself by a node that knows the announced nodes; messages of other protocols are left to other subscribers without any effect.", "quantifier": "all queries and nesting depths", "why_tests_cant": "unbounded nesting", "anchors": ["src/dht/node.rs: try_consume_query"]}
{"id": "C65", "title": "Peer exchange of an overlay only carries valid records", "statement": "An answer to a random-peers query holds the node itself and at most four neighbours, each once and with a record signed for this overlay, and any other member accepts every record but its own; the peers taken after an exchange are the newest valid record of each node received since they were last taken.", "quantifier": "all histories of an overlay, all answers", "why_tests_cant": "all histories and all foreign answers", "anchors": ["src/overlay/overlay.rs: prepare_random_peers, process_get_random_peers, filter_nodes, exchange_random_peers_ext, take_new_peers"]}
{"id": "C66", "title": "Ordinary broadcasts of honest senders are delivered unchanged", "statement": "An ordinary broadcast of an honest member, compressed or not, that reaches a node within the timeout and is not known to it yet is delivered to the user at once, unchanged and with the right sender, and is sent on.", "quantifier": "all data, senders, dates and receiver states", "why_tests_cant": "all payloads, including ones that look compressed, and all states", "anchors": ["src/overlay/overlay.rs: send_broadcast, receive_broadcast, distribute_broadcast"]}
{"id": "C67", "title": "Broadcasts are forwarded unchanged and at most once", "statement": "A node sends on only what it received, byte for byte, to at most the configured number of neighbours and never back to where it came from, and sends each packet on at most once.", "quantifier": "all histories of receptions and all random choices of neighbours", "why_tests_cant": "histories with repetitions and attacker-chosen packets", "anchors": ["src/overlay/overlay.rs: receive_broadcast, receive_fec_broadcast, distribute_broadcast", "src/util/packets_history.rs: deliver_packet"]}
{"id": "C68", "title": "Messages between two nodes arrive", "statement": "When two nodes that know each other exchange messages, over handshakes or channels and while channels are being set up, every packet that reaches the other node in time is accepted and hands over exactly the message that was sent, attributed to its sender; a packet that arrives again is not handed over a second time when packet history is enabled.", "quantifier": "all histories of messages sent by both sides, all losses, reorderings and repetitions of packets, all options and random choices", "why_tests_cant": "distributed interleavings over an unreliable network", "anchors": ["src/adnl/node/sender.rs: send_message, send_packet", "src/adnl/node/receiver.rs: handle_received_data, check_packet, process_message"]}
{"id": "C70", "title": "Decoding a datagram stays inside its buffer", "statement": "Whatever bytes arrive, decoding them in place (finding the channel or key, decrypting, removing prefixes, cutting out the signature) never reads or writes outside the received buffer and never panics on an index; the result is the same as decoding the bytes as plain values, and cutting out a signature leaves exactly the signed bytes.", "quantifier": "all datagrams of any length and content, all channels and keys", "why_tests_cant": "every length and every byte, including hostile ones", "anchors": ["src/adnl/packet_view.rs", "src/adnl/channel.rs: decrypt", "src/adnl/handshake.rs: parse_handshake_packet", "src/adnl/node/receiver.rs: handle_received_data", "src/proto/adnl.rs: extract"]}
{"id": "C69", "title": "Overlays of one node are independent", "statement": "Messages, queries, consumers and owner's calls naming one overlay never change another overlay or the answers given in its name; the first creation of an overlay and the first registered consumer win; a query for an overlay reaches only that overlay or its consumer with exactly its bytes; a broadcast sent in an overlay by one node is delivered by that overlay of the receiving node and by no other; traffic that is not for overlays is left to other subscribers.", "quantifier": "all sequences of messages, queries and calls, all overlay ids", "why_tests_cant": "all interleavings of any number of overlays and all byte strings", "anchors": ["src/overlay/node.rs: try_consume_custom, try_consume_query, add_public_overlay, add_private_overlay, add_overlay_subscriber"]}
{"id": "C71", "title": "Signatures and identifiers serve one purpose only", "statement": "A signature a node made for one purpose (a packet, membership in an overlay, its DHT address, a DHT key, a DHT value, a broadcast, a part of a broadcast) never verifies as a statement of another kind or with another content; and the 32-byte identifiers of nodes, channels, overlays, workchain and validator-group overlay names and DHT keys never coincide for different subjects. This excludes hash collisions among the messages concerned. The overlay a broadcast was meant for is not part of what is signed.", "quantifier": "all pairs of statements and of subjects, all contents", "why_tests_cant": "all pairs of messages of any length and kind", "anchors": ["src/adnl/node/receiver.rs: verify", "src/proto/overlay.rs: NodeToSign", "src/dht/storage.rs: insert_signed_value", "src/dht/node.rs: add_dht_peer, sign_local_node", "src/overlay/overlay.rs: make_broadcast_to_sign, make_fec_part_to_sign", "src/overlay/overlay_id.rs: for_workchain_overlay, for_catchain_overlay, compute_short_id"]}
{"id": "C72", "title": "A query between two nodes returns the answer given to it", "statement": "Between two nodes that know each other, over a network that loses, repeats, delays and reorders packets: the answer a query returns was given by a subscriber of the other node for exactly that query; subscribers are handed only queries the other node asked, with its bytes and names, and (with packet history, fewer than 256 packets) each once; when the answer to a waiting query arrives the query returns it, whatever happened meanwhile; a query whose packet and answer arrive returns that answer. Messages fit into one packet, ids of queries are not repeated.", "quantifier": "all executions of two nodes: all queries, answers, timeouts, losses, repetitions, delays and orders", "why_tests_cant": "all interleavings of both nodes' queries and of an unreliable network", "anchors": ["src/adnl/node/mod.rs: query_raw", "src/adnl/node/receiver.rs: process_message, process_message_answer", "src/adnl/queries_cache.rs"]}
{"id": "C73", "title": "Parts of one message may be processed by several tasks at once", "statement": "However the tasks that process incoming parts, the clean-up timers and the clock interleave: a message reported for a transfer id has that id as its hash; one transfer reports its message in one task only; if every piece of a message comes within the timeout and nothing else comes under its id, the message is reported, at most as often as each of its pieces came, and no task reports a missing part or a wrong hash; a transfer for which nothing comes any more is forgotten once its timer has run after two timeouts of silence; one to which a part was added is kept for the timeout less a second.", "quantifier": "all interleavings of any number of tasks and timers at the granularity of single shared accesses, all parts, all delays", "why_tests_cant": "the races need particular interleavings of several worker tasks and timers", "anchors": ["src/adnl/transfer.rs: Transfer::add_part", "src/adnl/node/receiver.rs: process_message", "src/util/updated_at.rs"]}
{"id": "C74", "title": "A message sent again is delivered again", "statement": "When a large message has been delivered and the same bytes are sent again, with all parts arriving within the timeout, the message is delivered again.", "quantifier": "all interleavings of tasks and timers, all messages, all delays between the copies", "why_tests_cant": "depends on where timers and late tasks of the first copy fall between the parts of the second", "anchors": ["src/adnl/transfer.rs", "src/adnl/node/receiver.rs: process_message"]}
{"id": "C75", "title": "An RLDP query between two nodes returns the answer given to it", "statement": "Between two nodes that exchange RLDP messages over a network that loses, repeats, delays and reorders them, whatever other queries, answers, timeouts, timers and clean-ups run on both nodes and whatever anybody sends under other transfer ids: the answer a query returns is the one the subscribers of the asked node gave for exactly this query, and payloads that do not look like compressed data are seen byte for byte. From every reachable state a query within the size limits can be answered. Nobody else knows the random transfer id of the query.", "quantifier": "all histories of both nodes before and after the query, all interleavings of their tasks, all deliveries, all payload sizes and numbers of parts", "why_tests_cant": "all interleavings of the tasks of both nodes with an unreliable network and arbitrary other traffic", "anchors": ["src/rldp/node.rs: query", "src/rldp/transfers_cache.rs: query, handle_message, create_answer_handler", "src/rldp/incoming_transfer.rs", "src/rldp/outgoing_transfer.rs"]}
{"id": "C76", "title": "An RLDP query is executed at most once", "statement": "Whatever messages of a query are repeated, delayed or reordered, the subscribers of the asked node are given the query at most once.", "quantifier": "all histories of both nodes, all repetitions and delays of messages", "why_tests_cant": "needs messages that arrive after timers and clean-ups of the responder", "anchors": ["src/rldp/transfers_cache.rs: create_answer_handler, handle_message"]}
{"id": "C77", "title": "A transfer reported as sent was received", "statement": "When a node reports an RLDP transfer as sent completely, the other node has received all of its data; and a transfer over a network that loses nothing is reported as sent after finitely many messages.", "quantifier": "all data sizes, all interleavings of both nodes and all deliveries", "why_tests_cant": "needs timers that fire while parts are still being received", "anchors": ["src/rldp/transfers_cache.rs: handle_message, OutgoingContext::send, IncomingContext::receive"]}
{"id": "C78", "title": "Channels are keyed as the protocol says and replaced only by newer ones", "statement": "Of the two peers of a channel the one with the smaller id receives with the shared secret and sends with the reversed one; priority packets use the secret with the bytes of each pair exchanged; every secret is announced by the hash of its TL form. A proposal or confirmation of a channel leaves the channel in use in place if it names the same key or is not newer, and a confirmation makes it ready; otherwise the new channel takes its place.", "quantifier": "all ids, secrets and keys; all states of a node and all proposals and confirmations of any peer", "why_tests_cant": "tests run both ends with the same code, so a consistent mistake in the derivation cannot show; replacement depends on arbitrary earlier states", "anchors": ["src/adnl/channel.rs: Channel::new, is_still_valid, build_priority_secret, compute_channel_id", "src/adnl/node/receiver.rs: create_channel"]}
{"id": "C79", "title": "Storing a value with a check tells whether the DHT has it", "statement": "Storing a value keeps it locally, sends it to every DHT node known at the start exactly once, waits for all of them, then looks the value up. It says yes when a value found passes the check, no when every node asked has answered and no value passed, and an error when the check failed on a value; check_all makes it check all values. A node that accepted the value and answers the lookup makes it say yes.", "quantifier": "all histories of the node before and meanwhile, all orders and outcomes of the queries, all checks", "why_tests_cant": "depends on the interleaving of dozens of queries with other traffic and on hostile answers", "anchors": ["src/dht/futures.rs: StoreValue, DhtStoreValueWithCheck", "src/dht/streams.rs: DhtValuesStream", "src/dht/node.rs: store_address"]}
{"id": "C80", "title": "Discovery asks every known DHT node and learns all valid nodes", "statement": "Discovery of DHT nodes asks every node known at the start exactly once, adds every valid node of every answer and returns how many new nodes were found; a faulty answer of one peer does not affect the others.", "quantifier": "all histories of the node, all orders of answers, all contents of answers", "why_tests_cant": "needs arbitrary answers of hostile peers in arbitrary order", "anchors": ["src/dht/node.rs: find_more_dht_nodes, add_dht_peer"]}
{"id": "C81", "title": "Members of an overlay exchange the peers they know", "statement": "When a node exchanges random peers with another member of an overlay and both letters arrive, it learns the other member and exactly those of the neighbours the other one chose that it has a valid record of, each once, without itself and without peers it asked to leave out; the other member keeps the records it was told (or newer ones), its user can add each of them as an active peer and tell others about it; query and answer always fit into one packet.", "quantifier": "all histories of both overlays, all random choices, all states of the two nodes and the network between them", "why_tests_cant": "ranges over all histories, contents of the peer tables and random choices", "anchors": ["src/overlay/overlay.rs: exchange_random_peers_ext, process_get_random_peers, prepare_random_peers, filter_nodes, add_public_peer", "src/overlay/node.rs: try_consume_query", "src/adnl/node/mod.rs: query_with_prefix"]}
{"id": "C82", "title": "Only the peer itself can change the connection with it", "statement": "Datagrams made without a secret of the peer or of the shared channel do not change what a node keeps about that peer: its channel, the time of its last start and what it accepts from it.", "quantifier": "all states of the node, all datagrams, all later histories", "why_tests_cant": "ranges over arbitrary datagrams of third parties and everything that happens afterwards", "anchors": ["src/adnl/node/receiver.rs: handle_received_data, check_packet, process_message, create_channel", "src/adnl/peer.rs: try_reinit_sender", "src/adnl/channel.rs: is_still_valid"]}
{"id": "C83", "title": "The wire format is the one of the TL scheme", "statement": "Whatever a node writes - packets, messages, queries, answers, and the texts it hashes or signs - has byte for byte the layout that the declarations in scheme.tl prescribe for those values; and whatever another implementation writes according to these declarations is understood.", "quantifier": "all values of all message types, all choices of optional fields, all trailing bytes", "why_tests_cant": "ranges over all values and all combinations of optional fields; the codecs are generated by macros or written by hand, and reader and writer can agree with each other while both disagree with the scheme", "anchors": ["src/scheme.tl", "src/proto/adnl.rs", "src/proto/rldp.rs", "src/proto/dht.rs", "src/proto/overlay.rs", "src/proto/rpc.rs", "src/overlay/overlay.rs: make_broadcast_to_sign, make_fec_part_to_sign", "src/dht/node.rs: add_dht_peer, query_dht_nodes"]}
{"id": "C84", "title": "A broadcast reaches the whole overlay", "statement": "When one member of an overlay broadcasts data and the members pass it on to their neighbours, every member connected with the origin through neighbours delivers exactly that data, attributed to the sender, whatever the order of arrival, repetitions and the clocks within the validity period.", "quantifier": "any number of nodes, all schedules, all neighbour relations, all data, with adversarial members for the spreading part", "why_tests_cant": "ranges over all topologies, all interleavings of deliveries and all choices of random neighbours", "anchors": ["src/overlay/overlay.rs: send_broadcast, receive_broadcast, distribute_broadcast, create_broadcast, set_finished", "src/overlay/overlay.rs: update_neighbours, OverlayOptions.secondary_broadcast_target_count"]}
{"id": "C85", "title": "A value stored in the DHT is found by others", "statement": "When a node received a value published by its owner, then until the value expires a lookup of any other node that asks this node yields the value with the published data, whatever happens on the nodes of the network meanwhile; a lookup over the full batch asks every peer known to the reader, and with new peers enabled every peer it learns about.", "quantifier": "any number of nodes, all their histories, all interleavings, orders of answers and losses of other queries", "why_tests_cant": "ranges over all networks, histories and schedules", "anchors": ["src/dht/streams.rs: DhtValuesStream", "src/dht/peers_iter.rs: fill, next_known_peer", "src/dht/node.rs: query_raw, parse_value_result, process_find_value, process_store", "src/dht/storage.rs: insert, get_ref"]}
{"id": "C86", "title": "The library's locks never bring it to a standstill", "statement": "Any number of tasks may call the operations of the library at the same time: every call gets through, there is no deadlock on the locks of the shared tables, and a table entry is never written while somebody else reads or writes it.", "quantifier": "any number of tasks, all sequences of calls, all schedules and both ways of treating waiting writers", "why_tests_cant": "deadlocks need particular interleavings; ranges over all schedules", "anchors": ["src/adnl/peers_set.rs: randomly_fill_from, iter", "src/adnl/node/sender.rs: send_message", "src/adnl/node/receiver.rs: create_channel", "src/adnl/node/mod.rs: reset_peer, remove_peer", "src/overlay/overlay.rs: update_neighbours, write_cached_peers", "src/overlay/node.rs: add_public_overlay", "src/dht/node.rs: add_dht_peer, iter_known_peers"]}
{"id": "C87", "title": "A node works from its start until it is shut down", "statement": "Every packet accepted for sending is given to the socket once and in order, also if it was accepted before the start; before the start nothing is sent or handled; the start succeeds once and takes all subscribers registered before; a started node handles every datagram once and in order; after shutdown, or when the user has dropped the node, both loops end, and then nothing is accepted, sent or handled any more; a shutdown loses no accepted packet if the sending loop looks at its queue before it notices the shutdown.", "quantifier": "all sequences of calls, datagrams, socket failures and turns of the loops", "why_tests_cant": "ranges over all interleavings of calls and loops", "anchors": ["src/adnl/node/mod.rs: start, shutdown, add_message_subscriber, add_query_subscriber, Drop", "src/adnl/node/sender.rs: start_sender, send_packet", "src/adnl/node/receiver.rs: start_receiver"]}
{"id": "C88", "title": "The receive buffer gets as large as the system allows", "statement": "Whatever the system answers, the search for the buffer size ends after at most 25 questions, without overflow, never asks for less than the present size or more than 16 MiB; if the system has a limit, the buffer ends at that limit, at 16 MiB, or at its present size, whichever applies.", "quantifier": "all present sizes, all limits and all ways a system may answer", "why_tests_cant": "ranges over all systems and sizes", "anchors": ["src/adnl/socket.rs: maximise_recv_buffer"]}
{"id": "C89", "title": "Peers are found by their addresses", "statement": "Matching a map of addresses against the known peers returns, for each value, at most one peer, which has the address asked for, and misses no address of a known peer.", "quantifier": "all peer tables, all maps of addresses, all orders of iteration", "why_tests_cant": "ranges over all tables and iteration orders", "anchors": ["src/adnl/node/mod.rs: match_peer_addresses"]}
{"id": "C90", "title": "Packets go where the peer is known to be and tell where their sender is", "statement": "Every packet of a message goes to the address known of the peer (over the loopback interface if the node itself is there) and tells the node's own address; over the channel once it is ready, urgently when wanted and as long as the peer answers or eleven urgent packets have not yet been tried; packets of a kind are numbered without gaps. The known address of a peer changes only by a packet sealed for the node that tells it, signed by the peer, unless the node declines the address.", "quantifier": "all states of a node, all peers, messages and datagrams, all cryptography obeying the laws", "why_tests_cant": "ranges over all states, all numbers of unanswered packets and all datagrams", "anchors": ["src/adnl/node/sender.rs: send_message, send_packet", "src/adnl/node/receiver.rs: check_packet", "src/adnl/node/mod.rs: add_peer, get_peer_address"]}
{"id": "C91", "title": "A broadcast received in parts is given up only after silence", "statement": "While packets of an unfinished broadcast keep coming, with pauses shorter than the timeout, the node goes on receiving it; after a silence as long as the timeout, or when it is finished, it is forgotten; the decoder of a forgotten broadcast ends, that of a known one waits.", "quantifier": "all histories of an overlay, with all interleavings of packets, decoders, timers and the collector", "why_tests_cant": "ranges over all interleavings and all spacings of packets", "anchors": ["src/overlay/overlay.rs: spawn_fec_transfer_receiver, receive_fec_broadcast, spawn_broadcast_gc_task", "src/util/updated_at.rs: UpdatedAt"]}
{"id": "C92", "title": "Packets of one peer that are handled at the same time do not disturb each other", "statement": "When several packets from and to one peer are handled by tasks running at the same time, the outcome is as good as if they were handled one after the other: the date of the peer's current life never moves back, packets of an earlier life are refused, no packet passes twice, and no two packets are sent under one number.", "quantifier": "all sets of tasks that handle or send packets of one peer, with all interleavings of their accesses to its shared state, and all states of the peer", "why_tests_cant": "depends on rare interleavings of the reading and the storing of a date and of the resetting of counters", "anchors": ["src/adnl/peer.rs: Peer::try_reinit_sender", "src/util/packets_history.rs: PacketsHistory::reset, PacketsHistory::bump_seqno", "src/adnl/node/receiver.rs: check_packet", "src/adnl/node/sender.rs: send_packet"]}
{"id": "C93", "title": "The tables of channels agree, whatever is done at the same time", "statement": "When tasks create channels with a peer, reset it, add it or remove it at the same time, then afterwards the channel used for sending to the peer is the one its datagrams are looked up in, under both of its ids and no others; it belongs to a known peer and has that peer's current key.", "quantifier": "all sets of such calls for one peer, all interleavings of their accesses to the tables under the locks they hold, all initial tables that agree", "why_tests_cant": "depends on rare interleavings between several tables that are locked one by one", "anchors": ["src/adnl/node/receiver.rs: create_channel", "src/adnl/node/mod.rs: Node::add_peer, Node::remove_peer, reset_peer"]}
{"id": "C94", "title": "A broadcast in several packets reaches everybody whom its packets can reach", "statement": "When every node passes the packets it receives on to all its neighbours and no packet is lost between the nodes, each packet that got from the sender to some node gets to every node connected with it; so every node connected with enough packets for decoding delivers exactly the data sent, with the right sender, whatever the order and number of copies in which the packets arrive.", "quantifier": "all numbers of nodes, neighbourhoods, data, histories of the overlay nodes and the network, orders and repetitions of packets", "why_tests_cant": "ranges over all topologies and all interleavings of packets and decoders on all nodes", "anchors": ["src/overlay/overlay.rs: receive_fec_broadcast, distribute_broadcast, prepare_fec_broadcast, spawn_fec_transfer_receiver"]}
{"id": "C95", "title": "Two nodes talk again after one of them reset the connection", "statement": "When a node resets its connection with a peer (by hand or because queries are not answered), whatever happened between the two before, the messages they send each other afterwards get through, unchanged and attributed to their sender, and the two agree on a new channel.", "quantifier": "all earlier exchanges between the two over a network that loses, repeats and reorders; all keys, messages and times after the reset; both orders of who speaks first", "why_tests_cant": "the state of the peer at the time of the reset is the result of an arbitrary history, and the reset is not announced", "anchors": ["src/adnl/peer.rs: Peer::reset", "src/adnl/node/mod.rs: reset_peer, query_raw", "src/adnl/node/receiver.rs: check_packet, create_channel, process_message_adnl", "src/adnl/node/sender.rs: send_message, send_packet"]}
{"id": "C96", "title": "Peers do not disturb each other", "statement": "Whatever a node does with other peers, and whatever datagrams reach it that neither came over its channel with a peer nor name that peer as the source with its signature, everything it keeps about that peer (key, address, packet numbers and histories, dates, the channel in use and the ids it is found by) stays as it was, and the messages of the peer are handed over as if the others were not there.", "quantifier": "all reachable states of a node, all later sequences of user calls, datagrams, timeouts and timers that do not concern the peer", "why_tests_cant": "ranges over all histories with any number of other peers, and several tables are shared by all peers", "anchors": ["src/adnl/node/receiver.rs: handle_received_data, check_packet, process_message, create_channel", "src/adnl/node/mod.rs: add_peer, remove_peer, reset_peer, query_raw", "src/adnl/node/sender.rs: send_message"]}
{"id": "C97", "title": "RLDP queries work through both layers", "statement": "Two nodes exchange RLDP messages as custom messages of ADNL, over a network that loses, repeats, delays and reorders datagrams, while both serve other peers and other services. Then RLDP only gets, as coming from the other node, messages that the RLDP of that node sent to it before; a query that returns an answer returns the one that the other node's subscribers gave to it, and they were asked at most once; and after every such history a query within the size limits can be asked and answered.", "quantifier": "all histories of both layers of two nodes: tasks of RLDP in any order, datagrams in any order and number, other traffic; all payloads, answers and identifiers", "why_tests_cant": "ranges over all schedules of two layers at two nodes and of the network between them; a unit test sees one layer at a time", "anchors": ["src/rldp/node.rs: Node::query, try_consume_custom", "src/rldp/transfers_cache.rs: TransfersCache", "src/adnl/node/mod.rs: send_custom_message", "src/adnl/node/receiver.rs: handle_received_data, process_message"]}
{"id": "C98", "title": "RLDP queries end in time and tell the round-trip time", "statement": "Every RLDP query returns, with a result that is final. It is given up only after the peer has made no progress for at least the minimum timeout, and it goes on only as long as the last progress is not older than the maximum timeout (and one percent of it per symbol or message), so that its duration is limited. The round-trip estimate it returns for the next query lies within the times measured, and grows with every query that the peer does not react to.", "quantifier": "all histories of a node with any number of queries and other traffic; all sequences of looks at the progress with any times; all options and estimates", "why_tests_cant": "ranges over all schedules and timings of the peer's reactions, including hostile ones", "anchors": ["src/rldp/transfers_cache.rs: TransfersCache::query, OutgoingContext::send, QueryOptions, is_timed_out", "src/rldp/node.rs: Node::query"]}
{"id": "C99", "title": "Values of the DHT travel between nodes", "statement": "A node that publishes a signed entry at another one gets the confirmation over the network, and from then until the entry expires, whatever the storing node does and receives meanwhile (unless something else is published under the same key), everybody who looks the key up at that node over a working connection receives exactly the published data. Entries of moderate size always fit into the packets.", "quantifier": "all entries, keys and parsers; all storing nodes and all histories after the publication; all states of the connections of the publisher and of the reader, with any traffic before", "why_tests_cant": "ranges over all histories of three nodes and their connections, including reordering, loss, resets of earlier traffic and hostile DHT traffic in between", "anchors": ["src/dht/node.rs: Node::query_raw, process_store, process_find_value, QuerySubscriber::try_consume_query", "src/dht/futures.rs: StoreValue", "src/dht/streams.rs: DhtValuesStream", "src/adnl/node/mod.rs: Node::query_raw"]}
{"id": "C100", "title": "Each layer of a node gets its queries, and applications get their answers", "statement": "The DHT, the overlays, RLDP, the ping service and applications that share one node do not take each other's queries and messages, in whatever order they subscribed and whatever state they are in. A query of an application, made directly, with a prefix or in an overlay, reaches exactly the subscriber it is meant for with the very bytes given, and returns the value this subscriber answers; an answer that cannot be read is an error, a timeout is not. Every node answers pings.", "quantifier": "all lists of subscribers in all states; all queries, messages, prefixes and answers; all types of answers; all states of the two nodes and their connection", "why_tests_cant": "ranges over all orders and states of the layers, all constructors and all histories of the connection", "anchors": ["src/subscriber/mod.rs: process_query, QuerySubscriber, MessageSubscriber", "src/adnl/node/mod.rs: Node::query, Node::query_with_prefix, make_query, compute_query_timeout", "src/adnl/node/receiver.rs: process_message, process_message_custom", "src/overlay/overlay.rs: Overlay::adnl_query", "src/overlay/node.rs: try_consume_query, try_consume_custom", "src/dht/node.rs: try_consume_query", "src/rldp/node.rs: try_consume_custom", "src/adnl/ping_subscriber.rs: PingSubscriber"]}
{"id": "C101", "title": "Broadcasts and queries of overlays travel between nodes", "statement": "What a user broadcasts in an overlay is carried by the connections to the nodes it is sent to: each of them hands the message to its subscribers unchanged, the overlays take it whatever subscribers come before them, their user gets the data once and with the name of the sender, the same message is passed on to neighbours other than the one it came from, and other overlays notice nothing. Broadcasts sent in one piece always fit into one datagram. A query in an overlay made over RLDP returns what the application registered for the overlay answers, and this application gets the very bytes given.", "quantifier": "all overlays, data, dates and compression settings; all states of both nodes' overlays; all states of the connection and all traffic before; all lists of other subscribers; all queries and answers within the size limits", "why_tests_cant": "ranges over all histories of the connection and of the overlays, all sizes, and all other subscribers of the node", "anchors": ["src/overlay/overlay.rs: Overlay::broadcast, send_broadcast, receive_broadcast, distribute_broadcast, rldp_query", "src/overlay/node.rs: Node::try_consume_custom, try_consume_query", "src/adnl/node/mod.rs: Node::send_custom_message", "src/adnl/node/sender.rs: send_message", "src/adnl/node/receiver.rs: process_message_custom", "src/rldp/node.rs: Node::query"]}
{"id": "C102", "title": "Messages that need several datagrams arrive whole between two nodes", "statement": "A query, an answer or a message of an application of up to 1936 bytes with its header that a node sends to a peer it knows leaves in one or more datagrams for the address of the peer, and if these arrive in time the peer hands the message to its subscribers exactly once, unchanged and with the right names, in whatever order the datagrams arrive, and keeps nothing of it. This holds in every state of the connection, with or without a channel. The packets of broadcasts sent in several packets are short enough for this.", "quantifier": "all messages within the limit; all states of the two nodes and their connection reachable by any traffic, losses, duplicates, reorderings and dealings with others; all orders of arrival, clocks and random choices", "why_tests_cant": "ranges over all sizes, all histories of the connection and all permutations of the datagrams", "anchors": ["src/adnl/node/sender.rs: send_message, send_packet, build_part_message", "src/adnl/node/receiver.rs: handle_received_data, process_message", "src/adnl/transfer.rs: Transfer::add_part"]}
{"id": "C103", "title": "With the default options every broadcast can be carried and nodes serve each other", "statement": "Whatever data a user broadcasts, in the name of the given key or of the node, to given peers or to random neighbours: with the default limit everything that is sent because of it is short enough for the connections between nodes. Random targets are five different neighbours, or all if there are fewer. A DHT node with the default options stores the entries whose names and indices are within the documented limits and answers the lookups of the library with them. An RLDP query of up to 10485705 bytes can be answered with up to 10485717 bytes, and its result is that answer. Any other limit for broadcasts in one piece works as well.", "quantifier": "all data, keys, sources, targets, sets of neighbours and random choices; all entries; all payloads and histories of both RLDP nodes; all states of the DHT node and everything it does later", "why_tests_cant": "ranges over all sizes of data, all sets of neighbours, all states of the servers, and all values of the option", "anchors": ["src/overlay/overlay.rs: Overlay::broadcast, BroadcastTarget, OverlayOptions, send_broadcast, send_fec_broadcast", "src/adnl/node/mod.rs: NodeOptions", "src/dht/node.rs: NodeOptions", "src/adnl/node/sender.rs: send_message", "src/rldp/node.rs: NodeOptions, query"]}
