(** The locks behind the shared tables, as the operations of the library take and drop them.
    Every table is a [DashMap], an array of shards with a read-write lock each, or a single lock;
    what the operations do with the data is in the other models.  Simplified: the data-dependent
    choices (which shards a key falls into, how many entries are visited, which branch is taken)
    are arguments of the operations. *)
From Coq Require Import List Arith Bool.
Import ListNotations.

(** The tables: src/adnl/node/mod.rs:112-150, src/adnl/transfer.rs:14-19, src/adnl/queries_cache.rs:9-12,
    src/overlay/node.rs:119-125, src/overlay/overlay.rs:108-136, src/dht/node.rs:530-550,
    src/dht/storage.rs:19-24, src/dht/buckets.rs:8-11, src/rldp/node.rs:70-76,
    src/rldp/transfers_cache.rs:18-20, 87, src/adnl/peers_set.rs:11-14. *)
Inductive table :=
| TPeers | TByPeers | TById | TTransfers | TParts | TQueries
| TOverlays | TConsumers | TOwned | TReceived | TIgnored | TNodes | TKnown | TNeighbours | TFresh
| TDhtKnown | TPenalties | TBuckets | TStorage
| TRldp | TBarrier | TSemaphores
| TUserSet.
Definition table_code (t : table) : nat :=
  match t with
  | TPeers => 0 | TByPeers => 1 | TById => 2 | TTransfers => 3 | TParts => 4 | TQueries => 5
  | TOverlays => 6 | TConsumers => 7 | TOwned => 8 | TReceived => 9 | TIgnored => 10 | TNodes => 11
  | TKnown => 12 | TNeighbours => 13 | TFresh => 14 | TDhtKnown => 15 | TPenalties => 16
  | TBuckets => 17 | TStorage => 18 | TRldp => 19 | TBarrier => 20 | TSemaphores => 21 | TUserSet => 22
  end.
(** A lock: the table and the number of the shard (numbering the shards of all tables of the kind). *)
Definition lock := (table * nat)%type.
Definition lock_eqb (a b : lock) : bool :=
  Nat.eqb (table_code (fst a)) (table_code (fst b)) && Nat.eqb (snd a) (snd b).

(** Taking a lock, shared or ([true]) exclusively, and dropping the guard. *)
Inductive act := Take (l : lock) (exclusive : bool) | Drop (l : lock).
Definition holding (l : lock) (w : bool) (inside : list act) : list act := Take l w :: inside ++ [Drop l].
Definition read (l : lock) : list act := holding l false [].
Definition write (l : lock) : list act := holding l true [].
(** Iterating over a [DashMap] takes the next shard before it drops the previous one. *)
Fixpoint iterate (t : table) (previous : option nat) (next count : nat) : list act :=
  let done := match previous with Some p => [Drop (t, p)] | None => [] end in
  match count with
  | O => done
  | S n => Take (t, next) false :: done ++ iterate t (Some next) (S next) n
  end.

(** *** ADNL *)

(** [add_peer] (src/adnl/node/mod.rs:315-346); the filter is called before the lock is taken. *)
Definition add_peer (p : nat) : list act := write (TPeers, p).
(** [remove_peer] (mod.rs:357-368); [found]: the channel ids of the removed channel. *)
Definition drop_channel (c : nat) (found : option (nat * nat)) : list act :=
  write (TByPeers, c) ++
  match found with Some (a, b) => write (TById, a) ++ write (TById, b) | None => [] end.
Definition remove_peer (p c : nat) (found : option (nat * nat)) : list act :=
  drop_channel c found ++ write (TPeers, p).
(** [match_peer_addresses] (mod.rs:386-405). *)
Definition match_peers (count : nat) : list act := iterate TPeers None 0 count.
(** [send_message] (src/adnl/node/sender.rs:50-200): both guards live to the end. *)
Definition send_message (p c : nat) : list act := holding (TPeers, p) false (read (TByPeers, c)).
(** [reset_peer] (mod.rs:522-538). *)
Definition reset_peer (p c : nat) (found : option (nat * nat)) : list act :=
  holding (TPeers, p) true (drop_channel c found).
(** [query_raw] (mod.rs:456-497) with the table of queries (queries_cache.rs:25-39, 62-72). *)
Definition adnl_query (q p c : nat) (reset : option (option (nat * nat))) : list act :=
  write (TQueries, q) ++ send_message p c ++ read (TByPeers, c) ++
  match reset with Some found => reset_peer p c found | None => [] end ++ write (TQueries, q).
(** [check_packet] (src/adnl/node/receiver.rs:358-503); [added]: the sender is added;
    [old]: a Nop is sent after the guard was dropped (lines 475-479). *)
Definition check_packet (p c : nat) (added from_channel old : bool) : list act :=
  (if added then add_peer p else []) ++ (if from_channel then read (TByPeers, c) else []) ++
  read (TPeers, p) ++ (if old then send_message p c else []).
(** [create_channel] (receiver.rs:505-579); [replaced]: the ids of the old channel;
    [created]: the ids of the new one, if one is created. *)
Definition create_channel (p c : nat) (replaced created : option (nat * nat)) : list act :=
  let ids x := match x with Some (a, b) => write (TById, a) ++ write (TById, b) | None => [] end in
  holding (TPeers, p) false (holding (TByPeers, c) true (ids replaced ++ ids created)).
(** The parts of a split message (receiver.rs:191-257, src/adnl/transfer.rs:46-117). *)
Definition receive_part (t part : nat) (combined : list nat) (finished : bool) : list act :=
  write (TTransfers, t) ++ write (TParts, part) ++ concat (map (fun i => read (TParts, i)) combined) ++
  (if finished then write (TTransfers, t) else []).

(** *** Overlays *)

(** [randomly_fill_from] (src/adnl/peers_set.rs:85-121): the source is read while the destination is
    written; [count]: the shards of the excluded peers, visited for their number first; [asked]: the
    shards looked into for the chosen peers. *)
Definition fill_from (dst src : lock) (except : option (nat * list nat)) : list act :=
  match except with
  | Some (count, asked) =>
    concat (map (fun i => read (TIgnored, i)) (seq 0 count)) ++
    holding src false (holding dst true (concat (map (fun i => read (TIgnored, i)) asked)))
  | None => holding src false (write dst)
  end.
(** [update_neighbours] (src/overlay/overlay.rs:917-921). *)
Definition update_neighbours (o count : nat) (asked : list nat) : list act :=
  fill_from (TNeighbours, o) (TKnown, o) (Some (count, asked)).
(** [add_public_overlay], [add_private_overlay] (src/overlay/node.rs:74-110): a new overlay is built
    under the lock; it updates its neighbours if there are peers (overlay.rs:177-179). *)
Definition add_overlay (s o count : nat) (asked : option (list nat)) : list act :=
  holding (TOverlays, s) true (match asked with Some l => update_neighbours o count l | None => [] end).
(** [add_overlay_subscriber] (node.rs:58-71). *)
Definition add_subscriber (s : nat) : list act := write (TConsumers, s).
(** [insert_public_peer] (overlay.rs:924-945), [add_public_peer] (overlay.rs:242-275). *)
Definition add_public_peer (p o i n : nat) (is_new full : bool) : list act :=
  add_peer p ++
  if is_new
  then write (TIgnored, i) ++ write (TKnown, o) ++ read (TNeighbours, o) ++
       (if full then [] else write (TNeighbours, o)) ++ write (TNodes, n)
  else [].
(** [remove_public_peer] (overlay.rs:313-323). *)
Definition remove_public_peer (o i count : nat) (asked : list nat) : list act :=
  write (TIgnored, i) ++ read (TNeighbours, o) ++ update_neighbours o count asked.
(** [is_active_public_peer] (overlay.rs:333-335). *)
Definition is_active_peer (o i : nat) : list act := read (TKnown, o) ++ read (TIgnored, i).
(** [distribute_broadcast] (overlay.rs:1114-1131). *)
Definition send_to (targets : list (nat * nat)) : list act :=
  concat (map (fun t => send_message (fst t) (snd t)) targets).
(** [receive_broadcast], [receive_fec_broadcast] (overlay.rs:543-685) and the sending of broadcasts
    (overlay.rs:719-895). *)
Definition broadcast (s b o : nat) (targets : list (nat * nat)) : list act :=
  read (TOverlays, s) ++ write (TOwned, b) ++ read (TNeighbours, o) ++ send_to targets.
(** The end of a FEC broadcast and its removal (overlay.rs:1015-1062, 186-196). *)
Definition broadcast_done (b : nat) : list act := read (TOwned, b) ++ read (TOwned, b) ++ write (TOwned, b).
(** [prepare_random_peers] (overlay.rs:899-914), [process_get_random_peers] (overlay.rs:688-717). *)
Definition random_peers (o r : nat) (fresh : nat) (nodes : list nat) (query : bool) : list act :=
  (if query then write (TReceived, r) else []) ++
  fill_from (TFresh, fresh) (TNeighbours, o) None ++
  holding (TFresh, fresh) false (concat (map (fun i => read (TNodes, i)) nodes)).

(** *** DHT *)

(** [add_dht_peer] (src/dht/node.rs:573-612). *)
Definition add_dht_peer (p b n : nat) (is_new : bool) : list act :=
  add_peer p ++ write (TDhtKnown, 0) ++ (if is_new then write (TBuckets, b) else write (TPenalties, n)).
(** [query_raw] of the DHT (dht/node.rs:461-477): the query and the status of the peer. *)
Definition dht_query (q p c n : nat) (reset : option (option (nat * nat))) : list act :=
  adnl_query q p c reset ++ write (TPenalties, n).
(** The next peer of a lookup (src/dht/peers_iter.rs:25-75). *)
Definition next_peer (n : nat) : list act := read (TDhtKnown, 0) ++ read (TPenalties, n).
(** [process_find_value] (dht/node.rs:641-665): the buckets are visited one after the other, [visited]
    gives the first shard and the number of shards visited in each. *)
Definition find_value (s : nat) (visited : list (nat * nat)) : list act :=
  read (TStorage, s) ++ concat (map (fun v => iterate TBuckets None (fst v) (snd v)) visited).
(** [process_find_node] (dht/node.rs:637-639, src/dht/buckets.rs:44-87). *)
Definition find_node (visited : list (nat * nat)) : list act :=
  concat (map (fun v => iterate TBuckets None (fst v) (snd v)) visited).
(** [insert] and [gc] (src/dht/storage.rs:57-83). *)
Definition store (s : nat) : list act := write (TStorage, s).
Definition storage_gc (count : nat) : list act := concat (map (fun i => write (TStorage, i)) (seq 0 count)).

(** *** RLDP *)

(** A query (src/rldp/node.rs:126-150, src/rldp/transfers_cache.rs:44-160): the semaphore is looked up,
    the transfers are entered and left, the messages are sent. *)
Definition rldp_query (s a b k : nat) (sent : list (nat * nat)) (polls : nat) : list act :=
  write (TSemaphores, s) ++ write (TRldp, a) ++ write (TRldp, b) ++ send_to sent ++ write (TRldp, a) ++
  concat (repeat (write (TBarrier, k)) polls) ++ write (TRldp, b) ++ write (TRldp, a) ++ write (TRldp, b).
(** A message part (transfers_cache.rs:168-265): the guard is dropped before anything is sent. *)
Definition rldp_part (t : nat) (sent : list (nat * nat)) (is_new : bool) : list act :=
  read (TRldp, t) ++ (if is_new then write (TRldp, t) else []) ++ send_to sent.
(** The answer (transfers_cache.rs:300-345, 400-450). *)
Definition rldp_answer (a b : nat) (sent : list (nat * nat)) : list act :=
  write (TRldp, a) ++ write (TRldp, b) ++ send_to sent ++ write (TRldp, b) ++ write (TRldp, a).

(** What the library does with its tables. *)
Inductive operation :=
| AddPeer (p : nat) | RemovePeer (p c : nat) (found : option (nat * nat)) | PeerAddress (p : nat)
| MatchPeers (count : nat) | SendMessage (p c : nat) | AdnlQuery (q p c : nat) (reset : option (option (nat * nat)))
| FindChannel (a : nat) | CheckPacket (p c : nat) (added from_channel old : bool)
| CreateChannel (p c : nat) (replaced created : option (nat * nat))
| ReceivePart (t part : nat) (combined : list nat) (finished : bool) | ReceiveAnswer (q : nat)
| TransferTimeout (t : nat)
| AddOverlay (s o count : nat) (asked : option (list nat)) | AddSubscriber (s : nat) | FindSubscriber (s : nat)
| AddPublicPeer (p o i n : nat) (is_new full : bool) | RemovePublicPeer (o i count : nat) (asked : list nat)
| UpdateNeighbours (o count : nat) (asked : list nat) | IsActivePeer (o i : nat)
| WriteCached (user o count : nat) (asked : list nat)
| Broadcast (s b o : nat) (targets : list (nat * nat)) | BroadcastDone (b : nat)
| RandomPeers (o r fresh : nat) (nodes : list nat) (query : bool) | TakeNewPeers (r : nat)
| AddDhtPeer (p b n : nat) (is_new : bool) | DhtQuery (q p c n : nat) (reset : option (option (nat * nat)))
| NextPeer (n : nat) | FindValue (s : nat) (visited : list (nat * nat)) | FindNode (visited : list (nat * nat))
| Store (s : nat) | StorageGc (count : nat)
| RldpQuery (s a b k : nat) (sent : list (nat * nat)) (polls : nat)
| RldpPart (t : nat) (sent : list (nat * nat)) (is_new : bool) | RldpAnswer (a b : nat) (sent : list (nat * nat)).
Definition locks_of (o : operation) : list act :=
  match o with
  | AddPeer p => add_peer p
  | RemovePeer p c found => remove_peer p c found
  | PeerAddress p => read (TPeers, p)
  | MatchPeers count => match_peers count
  | SendMessage p c => send_message p c
  | AdnlQuery q p c reset => adnl_query q p c reset
  | FindChannel a => read (TById, a)
  | CheckPacket p c added from_channel old => check_packet p c added from_channel old
  | CreateChannel p c replaced created => create_channel p c replaced created
  | ReceivePart t part combined finished => receive_part t part combined finished
  | ReceiveAnswer q => write (TQueries, q)
  | TransferTimeout t => write (TTransfers, t)
  | AddOverlay s o count asked => add_overlay s o count asked
  | AddSubscriber s => add_subscriber s
  | FindSubscriber s => read (TConsumers, s)
  | AddPublicPeer p o i n is_new full => add_public_peer p o i n is_new full
  | RemovePublicPeer o i count asked => remove_public_peer o i count asked
  | UpdateNeighbours o count asked => update_neighbours o count asked
  | IsActivePeer o i => is_active_peer o i
  | WriteCached user o count asked => fill_from (TUserSet, user) (TKnown, o) (Some (count, asked))
  | Broadcast s b o targets => broadcast s b o targets
  | BroadcastDone b => broadcast_done b
  | RandomPeers o r fresh nodes query => random_peers o r fresh nodes query
  | TakeNewPeers r => write (TReceived, r)
  | AddDhtPeer p b n is_new => add_dht_peer p b n is_new
  | DhtQuery q p c n reset => dht_query q p c n reset
  | NextPeer n => next_peer n
  | FindValue s visited => find_value s visited
  | FindNode visited => find_node visited
  | Store s => store s
  | StorageGc count => storage_gc count
  | RldpQuery s a b k sent polls => rldp_query s a b k sent polls
  | RldpPart t sent is_new => rldp_part t sent is_new
  | RldpAnswer a b sent => rldp_answer a b sent
  end.

(** What a user can do: call the library, fill one of their own sets of peers from another
    ([PeersSet::randomly_fill_from], peers_set.rs:85-121, nothing when both are the same), or call the
    library while iterating over the known peers of the DHT ([iter_known_peers], dht/node.rs:182-184,
    peers_set.rs:63-65, 179-197: the iterator holds the read guard).  Subscribers and filters are called
    with no lock held, so what they do is part of the sequence. *)
Inductive call := Do (o : operation) | Fill (dst src : nat) | ForEachKnown (inside : list operation).
Definition locks_of_call (c : call) : list act :=
  match c with
  | Do o => locks_of o
  | Fill dst src => if Nat.eqb dst src then [] else fill_from (TUserSet, dst) (TUserSet, src) None
  | ForEachKnown inside => holding (TDhtKnown, 0) false (concat (map locks_of inside))
  end.

(** *** Running tasks *)

Record task := mk_task { t_held : list (lock * bool); t_rest : list act }.
Definition start (calls : list call) : task := mk_task [] (concat (map locks_of_call calls)).

(** A lock is refused if somebody (maybe the task itself) holds it, unless both only read.  With
    [writers_first] readers are also refused while somebody waits for writing. *)
Definition blocks (l : lock) (w : bool) (t : task) : bool :=
  existsb (fun h => lock_eqb (fst h) l && (w || snd h)) (t_held t).
Definition wants_write (l : lock) (t : task) : bool :=
  match t_rest t with Take m true :: _ => lock_eqb m l | _ => false end.
Definition granted (writers_first : bool) (ts : list task) (l : lock) (w : bool) : bool :=
  negb (existsb (blocks l w) ts) && (w || negb (writers_first && existsb (wants_write l) ts)).
Fixpoint release (l : lock) (held : list (lock * bool)) : list (lock * bool) :=
  match held with
  | [] => []
  | h :: r => if lock_eqb (fst h) l then r else h :: release l r
  end.
(** The next step of a task, if it can take one. *)
Definition advance (writers_first : bool) (ts : list task) (t : task) : option task :=
  match t_rest t with
  | [] => None
  | Drop l :: r => Some (mk_task (release l (t_held t)) r)
  | Take l w :: r => if granted writers_first ts l w then Some (mk_task ((l, w) :: t_held t) r) else None
  end.
Fixpoint replace (i : nat) (t : task) (ts : list task) : list task :=
  match ts, i with
  | [], _ => []
  | _ :: r, O => t :: r
  | x :: r, S k => x :: replace k t r
  end.
Definition lock_step (writers_first : bool) (ts : list task) (i : nat) : list task :=
  match nth_error ts i with
  | Some t => match advance writers_first ts t with Some t' => replace i t' ts | None => ts end
  | None => ts
  end.
Definition lock_run (writers_first : bool) (ts : list task) (sched : list nat) : list task :=
  fold_left (lock_step writers_first) sched ts.
