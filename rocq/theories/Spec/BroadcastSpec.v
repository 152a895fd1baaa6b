(** Broadcasts, in words. *)
From stdpp Require Import gmap.
From Coq Require Import NArith.
From Verif.Base Require Import Bytes.
From Verif.Model Require Import Crypto Tl Scheme ProtoAdnl ProtoRldp ProtoOverlay PeersSet Compression Fec Broadcast.
From Verif.Spec Require Import DhtSpec OverlaySpec.
Open Scope N_scope.

(** ** Signatures *)

(** Bit 0 of the flags: the sender is not part of what is signed. *)
Definition anonymous (flags : N) : bool := N.odd flags.
Definition source_field (flags : N) (from : bytes) : bytes := if anonymous flags then repeat 0 32 else from.

(** What the sender of an ordinary broadcast signs: overlay.broadcast.toSign of the hash of
    overlay.broadcast.id (source, hash of the data, 1) and of the date. *)
Definition broadcast_claim (P : prims) (flags : N) (from data : bytes) (date : N) : bytes :=
  put_u32 id_overlay_broadcast_to_sign
  ++ sha256 P (put_u32 id_overlay_broadcast_id ++ source_field flags from ++ sha256 P data ++ put_u32 1)
  ++ put_u32 date.

(** What the sender of an FEC broadcast signs for each packet: the hash of overlay.broadcastFec.partId
    (hash of overlay.broadcastFec.id, hash of the chunk, number) and the date. *)
Definition fec_claim (P : prims) (from : bytes) (b : ov_broadcast_fec) : bytes :=
  put_u32 id_overlay_broadcast_to_sign
  ++ sha256 P (put_u32 id_overlay_broadcast_fec_part_id
       ++ sha256 P (put_u32 id_overlay_broadcast_fec_id ++ source_field (bf_flags b) from
                    ++ sha256 P (put_fec_type (bf_fec b)) ++ bf_data_hash b ++ put_u32 (bf_data_size b)
                    ++ put_u32 (bf_flags b))
       ++ sha256 P (bf_data b) ++ put_u32 (bf_seqno b))
  ++ put_u32 (bf_date b).

(** The message [b] carries [data], as it is or compressed, and a signature of [from] over it and its date. *)
Definition genuine_broadcast (P : prims) (z : zstd) (b : ov_broadcast) (data from : bytes) : Prop :=
  exists key, ob_src b = PkEd25519 key /\ from = node_id P key
  /\ (data = ob_data b \/ decompress z (ob_data b) = Some data)
  /\ signed_by P key (broadcast_claim P (ob_flags b) from data (ob_date b)) (ob_signature b).

(** The packet [b] of broadcast [id] is signed by [from]. *)
Definition genuine_packet (P : prims) (b : ov_broadcast_fec) (id from : bytes) : Prop :=
  bf_data_hash b = id
  /\ exists key, bf_src b = PkEd25519 key /\ from = node_id P key
     /\ signed_by P key (fec_claim P from b) (bf_signature b).

(** ** Histories *)

(** The event [e] happened in state [s]. *)
Definition happened (c : bc_setup) (s0 : bstate) (evs : list bc_event) (s : bstate) (e : bc_event) : Prop :=
  exists before after, evs = before ++ e :: after /\ s = bc_run c s0 before.

(** Not older than the timeout when it was received. *)
Definition in_time (c : bc_setup) (s : bstate) (date : N) : Prop := now_sec s <= date + bo_timeout (bs_options c).

(** A delivery that an ordinary broadcast justifies. *)
Definition from_broadcast (c : bc_setup) (s0 : bstate) (evs : list bc_event) (d : delivery) : Prop :=
  exists s e peer raw b, happened c s0 evs s (EvBroadcast e peer raw b)
  /\ genuine_broadcast (bs_prims c) (bs_zstd c) b (dl_data d) (dl_from d)
  /\ dl_id d = sha256 (bs_prims c) (broadcast_claim (bs_prims c) (ob_flags b) (dl_from d) (dl_data d) (ob_date b))
  /\ dl_packets d = 1 /\ in_time c s (ob_date b).

(** A packet that was received in time. *)
Definition received_packet (c : bc_setup) (s0 : bstate) (evs : list bc_event) (b : ov_broadcast_fec) : Prop :=
  exists s e peer raw, happened c s0 evs s (EvFec e peer raw b) /\ in_time c s (bf_date b).

(** A delivery that FEC packets justify: the packets are decoded with the parameters of the first
    packet received, the result has the size announced by the last packet used and is the data as it
    is or compressed, and the data has the hash that identifies the broadcast. *)
Definition from_packets (c : bc_setup) (s0 : bstate) (evs : list bc_event) (d : delivery) : Prop :=
  exists first used last r,
    received_packet c s0 evs first /\ bf_data_hash first = dl_id d
    /\ Forall (fun b => received_packet c s0 evs b /\ genuine_packet (bs_prims c) b (dl_id d) (dl_from d)) (used ++ [last])
    /\ fe_decode (bs_fec c) (bf_fec first) (map (fun b => (bf_seqno b, bf_data b)) (used ++ [last])) = Some r
    /\ N.of_nat (length r) = bf_data_size last
    /\ (dl_data d = r \/ decompress (bs_zstd c) r = Some (dl_data d))
    /\ sha256 (bs_prims c) (dl_data d) = dl_id d
    /\ dl_packets d = N.of_nat (length (used ++ [last])).

(** The ids a message can be received under: an ordinary broadcast is identified by the hash of what
    is signed, an FEC broadcast by the hash it carries. *)
Definition broadcast_ids (P : prims) (z : zstd) (b : ov_broadcast) : list bytes :=
  match ob_src b with
  | PkEd25519 key =>
    let id data := sha256 P (broadcast_claim P (ob_flags b) (node_id P key) data (ob_date b)) in
    id (ob_data b) :: match decompress z (ob_data b) with Some d => [id d] | None => [] end
  | _ => []
  end.

(** [e] is about the broadcast [id] in a node whose clock shows [now]. *)
Definition about (c : bc_setup) (id : bytes) (now : N) (e : bc_event) : Prop :=
  match e with
  | EvBroadcast _ _ _ b => In id (broadcast_ids (bs_prims c) (bs_zstd c) b)
  | EvFec _ _ _ b => bf_data_hash b = id
  | EvSend _ data _ => id = sha256 (bs_prims c) (broadcast_claim (bs_prims c) 1 [] data now)
  | EvSendFec _ data _ => id = sha256 (bs_prims c) data
  | _ => False
  end.
(** No event of a history is about [id]. *)
Definition never_about (c : bc_setup) (id : bytes) (evs : list bc_event) : Prop :=
  forall e now, In e evs -> ~ about c id now e.

(** A message about [id] is dated before second [limit]. *)
Definition dated_before (c : bc_setup) (id : bytes) (limit : N) (e : bc_event) : Prop :=
  match e with
  | EvBroadcast _ _ _ b => In id (broadcast_ids (bs_prims c) (bs_zstd c) b) -> ob_date b < limit
  | EvFec _ _ _ b => bf_data_hash b = id -> bf_date b < limit
  | _ => True
  end.

(** How often [id] was delivered. *)
Definition deliveries (id : bytes) (s : bstate) : nat :=
  length (List.filter (fun d => bytes_eqb (dl_id d) id) (br_delivered s)).

(** ** The log of finished broadcasts *)

(** How often the collector found the queue empty although the counter told it not to be. *)
Definition empty_pop (s : bstate) (e : bc_event) : bool :=
  match e, br_collector s, br_finished s with EvCollect, CPop, [] => true | _, _, _ => false end.
Fixpoint empty_pops (c : bc_setup) (s : bstate) (evs : list bc_event) : nat :=
  match evs with
  | [] => 0
  | e :: r => (if empty_pop s e then 1 else 0) + empty_pops c (bc_step c s e) r
  end%nat.

(** The broadcasts whose time is over. *)
Definition timed_out (s : bstate) : list bytes := br_pending s ++ br_finished s.

(** ** What a receiver gets of an honest sender *)

(** A message dated [date] arriving in state [s] is not too old; the sum does not overflow. *)
Definition timely (c : bc_setup) (s : bstate) (date : N) : Prop :=
  date + bo_timeout (bs_options c) < 2 ^ 32 /\ now_sec s <= date + bo_timeout (bs_options c).

(** What [force_compression] on or off puts into the messages for [data]. *)
Definition wire (c : bc_setup) (compressed : bool) (data : bytes) : bytes :=
  if compressed then compress (bs_zstd c) data else data.

(** Symbol number [esi] of the broadcast of [payload] by [secret] is among the packets that arrived in time. *)
Definition symbol_in_time (c : bc_setup) (s0 : bstate) (evs : list bc_event) (secret id payload : bytes) (esi : N) : Prop :=
  exists s e peer raw date,
    happened c s0 evs s (EvFec e peer raw (own_fec_packet (bs_prims c) (bs_fec c) secret id payload date esi)) /\ timely c s date.

(** Symbol number [esi] of the broadcast [id] is among the packets that arrived. *)
Definition symbol_arrived (evs : list bc_event) (id : bytes) (esi : N) : Prop :=
  exists e peer raw b, In (EvFec e peer raw b) evs /\ bf_data_hash b = id /\ bf_seqno b = esi.

(** A packet that no node takes: it is too old, its signature has a wrong length or its source is not a key. *)
Definition unusable (c : bc_setup) (s : bstate) (b : ov_broadcast_fec) : Prop :=
  (bf_date b + bo_timeout (bs_options c) < 2 ^ 32 /\ bf_date b + bo_timeout (bs_options c) < now_sec s)
  \/ length (bf_signature b) <> 64%nat
  \/ forall key, bf_src b = PkEd25519 key -> valid_pub (bs_prims c) key = false.
(** A packet in the name of somebody else. *)
Definition foreign (c : bc_setup) (b : ov_broadcast_fec) (secret : bytes) : Prop :=
  forall key, bf_src b = PkEd25519 key -> node_id (bs_prims c) key <> node_id (bs_prims c) (pub_of (bs_prims c) secret).

(** From state [s0], until [data] is delivered, every FEC packet of broadcast [id] is one of [secret] for [payload],
    with any symbol number, that arrives in time; or it is unusable; or it is in the name of somebody else and
    not the first to arrive.  And no other message has the same id. *)
Definition undisturbed (c : bc_setup) (s0 : bstate) (evs : list bc_event) (secret id data payload : bytes) : Prop :=
  (forall before e peer raw b after, evs = before ++ EvFec e peer raw b :: after -> bf_data_hash b = id ->
     let s := bc_run c s0 before in
     (exists date esi, b = own_fec_packet (bs_prims c) (bs_fec c) secret id payload date esi /\ esi < 2 ^ 32 /\ timely c s date)
     \/ unusable c s b
     \/ (foreign c b secret /\ exists esi, symbol_in_time c s0 before secret id payload esi)
     \/ exists d, In d (br_delivered s) /\ dl_id d = id /\ dl_data d = data
                   /\ dl_from d = node_id (bs_prims c) (pub_of (bs_prims c) secret))
  /\ (forall s ev, happened c s0 evs s ev -> about c id (now_sec s) ev -> exists e peer raw b, ev = EvFec e peer raw b).

(** The task that decodes [id] has nothing left to do. *)
Definition processed (id : bytes) (s : bstate) : Prop :=
  forall t, In t (br_tasks s) -> tk_id t = id -> tk_phase t = Running -> tk_queue t = [].

(** ** Forwarding *)

(** The packet [seqno] of broadcast [id] is received and sent on. *)
Definition forwarded (c : bc_setup) (id : bytes) (seqno : N) (s : bstate) (e : bc_event) : bool :=
  match e with
  | EvFec _ _ _ b =>
    bytes_eqb (bf_data_hash b) id && (bf_seqno b =? seqno)
    && (length (br_sent s) <? length (br_sent (bc_step c s e)))%nat
  | _ => false
  end.
Fixpoint forwards (c : bc_setup) (id : bytes) (seqno : N) (s : bstate) (evs : list bc_event) : nat :=
  match evs with
  | [] => 0
  | e :: r => (if forwarded c id seqno s e then 1 else 0) + forwards c id seqno (bc_step c s e) r
  end%nat.
Definition small_seqno (id : bytes) (e : bc_event) : Prop :=
  match e with EvFec _ _ _ b => bf_data_hash b = id -> bf_seqno b < 256 | _ => True end.

(** ** Giving up *)

(** A packet of broadcast [id] arrived at time [t]; and one that nothing is wrong with. *)
Definition arrived_at (c : bc_setup) (s0 : bstate) (evs : list bc_event) (id : bytes) (t : N) : Prop :=
  exists s e peer raw b, happened c s0 evs s (EvFec e peer raw b) /\ bf_data_hash b = id
  /\ in_time c s (bf_date b) /\ t = br_clock s.
Definition proper_at (c : bc_setup) (s0 : bstate) (evs : list bc_event) (id : bytes) (t : N) : Prop :=
  exists s e peer raw b key, happened c s0 evs s (EvFec e peer raw b) /\ bf_data_hash b = id
  /\ timely c s (bf_date b) /\ bf_src b = PkEd25519 key /\ valid_pub (bs_prims c) key = true
  /\ length (bf_signature b) = 64%nat /\ t = br_clock s.

(** An entry for [id] that is still being received. *)
Definition unfinished (s : bstate) (id : bytes) : Prop :=
  exists x, br_owned s !! id = Some (Incoming x) /\ ic_completed x = false.
(** An entry for [id] whose decoder has ended, with or without data. *)
Definition ended (s : bstate) (id : bytes) : Prop :=
  exists x, br_owned s !! id = Some (Incoming x) /\ ic_completed x = true.
