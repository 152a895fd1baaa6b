(** Broadcasts of an overlay: /repo/src/overlay/overlay.rs.

    One message is received in one step, tasks and timers run between them in any order.  The clock
    is one number of milliseconds that never steps back; [now()] is its number of seconds as a u32.
    The neighbours are given to each step, with the positions chosen at random among them.
    [checks] tells whether the build panics on arithmetic overflow.  What is sent to neighbours is a
    log ([br_sent]): sending errors are only logged by the code. *)
From stdpp Require Import gmap.
From Coq Require Import NArith.
From Verif.Base Require Import Bytes Res.
From Verif.Model Require Import Crypto Tl Scheme ProtoAdnl ProtoRldp ProtoOverlay AdnlNode History PeersSet
  Compression Fec DhtStorage.
Open Scope N_scope.

(** [BROADCAST_FLAG_ANY_SENDER] (overlay.rs:1426): bit 0. *)
Definition any_sender : N := 1.
Definition is_any_sender (flags : N) : bool := negb (N.land flags any_sender =? 0).

(** [OverlayBroadcastToSign] (1271-1276): a hash and a date; boxed. *)
Definition put_to_sign (hash : bytes) (date : N) : bytes :=
  put_u32 id_overlay_broadcast_to_sign ++ put_hash hash ++ put_u32 date.

(** [make_broadcast_to_sign] (1284-1302). *)
Definition source_bytes (source : option bytes) : bytes :=
  match source with Some s => s | None => repeat 0 32 end.
Definition broadcast_to_sign (P : prims) (data : bytes) (date : N) (source : option bytes) : bytes :=
  put_to_sign
    (sha256 P (put_u32 id_overlay_broadcast_id ++ source_bytes source ++ sha256 P data ++ put_u32 any_sender))
    date.

(** [compute_broadcast_id] (1279-1281). *)
Definition broadcast_id (P : prims) (to_sign : bytes) : bytes := sha256 P to_sign.

(** [make_fec_part_to_sign] (1304-1343). *)
Definition fec_part_to_sign (P : prims) (data_hash : bytes) (size date flags : N) (params : fec_type)
    (part : bytes) (seqno : N) (source : option bytes) : bytes :=
  let broadcast_hash :=
    sha256 P (put_u32 id_overlay_broadcast_fec_id ++ source_bytes source ++ sha256 P (put_fec_type params)
              ++ data_hash ++ put_u32 size ++ put_u32 flags) in
  put_to_sign
    (sha256 P (put_u32 id_overlay_broadcast_fec_part_id ++ broadcast_hash ++ sha256 P part ++ put_u32 seqno))
    date.

(** The options used here (overlay.rs:25-86). *)
Record bc_options := mk_bc_options
  { bo_timeout : N;
    bo_log : N;
    bo_targets : N;
    bo_secondary : N;
    bo_secondary_fec : N;
    bo_compress : bool }.

(** [BroadcastFec] (1379-1389): a packet on its way to the task. *)
Record fec_packet := mk_fec_packet
  { fp_key : bytes; fp_hash : bytes; fp_size : N; fp_flags : N; fp_data : bytes; fp_seqno : N;
    fp_fec : fec_type; fp_date : N; fp_signature : bytes }.

(** [IncomingFecTransfer] (1359-1365): [ic_task] identifies the other end of the channel;
    [ic_started] and [ic_updated] are the [UpdatedAt] (util/updated_at.rs). *)
Record incoming := mk_incoming
  { ic_task : nat; ic_completed : bool; ic_history : history; ic_source : bytes;
    ic_started : N; ic_updated : N }.
(** [OwnedBroadcast] (1373-1376). *)
Inductive owned := Other | Incoming (i : incoming).

(** The task of an incoming FEC broadcast (979-1031). *)
Inductive task_phase := Running | Marking | Finished.
Record fec_task := mk_fec_task
  { tk_id : bytes; tk_source : bytes; tk_queue : list fec_packet; tk_decoder : decoder;
    tk_packets : N; tk_phase : task_phase }.

(** Sleeping tasks: the cleanup of an incoming FEC broadcast (1034-1064) and the removal of a
    broadcast (1136-1145), with the time they wake up at. *)
Inductive timer := Cleanup (id : bytes) (due : N) | Removal (id : bytes) (due : N).
Definition timer_id (t : timer) : bytes := match t with Cleanup i _ | Removal i _ => i end.
Definition timer_due (t : timer) : N := match t with Cleanup _ d | Removal _ d => d end.

(** Where the collector (188-197) is: sleeping or about to check, to pop, to remove, to subtract. *)
Inductive collector := CCheck | CPop | CRemove (id : bytes) | CSub.

(** [IncomingBroadcastInfo] (1346-1350), with the id it was received under. *)
Record delivery := mk_delivery { dl_id : bytes; dl_packets : N; dl_data : bytes; dl_from : bytes }.

(** The part of [Overlay] (108-141) about broadcasts, and its tasks. *)
Record bstate := mk_bstate
  { br_clock : N;
    br_owned : gmap bytes owned;
    br_tasks : list fec_task;
    br_timers : list timer;
    br_pending : list bytes;
    br_finished : list bytes;
    br_count : N;
    br_collector : collector;
    br_delivered : list delivery;
    br_sent : list (list bytes * bytes) }.

Definition bstate_new (clock : N) : bstate := mk_bstate clock ∅ [] [] [] [] 0 CCheck [] [].

Definition set_owned (s : bstate) (m : gmap bytes owned) : bstate :=
  mk_bstate (br_clock s) m (br_tasks s) (br_timers s) (br_pending s) (br_finished s) (br_count s)
    (br_collector s) (br_delivered s) (br_sent s).
Definition set_tasks (s : bstate) (l : list fec_task) : bstate :=
  mk_bstate (br_clock s) (br_owned s) l (br_timers s) (br_pending s) (br_finished s) (br_count s)
    (br_collector s) (br_delivered s) (br_sent s).
Definition set_timers (s : bstate) (l : list timer) : bstate :=
  mk_bstate (br_clock s) (br_owned s) (br_tasks s) l (br_pending s) (br_finished s) (br_count s)
    (br_collector s) (br_delivered s) (br_sent s).
Definition set_collector (s : bstate) (c : collector) : bstate :=
  mk_bstate (br_clock s) (br_owned s) (br_tasks s) (br_timers s) (br_pending s) (br_finished s) (br_count s)
    c (br_delivered s) (br_sent s).
Definition set_queue (s : bstate) (pending finished : list bytes) (count : N) : bstate :=
  mk_bstate (br_clock s) (br_owned s) (br_tasks s) (br_timers s) pending finished count
    (br_collector s) (br_delivered s) (br_sent s).
(** [received_broadcasts.push]. *)
Definition deliver_data (s : bstate) (d : delivery) : bstate :=
  mk_bstate (br_clock s) (br_owned s) (br_tasks s) (br_timers s) (br_pending s) (br_finished s) (br_count s)
    (br_collector s) (br_delivered s ++ [d]) (br_sent s).
(** [distribute_broadcast] (1114-1130). *)
Definition distribute (s : bstate) (targets : list bytes) (data : bytes) : bstate :=
  mk_bstate (br_clock s) (br_owned s) (br_tasks s) (br_timers s) (br_pending s) (br_finished s) (br_count s)
    (br_collector s) (br_delivered s) (br_sent s ++ [(targets, data)]).

(** [now()] (util/mod.rs:26-31). *)
Definition now_sec (s : bstate) : N := (br_clock s / 1000) mod 2 ^ 32.

(** [is_broadcast_outdated] (1132-1134); [None]: the addition panics. *)
Definition outdated (checks : bool) (date timeout now : N) : option bool :=
  let sum := date + timeout mod 2 ^ 32 in
  if sum <? 2 ^ 32 then Some (sum <? now)
  else if checks then None else Some (sum mod 2 ^ 32 <? now).

(** [spawn_broadcast_gc_task] (1136-1145). *)
Definition spawn_removal (o : bc_options) (s : bstate) (id : bytes) : bstate :=
  set_timers s (br_timers s ++ [Removal id (br_clock s + bo_timeout o * 1000)]).

(** [create_broadcast] (947-957). *)
Definition create_broadcast (s : bstate) (id : bytes) : bool * bstate :=
  match br_owned s !! id with
  | Some _ => (false, s)
  | None => (true, set_owned s (<[id := Other]> (br_owned s)))
  end.

(** How the reception of a message ends. *)
Inductive bc_result := Done | Failed | Panic.

(** The surroundings of a step: the neighbours and the positions chosen among them. *)
Record bc_env := mk_bc_env { be_neighbours : peers_set; be_picks : list nat }.

(** The end of [receive_broadcast] (563-606) for a verified broadcast. *)
Definition accept_broadcast (o : bc_options) (e : bc_env) (s : bstate) (peer raw id data from : bytes) : bstate :=
  match create_broadcast s id with
  | (false, s) => s
  | (true, s) =>
    let s := deliver_data s (mk_delivery id 1 data from) in
    let s := distribute s (get_random_peers (be_neighbours e) (bo_secondary o) (Some peer) (be_picks e)) raw in
    spawn_removal o s id
  end.

(** [receive_broadcast] (543-608); [peer] sent us the message [raw]. *)
Definition receive_broadcast (P : prims) (z : zstd) (checks : bool) (o : bc_options) (e : bc_env) (s : bstate)
    (peer raw : bytes) (b : ov_broadcast) : bc_result * bstate :=
  match outdated checks (ob_date b) (bo_timeout o) (now_sec s) with
  | None => (Panic, s)
  | Some true => (Done, s)
  | Some false =>
    match full_id P (ob_src b) with
    | Err _ => (Failed, s)
    | Ok key =>
      let from := short_id P key in
      let source := if is_any_sender (ob_flags b) then None else Some from in
      let unpacked :=
        match decompress z (ob_data b) with
        | Some d =>
          let m := broadcast_to_sign P d (ob_date b) source in
          if verify_full P key m (ob_signature b) then Some (broadcast_id P m, d) else None
        | None => None
        end in
      match unpacked with
      | Some (id, d) => (Done, accept_broadcast o e s peer raw id d from)
      | None =>
        let m := broadcast_to_sign P (ob_data b) (ob_date b) source in
        if verify_full P key m (ob_signature b)
        then (Done, accept_broadcast o e s peer raw (broadcast_id P m) (ob_data b) from)
        else (Failed, s)
      end
    end
  end.

(** [spawn_fec_transfer_receiver] (960-1067). *)
Definition spawn_fec_receiver (o : bc_options) (s : bstate) (params : fec_type) (id source : bytes) : bstate :=
  let i := mk_incoming (length (br_tasks s)) false history_new source (br_clock s) 0 in
  let s := set_owned s (<[id := Incoming i]> (br_owned s)) in
  let s := set_tasks s (br_tasks s ++ [mk_fec_task id source [] (decoder_new params) 0 Running]) in
  set_timers s (br_timers s ++ [Cleanup id (br_clock s + bo_timeout o * 100)]).

Definition update_task (l : list fec_task) (i : nat) (f : fec_task -> fec_task) : list fec_task :=
  match nth_error l i with Some t => firstn i l ++ f t :: skipn (S i) l | None => l end.
Definition push_packet (p : fec_packet) (t : fec_task) : fec_task :=
  mk_fec_task (tk_id t) (tk_source t) (tk_queue t ++ [p]) (tk_decoder t) (tk_packets t) (tk_phase t).

(** [receive_fec_broadcast] (611-685).  The channel is closed once the task has ended. *)
Definition receive_fec (P : prims) (checks : bool) (o : bc_options) (e : bc_env) (s : bstate)
    (peer raw : bytes) (b : ov_broadcast_fec) : bc_result * bstate :=
  match outdated checks (bf_date b) (bo_timeout o) (now_sec s) with
  | None => (Panic, s)
  | Some true => (Done, s)
  | Some false =>
    match full_id P (bf_src b) with
    | Err _ => (Failed, s)
    | Ok key =>
      let id := bf_data_hash b in
      let source := short_id P key in
      if negb (length (bf_signature b) =? 64)%nat then (Failed, s) else
      let s := match br_owned s !! id with
               | None => spawn_fec_receiver o s (bf_fec b) id source
               | Some _ => s
               end in
      match br_owned s !! id with
      | Some (Incoming t) =>
        let refreshed := mk_incoming (ic_task t) (ic_completed t) (ic_history t) (ic_source t) (ic_started t)
                           ((br_clock s - ic_started t) / 1000) in
        let s := set_owned s (<[id := Incoming refreshed]> (br_owned s)) in
        if negb (bytes_eqb (ic_source t) source) then (Done, s) else
        match History.deliver checks (ic_history t) (bf_seqno b) with
        | (Panicked, _) => (Panic, s)
        | (Rejected, _) => (Done, s)
        | (Accepted, h) =>
          let s := set_owned s (<[id := Incoming (mk_incoming (ic_task t) (ic_completed t) h (ic_source t)
                                             (ic_started t) (ic_updated refreshed))]> (br_owned s)) in
          let forward s :=
            distribute s (get_random_peers (be_neighbours e) (bo_secondary_fec o) (Some peer) (be_picks e)) raw in
          if ic_completed t then (Done, forward s) else
          match nth_error (br_tasks s) (ic_task t) with
          | Some task =>
            match tk_phase task with
            | Finished => (Failed, s)
            | _ =>
              let p := mk_fec_packet key id (bf_data_size b) (bf_flags b) (bf_data b) (bf_seqno b) (bf_fec b)
                         (bf_date b) (bf_signature b) in
              (Done, forward (set_tasks s (update_task (br_tasks s) (ic_task t) (push_packet p))))
            end
          | None => (Failed, s)
          end
        end
      | _ => (Done, s)
      end
    end
  end.

(** [process_fec_broadcast] (1224-1269): an error, nothing yet, or the data. *)
Definition process_fec (P : prims) (z : zstd) (F : fec) (d : decoder) (p : fec_packet)
  : res unit (option bytes) * decoder :=
  let source := if is_any_sender (fp_flags p) then None else Some (short_id P (fp_key p)) in
  let m := fec_part_to_sign P (fp_hash p) (fp_size p) (fp_date p) (fp_flags p) (fp_fec p) (fp_data p)
             (fp_seqno p) source in
  if negb (verify_full P (fp_key p) m (fp_signature p)) then (Err tt, d) else
  match decode F d (fp_seqno p) (fp_data p) with
  | (None, d') => (Ok None, d')
  | (Some r, d') =>
    if negb (N.of_nat (length r) =? fp_size p) then (Err tt, d') else
    let as_is := if bytes_eqb (sha256 P r) (fp_hash p) then (Ok (Some r), d') else (Err tt, d') in
    match decompress z r with
    | Some u => if bytes_eqb (sha256 P u) (fp_hash p) then (Ok (Some u), d') else as_is
    | None => as_is
    end
  end.

(** One iteration of the task's loop (979-1013): the next packet, or the end of the channel when
    every copy of the sender is gone. *)
Definition holds_sender (i : nat) (x : owned) : bool :=
  match x with Incoming t => (ic_task t =? i)%nat | Other => false end.
Definition task_step (P : prims) (z : zstd) (F : fec) (s : bstate) (i : nat) : bstate :=
  match nth_error (br_tasks s) i with
  | Some t =>
    match tk_phase t with
    | Running =>
      match tk_queue t with
      | p :: rest =>
        let packets := tk_packets t + 1 in
        let '(r, d) := process_fec P z F (tk_decoder t) p in
        match r with
        | Ok None =>
          set_tasks s (update_task (br_tasks s) i
            (fun t => mk_fec_task (tk_id t) (tk_source t) rest d packets Running))
        | Ok (Some data) =>
          deliver_data
            (set_tasks s (update_task (br_tasks s) i
              (fun t => mk_fec_task (tk_id t) (tk_source t) rest d packets Marking)))
            (mk_delivery (tk_id t) packets data (tk_source t))
        | Err _ =>
          set_tasks s (update_task (br_tasks s) i
            (fun t => mk_fec_task (tk_id t) (tk_source t) rest d packets Marking))
        end
      | [] =>
        if existsb (fun kv => holds_sender i (snd kv)) (map_to_list (br_owned s)) then s
        else set_tasks s (update_task (br_tasks s) i
               (fun t => mk_fec_task (tk_id t) (tk_source t) [] (tk_decoder t) (tk_packets t) Marking))
      end
    | Marking =>
      (* 1015-1030: whatever incoming broadcast has this id now is marked as completed. *)
      let s' := match br_owned s !! tk_id t with
                | Some (Incoming c) =>
                  set_owned s (<[tk_id t := Incoming (mk_incoming (ic_task c) true (ic_history c) (ic_source c)
                                                        (ic_started c) (ic_updated c))]> (br_owned s))
                | _ => s
                end in
      set_tasks s' (update_task (br_tasks s') i
        (fun t => mk_fec_task (tk_id t) (tk_source t) (tk_queue t) (tk_decoder t) (tk_packets t) Finished))
    | Finished => s
    end
  | None => s
  end.

(** [UpdatedAt::is_expired] (util/updated_at.rs:21-23). *)
Definition is_expired (timeout clock : N) (t : incoming) : bool :=
  ic_updated t + timeout <=? (clock - ic_started t) / 1000.

Definition remove_nth {A} (l : list A) (i : nat) : list A := firstn i l ++ skipn (S i) l.

(** A sleeping task wakes up: the cleanup sleeps again or starts the removal (1037-1064), the removal
    counts the broadcast ([fetch_add], 1140-1142). *)
Definition timer_step (o : bc_options) (s : bstate) (i : nat) : bstate :=
  match nth_error (br_timers s) i with
  | Some t =>
    if br_clock s <? timer_due t then s else
    match t with
    | Cleanup id due =>
      let s' := set_timers s (remove_nth (br_timers s) i) in
      let again := match br_owned s !! id with
                   | Some (Incoming c) => negb (ic_completed c) && negb (is_expired (bo_timeout o) (br_clock s) c)
                   | _ => false
                   end in
      if again then set_timers s' (br_timers s' ++ [Cleanup id (br_clock s + bo_timeout o * 100)])
      else spawn_removal o s' id
    | Removal id due =>
      set_queue (set_timers s (remove_nth (br_timers s) i)) (br_pending s ++ [id]) (br_finished s) (br_count s + 1)
    end
  | None => s
  end.

(** ... and queues it (1143). *)
Definition push_step (s : bstate) (i : nat) : bstate :=
  match nth_error (br_pending s) i with
  | Some id => set_queue s (remove_nth (br_pending s) i) (br_finished s ++ [id]) (br_count s)
  | None => s
  end.

(** The collector (188-197), one shared access at a time. *)
Definition collector_step (o : bc_options) (s : bstate) : bstate :=
  match br_collector s with
  | CCheck => if bo_log o <? br_count s then set_collector s CPop else s
  | CPop =>
    match br_finished s with
    | id :: rest => set_collector (set_queue s (br_pending s) rest (br_count s)) (CRemove id)
    | [] => set_collector s CSub
    end
  | CRemove id => set_collector (set_owned s (delete id (br_owned s))) CSub
  | CSub => set_collector (set_queue s (br_pending s) (br_finished s) (br_count s - 1)) CCheck
  end.

(** [send_broadcast] (720-780): the message with its overlay prefix, and the new state; [None] for a
    duplicate. *)
Definition own_broadcast (P : prims) (z : zstd) (o : bc_options) (secret data : bytes) (date : N) : ov_broadcast :=
  mk_ov_broadcast (PkEd25519 (pub_of P secret)) EmptyCert any_sender
    (if bo_compress o then compress z data else data) date
    (sign P secret (broadcast_to_sign P data date None)).
Definition overlay_message (overlay : bytes) (b : broadcast) : bytes := put_overlay_message overlay ++ put_broadcast b.
Definition send_broadcast (P : prims) (z : zstd) (o : bc_options) (overlay secret : bytes) (s : bstate)
    (data : bytes) (targets : list bytes) : option (N * nat) * bstate :=
  let date := now_sec s in
  let id := broadcast_id P (broadcast_to_sign P data date None) in
  match create_broadcast s id with
  | (false, s) => (None, s)
  | (true, s) =>
    let s := distribute s targets (overlay_message overlay (BBroadcast (own_broadcast P z o secret data date))) in
    (Some (1, length targets), spawn_removal o s id)
  end.

(** [prepare_fec_broadcast] (1070-1111): the next packet of a transfer. *)
Definition own_fec_packet (P : prims) (F : fec) (secret id payload : bytes) (date esi : N) : ov_broadcast_fec :=
  let params := fec_params F payload in
  let chunk := fe_symbol F payload esi in
  mk_ov_broadcast_fec (PkEd25519 (pub_of P secret)) EmptyCert id (ft_total_len params) any_sender chunk esi
    params date
    (sign P secret (fec_part_to_sign P id (ft_total_len params) date any_sender params chunk esi None)).

(** How many packets are announced (824-827); the size is a u32, so nothing overflows. *)
Definition fec_packets (size : N) : N := (size / symbol_size + 1) * 3 / 2.

(** The sequence numbers of the packets sent by the loop (838-866).  The pauses between waves do
    not matter here.  The loop is bounded by [fuel]; [None]: not finished. *)
Fixpoint fec_loop (F : fec) (fuel : nat) (e : encoder) (seqno packets : N) : option (list N) :=
  match fuel with
  | O => None
  | S k =>
    let '(esi, _, e') := encode F e seqno in
    let next := esi + 1 in
    if packets <? next then Some [esi]
    else match fec_loop F k e' next packets with Some l => Some (esi :: l) | None => None end
  end.

(** [send_fec_broadcast] (783-874): the packets, sent by a task of their own, are those of [own_fec_packet]
    with the numbers of [fec_loop]; they are not logged in [br_sent]. *)
Definition send_fec_broadcast (P : prims) (z : zstd) (o : bc_options) (overlay secret : bytes) (s : bstate)
    (data : bytes) (targets : list bytes) : option (N * nat) * bstate :=
  let id := sha256 P data in
  match create_broadcast s id with
  | (false, s) => (None, s)
  | (true, s) =>
    let payload := if bo_compress o then compress z data else data in
    (Some (fec_packets (N.of_nat (length payload) mod 2 ^ 32), length targets), spawn_removal o s id)
  end.

(** What can happen. *)
Inductive bc_event :=
| EvTick (ms : N)
| EvBroadcast (e : bc_env) (peer raw : bytes) (b : ov_broadcast)
| EvFec (e : bc_env) (peer raw : bytes) (b : ov_broadcast_fec)
| EvSend (secret data : bytes) (targets : list bytes)
| EvSendFec (secret data : bytes) (targets : list bytes)
| EvTask (i : nat)
| EvTimer (i : nat)
| EvPush (i : nat)
| EvCollect.

(** The fixed parameters of an overlay. *)
Record bc_setup := mk_bc_setup
  { bs_prims : prims; bs_zstd : zstd; bs_fec : fec; bs_checks : bool; bs_options : bc_options; bs_overlay : bytes }.

Definition bc_step (c : bc_setup) (s : bstate) (ev : bc_event) : bstate :=
  match ev with
  | EvTick ms =>
    mk_bstate (br_clock s + ms) (br_owned s) (br_tasks s) (br_timers s) (br_pending s) (br_finished s)
      (br_count s) (br_collector s) (br_delivered s) (br_sent s)
  | EvBroadcast e peer raw b =>
    snd (receive_broadcast (bs_prims c) (bs_zstd c) (bs_checks c) (bs_options c) e s peer raw b)
  | EvFec e peer raw b => snd (receive_fec (bs_prims c) (bs_checks c) (bs_options c) e s peer raw b)
  | EvSend secret data targets =>
    snd (send_broadcast (bs_prims c) (bs_zstd c) (bs_options c) (bs_overlay c) secret s data targets)
  | EvSendFec secret data targets =>
    snd (send_fec_broadcast (bs_prims c) (bs_zstd c) (bs_options c) (bs_overlay c) secret s data targets)
  | EvTask i => task_step (bs_prims c) (bs_zstd c) (bs_fec c) s i
  | EvTimer i => timer_step (bs_options c) s i
  | EvPush i => push_step s i
  | EvCollect => collector_step (bs_options c) s
  end.
Definition bc_run (c : bc_setup) (s : bstate) (l : list bc_event) : bstate := fold_left (bc_step c) l s.
