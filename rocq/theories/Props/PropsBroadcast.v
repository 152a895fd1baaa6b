(** C49-C54, C66, C67: broadcasts in an overlay. *)
From stdpp Require Import gmap.
From Coq Require Import NArith Lia.
From Verif.Base Require Import Bytes Res.
From Verif.Model Require Import Crypto Tl Scheme ProtoAdnl ProtoRldp ProtoOverlay AdnlNode PeersSet Compression Fec Broadcast.
From Verif.Spec Require Import CryptoSpec CompressionSpec FecSpec Sample DhtSpec DhtSample OverlaySpec BroadcastSpec BroadcastSample.
From Verif.Proof Require BroadcastAuth BroadcastLog BroadcastLive BroadcastForward BroadcastWitness FecFacts CompressionFacts.
Open Scope N_scope.

(** C49, C51: whatever happens, everything handed to the user comes from an ordinary broadcast with a
    valid signature of the reported sender over the data and the date, received in time; or from FEC
    packets, all received in time and signed by the reported sender, that decode to data with the
    announced size and the hash that identifies the broadcast. *)
Theorem c49_c51_authentic : forall c clock evs d,
  let s0 := bstate_new clock in
  In d (br_delivered (bc_run c s0 evs)) -> from_broadcast c s0 evs d \/ from_packets c s0 evs d.
Proof. exact BroadcastAuth.delivered_authentic. Qed.
Print Assumptions c49_c51_authentic.

Example c49_c51_example :
  br_delivered (bc_run (t_bc 10 0) (bstate_new 100000)
    [t_get 95; t_get_part 1; t_get_part 0; EvTask 0; EvTask 0; t_get 95; t_get 89])
  = [mk_delivery (t_ordinary_id 95) 1 [1; 2; 3] (t_id 7); mk_delivery t_long_id 2 t_long (t_id 7)].
Proof. vm_compute. reflexivity. Qed.

(** C50: false.  A broadcast dated in the second it is received is delivered again when it is
    received exactly at the end of the timeout, after the log has forgotten it. *)
Theorem c50_refuted : exists c clock evs id,
  prims_ok (bs_prims c) /\ zstd_ok (bs_zstd c) /\ fec_ok (bs_fec c)
  /\ (forall s e peer raw b, happened c (bstate_new clock) evs s (EvBroadcast e peer raw b) -> ob_date b = clock / 1000)
  /\ deliveries id (bc_run c (bstate_new clock) evs) = 2%nat.
Proof. exact BroadcastWitness.not_once. Qed.
Print Assumptions c50_refuted.

(** C50: true of messages that are dated before the second they first arrive in, as long as the clock
    is in the range of 32-bit seconds.  Missing: messages dated in that second or in the future. *)
Theorem c50_once_partial : forall c clock before after id limit,
  never_about c id before ->
  limit * 1000 <= br_clock (bc_run c (bstate_new clock) before) ->
  Forall (dated_before c id limit) after ->
  let s := bc_run c (bstate_new clock) (before ++ after) in
  br_clock s < 2 ^ 32 * 1000 ->
  (deliveries id s <= 1)%nat.
Proof. exact BroadcastLog.delivered_once. Qed.
Print Assumptions c50_once_partial.

Example c50_example :
  let after := [t_get 99; t_get 99; EvTick 10000; EvTimer 0; EvPush 0; EvCollect; EvCollect; EvCollect; EvCollect; t_get 99] in
  let s := bc_run (t_bc 10 0) (bstate_new 99900) ([EvTick 100] ++ after) in
  never_about (t_bc 10 0) (t_ordinary_id 99) [EvTick 100]
  /\ br_clock (bc_run (t_bc 10 0) (bstate_new 99900) [EvTick 100]) = 100 * 1000
  /\ Forall (dated_before (t_bc 10 0) (t_ordinary_id 99) 100) after
  /\ br_owned s !! t_ordinary_id 99 = None
  /\ deliveries (t_ordinary_id 99) s = 1%nat.
Proof.
  cbv zeta. split; [intros e now [<-|[]] H; exact H|]. split; [reflexivity|]. split; [|split; vm_compute; reflexivity].
  assert (H : dated_before (t_bc 10 0) (t_ordinary_id 99) 100 (t_get 99)) by (intros _; reflexivity).
  repeat (apply List.Forall_cons; [first [exact H|exact I]|]). apply List.Forall_nil.
Qed.

(** C52: false.  One packet in the sender's name with a bad signature, received first, and nothing is
    delivered although all packets arrive in time. *)
Theorem c52_refuted : exists c clock evs secret data,
  prims_ok (bs_prims c) /\ zstd_ok (bs_zstd c) /\ fec_ok (bs_fec c)
  /\ let id := sha256 (bs_prims c) data in
     let s := bc_run c (bstate_new clock) evs in
     (forall i, i < fe_count (bs_fec c) data -> exists e peer raw,
        In (EvFec e peer raw (own_fec_packet (bs_prims c) (bs_fec c) secret id data (clock / 1000) i)) evs)
     /\ br_clock s = clock /\ processed id s /\ br_delivered s = [].
Proof. exact BroadcastWitness.suppressible. Qed.
Print Assumptions c52_refuted.

(** C52: false also without any bad signature: somebody else's packet with the same hash comes first, correctly
    signed by them, and the sender's packets are ignored. *)
Theorem c52_squatted_refuted : exists c clock evs secret data,
  prims_ok (bs_prims c) /\ zstd_ok (bs_zstd c) /\ fec_ok (bs_fec c)
  /\ let id := sha256 (bs_prims c) data in
     let s := bc_run c (bstate_new clock) evs in
     (forall e peer raw b, In (EvFec e peer raw b) evs -> exists k payload date esi,
        b = own_fec_packet (bs_prims c) (bs_fec c) k id payload date esi)
     /\ (forall i, i < fe_count (bs_fec c) data -> exists e peer raw,
        In (EvFec e peer raw (own_fec_packet (bs_prims c) (bs_fec c) secret id data (clock / 1000) i)) evs)
     /\ br_clock s = clock /\ processed id s /\ br_delivered s = [].
Proof. exact BroadcastWitness.squattable. Qed.
Print Assumptions c52_squatted_refuted.

(** C52: true when, until the delivery, all packets in the sender's name are the sender's, and one of them is
    the first: once every source symbol arrived, with any repair symbols, in any order and any number of
    times, within the timeout of the first, and the packets are processed, the data is delivered, whatever
    packets others send in their own name and whatever packets are not usable at all. *)
Theorem c52_arrives_partial : forall c clock before evs secret data compressed,
  let P := bs_prims c in let F := bs_fec c in let z := bs_zstd c in
  let id := sha256 P data in let payload := wire c compressed data in
  prims_ok P -> fec_ok F -> zstd_ok z ->
  bytes_ok data = true -> N.of_nat (length data) < 2 ^ 32 -> N.of_nat (length payload) < 2 ^ 32 -> payload <> [] ->
  (forall u, decompress z payload = Some u -> sha256 P u = id -> u = data) ->
  let s0 := bc_run c (bstate_new clock) before in
  br_owned s0 !! id = None -> (forall t, In t (br_tasks s0) -> tk_id t <> id) ->
  undisturbed c s0 evs secret id data payload ->
  (forall i, i < fe_count F payload -> symbol_in_time c s0 evs secret id payload i) ->
  let s := bc_run c s0 evs in
  br_clock s < br_clock s0 + bo_timeout (bs_options c) * 1000 ->
  processed id s ->
  exists d, In d (br_delivered s) /\ dl_id d = id /\ dl_data d = data /\ dl_from d = node_id P (pub_of P secret).
Proof. exact BroadcastLive.honest_broadcast_arrives. Qed.
Print Assumptions c52_arrives_partial.

Example c52_example :
  let c := t_bc 10 0 in let s0 := bstate_new 100000 in
  let evs := [t_get_part 1; t_get_foreign; t_get_short; t_get_part 0; EvTask 0; EvTask 0; t_get_part 4; t_get_part 1; t_get_bad] in
  undisturbed c s0 evs (secret_of 7) t_long_id t_long (wire c false t_long)
  /\ (forall i, i < fe_count toy_fec t_long -> symbol_in_time c s0 evs (secret_of 7) t_long_id (wire c false t_long) i)
  /\ (forall u, decompress toy_zstd (wire c false t_long) = Some u -> sha256 brief u = t_long_id -> u = t_long)
  /\ map (fun t => (tk_phase t, tk_id t)) (br_tasks (bc_run c s0 evs)) = [(Marking, t_long_id)]
  /\ br_delivered (bc_run c s0 evs) = [mk_delivery t_long_id 2 t_long (t_id 7)].
Proof.
  cbv zeta. split; [exact BroadcastWitness.parts_undisturbed|]. split; [exact BroadcastWitness.parts_arrived|].
  split; [|exact (proj2 BroadcastWitness.parts_processed)].
  assert (H : decompress toy_zstd (wire (t_bc 10 0) false t_long) = None) by (vm_compute; reflexivity).
  intros u Hu. rewrite H in Hu. discriminate Hu.
Qed.

(** C53: false.  For every payload of more than three symbols fewer packets are sent than announced:
    one more than there are source symbols. *)
Theorem c53_refuted : forall P z F o overlay secret s data targets announced k,
  fec_ok F ->
  fst (send_fec_broadcast P z o overlay secret s data targets) = Some (announced, k) ->
  let payload := if bo_compress o then compress z data else data in
  3 * 768 < N.of_nat (length payload) -> N.of_nat (length payload) < 2 ^ 32 ->
  exists fuel l, fec_loop F fuel (encoder_new payload) 0 announced = Some l
  /\ N.of_nat (length l) = fe_count F payload + 1
  /\ N.of_nat (length l) < announced.
Proof. exact BroadcastLive.redundancy_missing. Qed.
Print Assumptions c53_refuted.

(** C53: what holds: all source symbols, in order, then at least one repair symbol, all distinct. *)
Theorem c53_sources_partial : forall P z F o overlay secret s data targets announced k,
  fec_ok F ->
  fst (send_fec_broadcast P z o overlay secret s data targets) = Some (announced, k) ->
  let payload := if bo_compress o then compress z data else data in
  payload <> [] -> N.of_nat (length payload) < 2 ^ 32 ->
  k = length targets
  /\ exists fuel l repairs, fec_loop F fuel (encoder_new payload) 0 announced = Some l
     /\ l = map N.of_nat (seq 0 (N.to_nat (fe_count F payload))) ++ repairs
     /\ repairs <> [] /\ Forall (fun esi => fe_count F payload <= esi) repairs /\ List.NoDup l.
Proof. exact BroadcastLive.sources_then_repairs. Qed.
Print Assumptions c53_sources_partial.

Example c53_example :
  let data := repeat 1 (N.to_nat 4000) in
  fec_ok toy_fec
  /\ fst (send_fec_broadcast brief toy_zstd (bs_options (t_bc 10 0)) t_overlay (secret_of 7) (bstate_new 100000) data
            [t_id 2; t_id 4]) = Some (9, 2%nat)
  /\ fec_loop toy_fec 10 (encoder_new data) 0 9 = Some [0; 1; 2; 3; 4; 5; 12].
Proof. split; [exact FecFacts.toy_fec_ok|]. vm_compute. auto. Qed.

(** C54: false.  A timeout between the two steps of the collector is forgotten: the log stays above
    its maximum in every later pass. *)
Theorem c54_refuted : exists c clock evs,
  prims_ok (bs_prims c) /\ zstd_ok (bs_zstd c) /\ fec_ok (bs_fec c)
  /\ let s := bc_run c (bstate_new clock) evs in
     br_timers s = [] /\ br_pending s = []
     /\ forall n, bo_log (bs_options c) < N.of_nat (length (timed_out (bc_run c s (repeat EvCollect n)))).
Proof. exact BroadcastWitness.log_leaks. Qed.
Print Assumptions c54_refuted.

(** C54: what holds in every schedule: a pass of the collector leaves at most the maximum plus one
    for each time the collector found the queue empty, the oldest are removed and nothing else. *)
Theorem c54_log_partial : forall c clock evs,
  let s := bc_run c (bstate_new clock) evs in
  let missed := N.of_nat (empty_pops c (bstate_new clock) evs) in
  let limit := bo_log (bs_options c) in
  (br_collector s = CCheck -> br_count s <= limit -> N.of_nat (length (timed_out s)) <= limit + missed)
  /\ (br_collector s = CCheck -> br_pending s = [] ->
      exists n, let s' := bc_run c s (repeat EvCollect n) in
        br_collector s' = CCheck /\ br_count s' <= limit
        /\ N.of_nat (length (timed_out s')) = N.min (N.of_nat (length (timed_out s))) (limit + missed)
        /\ exists dropped, timed_out s = dropped ++ timed_out s'
           /\ (forall id, In id dropped -> br_owned s' !! id = None)
           /\ (forall id, ~ In id dropped -> br_owned s' !! id = br_owned s !! id))
  /\ (forall id, In id (timed_out s) -> is_Some (br_owned s !! id)).
Proof. exact BroadcastLog.log_bounded. Qed.
Print Assumptions c54_log_partial.

(** C54: a broadcast is remembered for at least the timeout, whatever happens. *)
Theorem c54_kept : forall c clock before e after id,
  let s := bc_run c (bstate_new clock) before in
  let s' := bc_run c (bc_step c s e) after in
  br_owned s !! id = None -> is_Some (br_owned (bc_step c s e) !! id) ->
  br_clock s' < br_clock s + bo_timeout (bs_options c) * 1000 ->
  is_Some (br_owned s' !! id).
Proof. exact BroadcastLog.kept_in_time. Qed.
Print Assumptions c54_kept.

Example c54_example :
  let c := t_bc 10 1 in
  let evs := [t_get 95; EvTick 100; t_get 96; EvTick 9950; EvTimer 0; EvPush 0; EvTick 50; EvTimer 0; EvPush 0] in
  let s := bc_run c (bstate_new 100000) evs in
  empty_pops c (bstate_new 100000) evs = 0%nat
  /\ br_collector s = CCheck /\ br_pending s = [] /\ br_count s = 2
  /\ timed_out s = [t_ordinary_id 95; t_ordinary_id 96]
  /\ timed_out (bc_run c s (repeat EvCollect 4)) = [t_ordinary_id 96]
  /\ br_clock s - 100100 < 10001.
Proof. vm_compute. repeat split. Qed.

(** C66: an ordinary broadcast of an honest sender, compressed or not, is delivered at once and
    unchanged if it arrives in time and is not known yet, and it is sent on as it is. *)
Theorem c66_delivered : forall c s secret data compressed date e peer raw,
  let P := bs_prims c in let z := bs_zstd c in
  prims_ok P -> zstd_ok z -> bytes_ok data = true -> N.of_nat (length data) < 2 ^ 32 ->
  let o := mk_bc_options (bo_timeout (bs_options c)) 0 0 0 0 compressed in
  let b := own_broadcast P z o secret data date in
  let id := sha256 P (broadcast_claim P 1 [] data date) in
  let from := node_id P (pub_of P secret) in
  (forall u, decompress z (wire c compressed data) = Some u -> u <> data ->
     ~ signed_by P (pub_of P secret) (broadcast_claim P 1 [] u date) (ob_signature b)) ->
  timely c s date -> br_owned s !! id = None ->
  let s' := bc_step c s (EvBroadcast e peer raw b) in
  br_delivered s' = br_delivered s ++ [mk_delivery id 1 data from]
  /\ br_sent s' = br_sent s ++ [(get_random_peers (be_neighbours e) (bo_secondary (bs_options c)) (Some peer) (be_picks e), raw)]
  /\ br_owned s' !! id = Some Other.
Proof. exact BroadcastLive.honest_ordinary_arrives. Qed.
Print Assumptions c66_delivered.

Example c66_example :
  timely (t_bc 10 0) (bstate_new 100000) 95
  /\ br_owned (bstate_new 100000) !! t_ordinary_id 95 = None
  /\ decompress toy_zstd (wire (t_bc 10 0) false [1; 2; 3]) = None
  /\ br_delivered (bc_step (t_bc 10 0) (bstate_new 100000) (t_get 95)) = [mk_delivery (t_ordinary_id 95) 1 [1; 2; 3] (t_id 7)]
  /\ br_sent (bc_step (t_bc 10 0) (bstate_new 100000) (t_get 95)) = [([t_id 5; t_id 4], [9; 9])].
Proof.
  split; [split; vm_compute; first [reflexivity|discriminate]|]. split; [reflexivity|]. vm_compute. auto.
Qed.

(** C67: everything sent is the node's own broadcast to the chosen targets, or a received message
    sent on unchanged to at most the configured number of neighbours other than its sender. *)
Theorem c67_unchanged : forall c clock evs targets m,
  let s0 := bstate_new clock in
  In (targets, m) (br_sent (bc_run c s0 evs)) ->
  exists s e, happened c s0 evs s e /\
  match e with
  | EvBroadcast en peer raw _ =>
    m = raw /\ (length targets <= N.to_nat (bo_secondary (bs_options c)))%nat
    /\ (forall p, In p targets -> In p (ps_members (be_neighbours en)) /\ p <> peer)
  | EvFec en peer raw _ =>
    m = raw /\ (length targets <= N.to_nat (bo_secondary_fec (bs_options c)))%nat
    /\ (forall p, In p targets -> In p (ps_members (be_neighbours en)) /\ p <> peer)
  | EvSend secret data to =>
    targets = to
    /\ m = overlay_message (bs_overlay c)
             (BBroadcast (own_broadcast (bs_prims c) (bs_zstd c) (bs_options c) secret data (now_sec s)))
  | _ => False
  end.
Proof. exact BroadcastForward.sent_unchanged. Qed.
Print Assumptions c67_unchanged.

(** C67: false of repeated packets: a packet with a number from 256 on and any signature of 64 bytes
    is sent on every time it is received. *)
Theorem c67_refuted : forall c clock en peer raw b key n,
  bf_src b = PkEd25519 key -> valid_pub (bs_prims c) key = true -> length (bf_signature b) = 64%nat ->
  timely c (bstate_new clock) (bf_date b) -> 256 <= bf_seqno b -> bf_seqno b < 2 ^ 32 ->
  forwards c (bf_data_hash b) (bf_seqno b) (bstate_new clock) (repeat (EvFec en peer raw b) n) = n.
Proof. exact BroadcastForward.always_forwarded. Qed.
Print Assumptions c67_refuted.

(** C67: true of the packets of broadcasts with numbers below 256, under the conditions of C50. *)
Theorem c67_once_partial : forall c clock before after id limit seqno,
  never_about c id before ->
  limit * 1000 <= br_clock (bc_run c (bstate_new clock) before) ->
  Forall (dated_before c id limit) after ->
  Forall (small_seqno id) after ->
  br_clock (bc_run c (bstate_new clock) (before ++ after)) < 2 ^ 32 * 1000 ->
  (forwards c id seqno (bstate_new clock) (before ++ after) <= 1)%nat.
Proof. exact BroadcastForward.forwarded_once. Qed.
Print Assumptions c67_once_partial.

Example c67_example :
  let c := t_bc 10 0 in
  let evs := [t_get_part 1; t_get_part 0; EvTask 0; t_get_part 1; EvTick 3000; t_get_part 1; t_get_part 300; t_get_part 300] in
  map (fun n => forwards c t_long_id n (bstate_new 101000) evs) [0; 1; 2; 300] = [1; 1; 0; 2]%nat
  /\ Forall (dated_before c t_long_id 101) evs /\ Forall (small_seqno t_long_id) (firstn 6 evs)
  /\ br_sent (bc_run c (bstate_new 101000) (firstn 6 evs)) = [([t_id 5; t_id 4], [8; 1]); ([t_id 5; t_id 4], [8; 0])].
Proof.
  cbv zeta. split; [vm_compute; reflexivity|]. split; [|split; [|vm_compute; reflexivity]].
  - assert (H : forall n, dated_before (t_bc 10 0) t_long_id 101 (t_get_part n)) by (intros n _; reflexivity).
    repeat (apply List.Forall_cons; [first [apply H|exact I]|]). apply List.Forall_nil.
  - assert (H : forall n, n < 256 -> small_seqno t_long_id (t_get_part n)) by (intros n Hn _; exact Hn).
    cbn [firstn]. repeat (apply List.Forall_cons; [first [apply H; reflexivity|exact I]|]). apply List.Forall_nil.
Qed.
