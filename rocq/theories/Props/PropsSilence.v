(** C91: when a broadcast that is received in parts is given up. *)
From stdpp Require Import gmap.
From Coq Require Import NArith Lia.
From Verif.Base Require Import Bytes Res.
From Verif.Model Require Import Crypto Tl Scheme ProtoAdnl ProtoRldp ProtoOverlay AdnlNode PeersSet Compression Fec Broadcast.
From Verif.Spec Require Import CryptoSpec CompressionSpec FecSpec Sample DhtSpec DhtSample OverlaySpec BroadcastSpec BroadcastSample.
From Verif.Proof Require BroadcastSilence FecFacts CompressionFacts.
Open Scope N_scope.

(** C91: a broadcast that starts to be received stays until its decoder has ended, as long as at every
    moment one of its packets has arrived less than the timeout, minus a second, ago.  (Partial: after
    one longer silence further packets do not save it, see [c91_late_refuted].) *)
Theorem c91_steady_partial : forall c clock before e after id,
  let state evs := bc_run c (bstate_new clock) evs in
  br_owned (state before) !! id = None -> unfinished (state (before ++ [e])) id ->
  (forall now later, after = now ++ later ->
     exists t, proper_at c (bstate_new clock) (before ++ [e] ++ now) id t
     /\ br_clock (state (before ++ [e] ++ now)) + 1000 <= t + bo_timeout (bs_options c) * 1000) ->
  unfinished (state (before ++ [e] ++ after)) id
  \/ exists now later, after = now ++ later /\ ended (state (before ++ [e] ++ now)) id.
Proof. exact BroadcastSilence.steady. Qed.
Print Assumptions c91_steady_partial.

(** The first part arrives at second 80, again nine seconds later, and the cleaner runs every time. *)
Example c91_steady_example :
  let c := t_bc 10 0 in
  let s := bc_run c (bstate_new 80000) [t_get_part 0; EvTick 9000; EvTimer 0; t_get_part 0; EvTick 9000; EvTimer 0] in
  br_timers s = [Cleanup t_long_id 99000] /\ unfinished s t_long_id.
Proof. intros c s. split; [vm_compute; reflexivity|]. apply BroadcastSilence.unfinished_check. vm_compute. reflexivity. Qed.

(** C91: what the cleaner of a broadcast does when it wakes up.  It goes on sleeping while the
    broadcast is unfinished and a packet has arrived less than the timeout, minus a second, ago;
    it has the broadcast forgotten, after another timeout, when no packet has arrived for the
    timeout, and when the broadcast is finished. *)
Theorem c91_cleaner : forall c clock evs i id due, let s := bc_run c (bstate_new clock) evs in
  let s' := bc_step c s (EvTimer i) in
  let timeout := bo_timeout (bs_options c) * 1000 in
  nth_error (br_timers s) i = Some (Cleanup id due) -> due <= br_clock s ->
  (forall t, unfinished s id -> proper_at c (bstate_new clock) evs id t -> br_clock s + 1000 <= t + timeout ->
     In (Cleanup id (br_clock s + bo_timeout (bs_options c) * 100)) (br_timers s') /\ ~ In id (timed_out s')
     /\ (forall due', ~ In (Removal id due') (br_timers s')) /\ unfinished s' id)
  /\ ((forall t, arrived_at c (bstate_new clock) evs id t -> t + timeout <= br_clock s) ->
     In (Removal id (br_clock s + timeout)) (br_timers s') /\ forall due', ~ In (Cleanup id due') (br_timers s'))
  /\ (~ unfinished s id ->
     In (Removal id (br_clock s + timeout)) (br_timers s') /\ forall due', ~ In (Cleanup id due') (br_timers s')).
Proof. exact BroadcastSilence.cleanup_wakes. Qed.
Print Assumptions c91_cleaner.

Example c91_cleaner_example :
  let c := t_bc 10 0 in
  let wakes evs := br_timers (bc_run c (bstate_new 80000) (evs ++ [EvTimer 0])) in
  wakes [t_get_part 0; EvTick 999] = [Cleanup t_long_id 81000]
  /\ wakes [t_get_part 0; EvTick 8999] = [Cleanup t_long_id 89999]
  /\ wakes [t_get_part 0; EvTick 5000; t_get_part 0; EvTick 9000] = [Cleanup t_long_id 95000]
  /\ wakes [t_get_part 0; EvTick 10000] = [Removal t_long_id 100000]
  /\ wakes [t_get_part 0; t_get_part 1; EvTick 1000; EvTask 0; EvTask 0; EvTask 0] = [Removal t_long_id 91000].
Proof. vm_compute. repeat split; reflexivity. Qed.

(** C91: false without the restriction of [c91_steady_partial].  A broadcast that was silent for the
    timeout once is forgotten one timeout later although its packets are arriving again; those that
    come afterwards begin from nothing, and the data is not delivered even though all parts came. *)
Theorem c91_late_refuted : exists c clock evs id t,
  let state evs := bc_run c (bstate_new clock) evs in
  prims_ok (bs_prims c) /\ zstd_ok (bs_zstd c) /\ fec_ok (bs_fec c)
  /\ unfinished (state evs) id /\ proper_at c (bstate_new clock) evs id t
  /\ br_clock (state evs) + 1000 <= t + bo_timeout (bs_options c) * 1000
  /\ br_owned (state (evs ++ [EvCollect])) !! id = None
  /\ exists more, br_delivered (state (evs ++ EvCollect :: more)) = []
     /\ processed id (state (evs ++ EvCollect :: more))
     /\ symbol_arrived (evs ++ EvCollect :: more) id 0 /\ symbol_arrived (evs ++ EvCollect :: more) id 1.
Proof. exact BroadcastSilence.late_forgotten. Qed.
Print Assumptions c91_late_refuted.

(** C91: the decoder of a forgotten broadcast handles what it still has and ends; that of a broadcast
    still known waits for more packets. *)
Theorem c91_decoder_ends : forall c clock evs i t, let s := bc_run c (bstate_new clock) evs in
  nth_error (br_tasks s) i = Some t -> br_owned s !! tk_id t = None ->
  exists t', nth_error (br_tasks (bc_run c s (repeat (EvTask i) (length (tk_queue t) + 2)))) i = Some t'
  /\ tk_phase t' = Finished.
Proof. exact BroadcastSilence.decoder_ends. Qed.
Print Assumptions c91_decoder_ends.

Theorem c91_decoder_waits : forall c clock evs id x t, let s := bc_run c (bstate_new clock) evs in
  br_owned s !! id = Some (Incoming x) -> nth_error (br_tasks s) (ic_task x) = Some t ->
  tk_phase t = Running -> tk_queue t = [] -> bc_step c s (EvTask (ic_task x)) = s.
Proof. exact BroadcastSilence.decoder_waits. Qed.
Print Assumptions c91_decoder_waits.

(** Forgotten with one packet still to be handled; known with none. *)
Example c91_decoder_example :
  let c := t_bc 10 0 in
  let phases evs := map (fun t => (length (tk_queue t), tk_phase t)) (br_tasks (bc_run c (bstate_new 80000) evs)) in
  let forget := [t_get_part 0; EvTick 10000; EvTimer 0; EvTick 10000; EvTimer 0; EvPush 0; EvCollect; EvCollect; EvCollect] in
  phases forget = [(1%nat, Running)]
  /\ br_owned (bc_run c (bstate_new 80000) forget) !! t_long_id = None
  /\ phases (forget ++ [EvTask 0; EvTask 0; EvTask 0]) = [(0%nat, Finished)]
  /\ phases [t_get_part 0; EvTask 0; EvTask 0] = [(0%nat, Running)].
Proof. vm_compute. repeat split; reflexivity. Qed.
