(** C01, C02: replay protection. *)
From Coq Require Import List NArith Bool.
From Verif.Model Require Import History HistoryConc.
From Verif.Spec Require Import HistorySpec.
From Verif.Proof Require Import HistoryFacts HistoryConcFacts.
Import ListNotations.
Open Scope N_scope.

(** C01, full statement (false of the code):
      forall checks l, Forall (fun s => s < 2^64) l -> NoDup (accepted checks history_new l).
    Every number from 256 on is accepted again and again. *)
Theorem c01_replay_refuted : exists l, Forall (fun s => s < 2 ^ 64) l
  /\ ~ NoDup (accepted true history_new l).
Proof. exact replay_accepted. Qed.
Print Assumptions c01_replay_refuted.

(** Even a number below 256 is accepted again once a larger one has been seen. *)
Theorem c01_small_replay_refuted : exists a s b,
  Forall (fun s => s < 2 ^ 64) (a ++ s :: b ++ [s]) /\ s < 256
  /\ accepted true history_new (a ++ s :: b ++ [s]) = a ++ s :: b ++ [s].
Proof. exact small_replay_accepted. Qed.
Print Assumptions c01_small_replay_refuted.

(** What holds: while all numbers are below 256, each is accepted exactly once. *)
Theorem c01_no_replay_partial : forall checks l, Forall (fun s => s < 256) l ->
  NoDup (accepted checks history_new l) /\ (forall s, In s (accepted checks history_new l) <-> In s l).
Proof. exact no_replay_small. Qed.
Print Assumptions c01_no_replay_partial.
Example c01_no_replay_example :
  Forall (fun s => s < 256) [7; 3; 7; 255; 3; 0; 255]
  /\ accepted true history_new [7; 3; 7; 255; 3; 0; 255] = [7; 3; 255; 0].
Proof. split; [repeat constructor; reflexivity | vm_compute; reflexivity]. Qed.

(** After any history, a number below 256 that was delivered is rejected until a reset or a
    number from 256 on intervenes. *)
Theorem c01_remembered_partial : forall checks before s between,
  Forall (legal_event checks) before -> s < 256 -> Forall small_event between ->
  fst (deliver checks (run_events checks history_new (before ++ Deliver s :: between)) s) = Rejected.
Proof. exact remembered_until_wiped. Qed.
Print Assumptions c01_remembered_partial.
Example c01_remembered_example :
  Forall (legal_event true) [Deliver 1000; Reset; Deliver 2] /\ Forall small_event [Deliver 4; Deliver 255].
Proof. repeat constructor; cbn; intros; reflexivity. Qed.

(** The complete behaviour of the history, for every sequence of packets and resets. *)
Theorem c01_exact_behaviour : forall checks l s,
  Forall (legal_event checks) l -> legal checks s ->
  fst (deliver checks (run_events checks history_new l) s)
  = if fst (spec_deliver (spec_run [] l) s) then Accepted else Rejected.
Proof. exact history_exact. Qed.
Print Assumptions c01_exact_behaviour.
Example c01_exact_example :
  Forall (legal_event true) [Deliver 5; Deliver 70; Deliver 300; Deliver 5; Reset; Deliver 9]
  /\ legal true 9.
Proof. repeat constructor; cbn; intros; reflexivity. Qed.

(** The sequence number reported to the peer is the largest one received since the last reset. *)
Theorem c01_seqno_is_max : forall checks l, Forall (legal_event checks) l ->
  h_seqno (run_events checks history_new l) = spec_max 0 l.
Proof. exact seqno_is_max. Qed.
Print Assumptions c01_seqno_is_max.

(** A build with overflow checks panics on sequence numbers from 2^64 - 256 on. *)
Theorem c01_overflow_panics : forall h, h_index h = 0 -> fst (deliver true h (2 ^ 64 - 1)) = Panicked.
Proof. exact panics_at_top. Qed.
Print Assumptions c01_overflow_panics.

(** Packets that are sent are numbered in order from the next number on; after the last 64-bit number a build with
    overflow checks panics and another one begins again with 0. *)
Theorem c01_sending : forall checks m last, last + N.of_nat m < 2 ^ 64 ->
  next_numbers checks last m = (map (fun k => Some (last + 1 + N.of_nat k)) (seq 0 m), last + N.of_nat m).
Proof. exact numbers_in_order. Qed.
Print Assumptions c01_sending.
Example c01_sending_example : 4 + N.of_nat 3 < 2 ^ 64 /\ next_numbers true 4 3 = ([Some 5; Some 6; Some 7], 7).
Proof. split; reflexivity. Qed.
Theorem c01_sending_ends : forall checks, bump_seqno checks (2 ^ 64 - 1) = (if checks then None else Some 0, 0).
Proof. exact last_number. Qed.
Print Assumptions c01_sending_ends.

(** A history made for sending refuses nothing and keeps the largest number. *)
Theorem c01_unmasked : forall last s, deliver_unmasked last s = (true, N.max last s).
Proof. exact unmasked_max. Qed.
Print Assumptions c01_unmasked.

(** C02, full statement (false of the code): no schedule lets two tasks accept one number.
    The index is not changed by a delivery, so a task that read the bit before another task
    set it still succeeds in taking the lock. *)
Theorem c02_race_refuted : exists sched,
  snd (sys_run true (sys_init [5; 5]) sched) = [PDone 5 Accepted; PDone 5 Accepted].
Proof. exact (ex_intro _ race_schedule race_double_accept). Qed.
Print Assumptions c02_race_refuted.

(** What holds under every schedule, any number of tasks and numbers below 256: a packet whose
    processing starts after its number was accepted is never accepted. *)
Theorem c02_later_duplicate_rejected_partial : forall checks seqnos before after i j s p,
  Forall (fun s => s < 256) seqnos ->
  nth_error (snd (sys_run checks (sys_init seqnos) before)) i = Some (PDone s Accepted) ->
  nth_error (snd (sys_run checks (sys_init seqnos) before)) j = Some (PStart s) ->
  nth_error (snd (sys_run checks (sys_init seqnos) (before ++ after))) j = Some p ->
  p <> PDone s Accepted.
Proof. exact later_duplicate_rejected. Qed.
Print Assumptions c02_later_duplicate_rejected_partial.
Example c02_later_example :
  let before := repeat 0%nat 9 in
  nth_error (snd (sys_run true (sys_init [5; 5; 6]) before)) 0 = Some (PDone 5 Accepted)
  /\ nth_error (snd (sys_run true (sys_init [5; 5; 6]) before)) 1 = Some (PStart 5)
  /\ nth_error (snd (sys_run true (sys_init [5; 5; 6]) (before ++ [1; 2; 2; 1; 1]%nat))) 1
     = Some (PDone 5 Rejected).
Proof. vm_compute. repeat split. Qed.

(** No number is lost: when all tasks are done, each number was accepted by at least one. *)
Theorem c02_none_lost_partial : forall checks seqnos sched s,
  Forall (fun s => s < 256) seqnos -> In s seqnos ->
  (forall p, In p (snd (sys_run checks (sys_init seqnos) sched)) -> exists k o, p = PDone k o) ->
  In (PDone s Accepted) (snd (sys_run checks (sys_init seqnos) sched)).
Proof. exact none_lost. Qed.
Print Assumptions c02_none_lost_partial.
Example c02_none_lost_example :
  let x := sys_run true (sys_init [5; 5; 6]) (repeat 0 10 ++ repeat 1 5 ++ repeat 2 10)%nat in
  snd x = [PDone 5 Accepted; PDone 5 Rejected; PDone 6 Accepted].
Proof. vm_compute. reflexivity. Qed.

(** Whatever the numbers and resets, the bit words are modified by one task at a time. *)
Theorem c02_mutual_exclusion : forall checks ts sched i j p q,
  Forall initial_task ts ->
  nth_error (snd (sys_run checks (history_new, ts) sched)) i = Some p ->
  nth_error (snd (sys_run checks (history_new, ts) sched)) j = Some q ->
  critical p = true -> critical q = true -> i = j.
Proof. exact mutual_exclusion. Qed.
Print Assumptions c02_mutual_exclusion.
Example c02_mutual_exclusion_example :
  let ts := [PStart 300; RStart; PStart 7] in
  Forall initial_task ts
  /\ map critical (snd (sys_run true (history_new, ts) [0; 1; 2; 0; 1; 2; 0; 1]%nat)) = [true; false; false].
Proof. split; [repeat constructor | vm_compute; reflexivity]. Qed.

(** A task running without interference computes what the sequential model computes. *)
Theorem c02_alone_is_sequential : forall checks h s,
  length (h_bits h) = 8%nat -> normalize (h_index h) + 256 < 2 ^ 64 ->
  exists n, alone checks n (h, PStart s)
    = (snd (deliver checks h s), PDone s (fst (deliver checks h s))).
Proof. exact alone_deliver. Qed.
Print Assumptions c02_alone_is_sequential.
Theorem c02_alone_reset : forall checks h,
  length (h_bits h) = 8%nat -> h_index h <> IN_TRANSIT ->
  exists n, alone checks n (h, RStart) = (history_reset h, RDone).
Proof. exact alone_reset. Qed.
Print Assumptions c02_alone_reset.
Example c02_alone_example :
  length (h_bits history_new) = 8%nat /\ normalize (h_index history_new) + 256 < 2 ^ 64
  /\ h_index history_new <> IN_TRANSIT.
Proof. repeat split; try reflexivity. discriminate. Qed.
