(** The sample runs with several tasks. *)
From stdpp Require Import gmap.
From Coq Require Import NArith.
From Verif.Base Require Import Bytes BytesFacts.
From Verif.Model Require Import Crypto Transfer TransferConc.
From Verif.Spec Require Import CryptoSpec TransferSpec TransferConcSpec TransferConcSample.
Open Scope N_scope.

(** Deciding that all tasks of an id have ended. *)
Definition endedb (i : bytes) (t : task) : bool :=
  match t with Ended _ _ _ => true | _ => negb (bytes_eqb (task_id t) i) end.
Lemma all_endedb : forall i s, forallb (endedb i) (c_tasks s) = true -> all_ended i s.
Proof.
  intros i s H t Ht Hi. rewrite forallb_forall in H. specialize (H t Ht).
  destruct t as [| | | | | | |h j o]; cbn [endedb] in H; try (apply negb_true_iff, bytes_eqb_neq in H; contradiction).
  cbn [task_id] in Hi. subst j. exists h, o. reflexivity.
Qed.

Lemma two_ok : Forall (fun d => d <> []) two_pieces /\ two_pieces <> [].
Proof. split; [|discriminate]. constructor; [discriminate|]. constructor; [discriminate|]. constructor. Qed.

Lemma at_once_so :
  came at_once = parts_of light two_pieces /\ passed at_once < 3 * 1000 /\ all_ended two_id (received_so at_once)
  /\ results two_id (received_so at_once) = [Whole [1; 2; 3; 4; 5]; Failed ReceivedTooMuch].
Proof.
  split; [vm_compute; reflexivity|]. split; [vm_compute; reflexivity|].
  split; [apply all_endedb; vm_compute; reflexivity|]. vm_compute. reflexivity.
Qed.

Lemma no_error_refuted :
  ~ (forall P pieces timeout clock during,
     Forall (fun d => d <> []) pieces -> pieces <> [] ->
     came during = parts_of P pieces -> passed during = 0 -> 0 < timeout ->
     let id := sha256 P (message_of pieces) in
     let s := receiving_run P timeout (receiving_new clock) during in
     all_ended id s -> forall o, In o (results id s) -> o = Whole (message_of pieces) \/ o = Pending).
Proof.
  intros H. specialize (H light two_pieces 3 0 at_once (proj1 two_ok) (proj2 two_ok)). cbv zeta in H.
  assert (H1 : came at_once = parts_of light two_pieces) by (vm_compute; reflexivity).
  assert (H2 : passed at_once = 0) by (vm_compute; reflexivity).
  assert (H3 : all_ended (sha256 light (message_of two_pieces)) (receiving_run light 3 (receiving_new 0) at_once))
    by (apply all_endedb; vm_compute; reflexivity).
  assert (H4 : results (sha256 light (message_of two_pieces)) (receiving_run light 3 (receiving_new 0) at_once)
    = [Whole [1; 2; 3; 4; 5]; Failed ReceivedTooMuch]) by (vm_compute; reflexivity).
  specialize (H H1 H2 eq_refl H3 (Failed ReceivedTooMuch)). rewrite H4 in H.
  destruct (H (or_intror (or_introl eq_refl))) as [E|E]; discriminate E.
Qed.

Lemma dropped_so :
  let s := received_so (first_comes :: runs 0 5) in
  c_table s !! two_id = Some 0%nat /\ silent two_id s
  /\ c_table (receiving_run light 3 s [TimeGoes 2999; TimerRuns 0; TimerRuns 0]) !! two_id = Some 0%nat
  /\ c_table (receiving_run light 3 s [TimeGoes 3000; TimerRuns 0; TimerRuns 0]) !! two_id = None.
Proof.
  cbv zeta. split; [vm_compute; reflexivity|]. split; [|split; vm_compute; reflexivity].
  intros t Ht _. assert (E : c_tasks (received_so (first_comes :: runs 0 5)) = [Ended 0 two_id Pending]) by (vm_compute; reflexivity).
  rewrite E in Ht. destruct Ht as [<-|[]]. exact I.
Qed.

Lemma again_so :
  let s0 := received_so (in_turn ++ timer_over) in
  quiet two_id s0 /\ messages two_id s0 = [[1; 2; 3; 4; 5]]
  /\ all_ended two_id (receiving_run light 3 s0 copy_in_turn)
  /\ messages two_id (receiving_run light 3 s0 copy_in_turn) = [[1; 2; 3; 4; 5]; [1; 2; 3; 4; 5]].
Proof.
  cbv zeta. split.
  - split; [apply all_endedb; vm_compute; reflexivity|]. split; [vm_compute; reflexivity|].
    intros h x Hx _. assert (Hl : length (c_heap (received_so (in_turn ++ timer_over))) = 1%nat) by (vm_compute; reflexivity).
    apply lookup_lt_Some in Hx. rewrite Hl in Hx. destruct h as [|h]; [vm_compute; reflexivity|]. lia.
  - split; [vm_compute; reflexivity|]. split; [apply all_endedb; vm_compute; reflexivity|]. vm_compute. reflexivity.
Qed.

Lemma timer_refuted :
  ~ (forall P pieces timeout clock before during,
     Forall (fun d => d <> []) pieces -> pieces <> [] ->
     let id := sha256 P (message_of pieces) in
     let s0 := receiving_run P timeout (receiving_new clock) before in
     all_ended id s0 -> c_table s0 !! id = None ->
     came during = parts_of P pieces -> passed during < timeout * 1000 ->
     let s := receiving_run P timeout s0 during in
     all_ended id s -> (length (messages id s0) < length (messages id s))%nat).
Proof.
  intros H. specialize (H light two_pieces 3 0 (in_turn ++ [TimeGoes 2900]) copy_timed_out (proj1 two_ok) (proj2 two_ok)).
  cbv zeta in H.
  assert (H1 : all_ended (sha256 light (message_of two_pieces)) (receiving_run light 3 (receiving_new 0) (in_turn ++ [TimeGoes 2900])))
    by (apply all_endedb; vm_compute; reflexivity).
  assert (H2 : c_table (receiving_run light 3 (receiving_new 0) (in_turn ++ [TimeGoes 2900])) !! sha256 light (message_of two_pieces) = None)
    by (vm_compute; reflexivity).
  assert (H3 : came copy_timed_out = parts_of light two_pieces) by (vm_compute; reflexivity).
  assert (H4 : passed copy_timed_out < 3 * 1000) by (vm_compute; reflexivity).
  assert (H5 : all_ended (sha256 light (message_of two_pieces))
    (receiving_run light 3 (receiving_run light 3 (receiving_new 0) (in_turn ++ [TimeGoes 2900])) copy_timed_out))
    by (apply all_endedb; vm_compute; reflexivity).
  specialize (H H1 H2 H3 H4 H5).
  assert (E1 : length (messages (sha256 light (message_of two_pieces)) (receiving_run light 3 (receiving_new 0) (in_turn ++ [TimeGoes 2900]))) = 1%nat)
    by (vm_compute; reflexivity).
  assert (E2 : length (messages (sha256 light (message_of two_pieces))
    (receiving_run light 3 (receiving_run light 3 (receiving_new 0) (in_turn ++ [TimeGoes 2900])) copy_timed_out)) = 1%nat)
    by (vm_compute; reflexivity).
  rewrite E1, E2 in H. lia.
Qed.

Lemma late_removal_refuted :
  ~ (forall P pieces timeout clock before during,
     Forall (fun d => d <> []) pieces -> pieces <> [] ->
     let id := sha256 P (message_of pieces) in
     let s0 := receiving_run P timeout (receiving_new clock) before in
     messages id s0 = [message_of pieces] -> c_table s0 !! id = None ->
     came during = parts_of P pieces -> passed (before ++ during) = 0 -> 0 < timeout ->
     let s := receiving_run P timeout s0 during in
     all_ended id s -> (length (messages id s0) < length (messages id s))%nat).
Proof.
  intros H. specialize (H light two_pieces 3 0 one_late copy_removed (proj1 two_ok) (proj2 two_ok)).
  cbv zeta in H.
  assert (H1 : messages (sha256 light (message_of two_pieces)) (receiving_run light 3 (receiving_new 0) one_late) = [message_of two_pieces])
    by (vm_compute; reflexivity).
  assert (H2 : c_table (receiving_run light 3 (receiving_new 0) one_late) !! sha256 light (message_of two_pieces) = None)
    by (vm_compute; reflexivity).
  assert (H3 : came copy_removed = parts_of light two_pieces) by (vm_compute; reflexivity).
  assert (H4 : passed (one_late ++ copy_removed) = 0) by (vm_compute; reflexivity).
  assert (H5 : all_ended (sha256 light (message_of two_pieces)) (receiving_run light 3 (receiving_run light 3 (receiving_new 0) one_late) copy_removed))
    by (apply all_endedb; vm_compute; reflexivity).
  specialize (H H1 H2 H3 H4 eq_refl H5). rewrite H1 in H.
  assert (E2 : length (messages (sha256 light (message_of two_pieces)) (receiving_run light 3 (receiving_run light 3 (receiving_new 0) one_late) copy_removed)) = 1%nat)
    by (vm_compute; reflexivity).
  rewrite E2 in H. cbn [length] in H. lia.
Qed.

Lemma kept_so :
  let s := received_so second_slow in
  c_tasks s !! 1%nat = Some (AtRefresh 0 two_id 3 [4; 5]) /\ c_table s !! two_id = Some 0%nat
  /\ (forall h x, c_heap s !! h = Some x -> x_hash x = two_id -> h = 0%nat)
  /\ c_timers s !! 0%nat <> Some Expiring /\ passed a_while + 1000 <= 3 * 1000
  /\ c_table (receiving_run light 3 s (TaskRuns 1 :: a_while)) !! two_id = Some 0%nat
  /\ c_table (receiving_run light 3 s a_while) !! two_id = None.
Proof.
  cbv zeta. split; [vm_compute; reflexivity|]. split; [vm_compute; reflexivity|]. split.
  - intros h x Hx _. apply lookup_lt_Some in Hx.
    assert (E : length (c_heap (received_so second_slow)) = 1%nat) by (vm_compute; reflexivity). rewrite E in Hx. lia.
  - split; [vm_compute; discriminate|]. split; [vm_compute; discriminate|]. split; vm_compute; reflexivity.
Qed.
