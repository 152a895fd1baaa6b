(** Properties C73 and C74: multipart messages received by several tasks at once. *)
From stdpp Require Import gmap.
From Coq Require Import NArith.
From Verif.Base Require Import Bytes.
From Verif.Model Require Import Crypto Transfer TransferConc.
From Verif.Spec Require Import CryptoSpec TransferSpec TransferConcSpec TransferConcSample.
From Verif.Proof Require Import TransferConcFacts TransferHonestFacts TransferTimerFacts TransferAgainFacts TransferKeptFacts TransferConcSampleFacts.
Open Scope N_scope.

(** C73: however tasks, timers and the clock interleave and whatever parts come, a message reported
    for an id has that id as its hash. *)
Theorem c73_authentic : forall P timeout clock l i m,
  In m (messages i (receiving_run P timeout (receiving_new clock) l)) -> sha256 P m = i.
Proof. exact messages_authentic. Qed.
Print Assumptions c73_authentic.
Example c73_authentic_example : messages two_id (received_so at_once) = [[1; 2; 3; 4; 5]].
Proof. vm_compute. reflexivity. Qed.

(** C73: one transfer reports its message in one task only. *)
Theorem c73_once : forall P timeout clock l h x i1 i2 m1 m2 k1 k2,
  let s := receiving_run P timeout (receiving_new clock) l in
  c_heap s !! h = Some x -> 0 < x_total x ->
  c_tasks s !! k1 = Some (Ended h i1 (Whole m1)) -> c_tasks s !! k2 = Some (Ended h i2 (Whole m2)) -> k1 = k2.
Proof. exact message_once. Qed.
Print Assumptions c73_once.
Example c73_once_example :
  (exists x, c_heap (received_so at_once) !! 0%nat = Some x /\ x_total x = 5)
  /\ c_tasks (received_so at_once) !! 0%nat = Some (Ended 0 two_id (Whole [1; 2; 3; 4; 5])).
Proof. split; [eexists; split|]; vm_compute; reflexivity. Qed.

(** C73: if every piece of a message comes within the timeout, and nothing else under its id, then
    the message is reported, however the tasks interleave; not more often than any of its pieces
    came; and no task reports that it is broken. *)
Theorem c73_arrives : forall P pieces,
  Forall (fun d => d <> []) pieces -> pieces <> [] ->
  let id := sha256 P (message_of pieces) in
  forall timeout clock before during,
  (forall p, In p (came before) -> pt_hash p <> id) ->
  (forall p, In p (came during) -> pt_hash p = id -> In p (parts_of P pieces)) ->
  (forall p, In p (parts_of P pieces) -> In p (came during)) ->
  passed during < timeout * 1000 ->
  let s := receiving_run P timeout (receiving_new clock) (before ++ during) in
  all_ended id s ->
  messages id s <> []
  /\ (forall p, In p (parts_of P pieces) -> (length (messages id s) <= times_came p during)%nat)
  /\ (forall o, In o (results id s) -> o = Whole (message_of pieces) \/ o = Failed ReceivedTooMuch \/ o = Pending).
Proof. exact reassembled_concurrently. Qed.
Print Assumptions c73_arrives.
Example c73_arrives_example :
  came at_once = parts_of light two_pieces /\ passed at_once < 3 * 1000 /\ all_ended two_id (received_so at_once)
  /\ results two_id (received_so at_once) = [Whole [1; 2; 3; 4; 5]; Failed ReceivedTooMuch].
Proof. exact at_once_so. Qed.

(** C73: but a task may report that too much was received although every piece came once. *)
Theorem c73_no_error_refuted :
  ~ (forall P pieces timeout clock during,
     Forall (fun d => d <> []) pieces -> pieces <> [] ->
     came during = parts_of P pieces -> passed during = 0 -> 0 < timeout ->
     let id := sha256 P (message_of pieces) in
     let s := receiving_run P timeout (receiving_new clock) during in
     all_ended id s -> forall o, In o (results id s) -> o = Whole (message_of pieces) \/ o = Pending).
Proof. exact no_error_refuted. Qed.
Print Assumptions c73_no_error_refuted.

(** C73: a transfer for which nothing comes any more is forgotten when its timer has run after one
    and after two timeouts of silence. *)
Theorem c73_dropped : forall P timeout clock l i h e1 e2 e3,
  let s := receiving_run P timeout (receiving_new clock) l in
  c_table s !! i = Some h -> silent i s ->
  no_part i (e1 ++ e2 ++ e3) -> timeout * 1000 <= passed e1 -> timeout * 1000 <= passed e2 ->
  c_table (receiving_run P timeout s
    (e1 ++ [TimerRuns h] ++ e2 ++ [TimerRuns h] ++ e3 ++ [TimerRuns h])) !! i = None.
Proof. exact silent_dropped. Qed.
Print Assumptions c73_dropped.
Example c73_dropped_example :
  let s := received_so (first_comes :: runs 0 5) in
  c_table s !! two_id = Some 0%nat /\ silent two_id s
  /\ c_table (receiving_run light 3 s [TimeGoes 2999; TimerRuns 0; TimerRuns 0]) !! two_id = Some 0%nat
  /\ c_table (receiving_run light 3 s [TimeGoes 3000; TimerRuns 0; TimerRuns 0]) !! two_id = None.
Proof. exact dropped_so. Qed.

(** C73: a transfer to which a part was added is not forgotten for the timeout less one second, whatever
    the timer does: it stays until a task has a result, if it is the only one of its id and was not being
    removed already. *)
Theorem c73_kept : forall P timeout clock l i h k offset data later,
  let s := receiving_run P timeout (receiving_new clock) l in
  c_tasks s !! k = Some (AtRefresh h i offset data) -> c_table s !! i = Some h ->
  (forall h' x, c_heap s !! h' = Some x -> x_hash x = i -> h' = h) ->
  c_timers s !! h <> Some Expiring ->
  passed later + 1000 <= timeout * 1000 ->
  let s' := receiving_run P timeout s (TaskRuns k :: later) in
  c_table s' !! i = Some h \/ exists o, In o (results i s') /\ o <> Pending.
Proof. exact kept. Qed.
Print Assumptions c73_kept.
Example c73_kept_example :
  let s := received_so second_slow in
  c_tasks s !! 1%nat = Some (AtRefresh 0 two_id 3 [4; 5]) /\ c_table s !! two_id = Some 0%nat
  /\ (forall h x, c_heap s !! h = Some x -> x_hash x = two_id -> h = 0%nat)
  /\ c_timers s !! 0%nat <> Some Expiring /\ passed a_while + 1000 <= 3 * 1000
  /\ c_table (receiving_run light 3 s (TaskRuns 1 :: a_while)) !! two_id = Some 0%nat
  /\ c_table (receiving_run light 3 s a_while) !! two_id = None.
Proof. exact kept_so. Qed.

(** C74: a message sent again is reported again, once nothing of the earlier transfers is left: the
    tasks have ended, the timers have run out. *)
Theorem c74_again_partial : forall P pieces, Forall (fun d => d <> []) pieces -> pieces <> [] ->
  let id := sha256 P (message_of pieces) in
  forall timeout clock before during,
  let s0 := receiving_run P timeout (receiving_new clock) before in
  quiet id s0 ->
  (forall p, In p (came during) -> pt_hash p = id -> In p (parts_of P pieces)) ->
  (forall p, In p (parts_of P pieces) -> In p (came during)) ->
  passed during < timeout * 1000 ->
  let s := receiving_run P timeout s0 during in
  all_ended id s ->
  exists more, messages id s = messages id s0 ++ more /\ more <> []
  /\ (forall m, In m more -> m = message_of pieces)
  /\ (forall p, In p (parts_of P pieces) -> (length more <= times_came p during)%nat).
Proof. exact sent_again. Qed.
Print Assumptions c74_again_partial.
Example c74_again_example :
  let s0 := received_so (in_turn ++ timer_over) in
  quiet two_id s0 /\ messages two_id s0 = [[1; 2; 3; 4; 5]]
  /\ all_ended two_id (receiving_run light 3 s0 copy_in_turn)
  /\ messages two_id (receiving_run light 3 s0 copy_in_turn) = [[1; 2; 3; 4; 5]; [1; 2; 3; 4; 5]].
Proof. exact again_so. Qed.

(** C74: it may be lost when the timer of an earlier transfer of the same message is still running:
    the timer removes the new transfer, although that one was started a moment ago. *)
Theorem c74_timer_refuted :
  ~ (forall P pieces timeout clock before during,
     Forall (fun d => d <> []) pieces -> pieces <> [] ->
     let id := sha256 P (message_of pieces) in
     let s0 := receiving_run P timeout (receiving_new clock) before in
     all_ended id s0 -> c_table s0 !! id = None ->
     came during = parts_of P pieces -> passed during < timeout * 1000 ->
     let s := receiving_run P timeout s0 during in
     all_ended id s -> (length (messages id s0) < length (messages id s))%nat).
Proof. exact timer_refuted. Qed.
Print Assumptions c74_timer_refuted.

(** C74: and without any timer, when a task of the earlier transfer comes late with removing it. *)
Theorem c74_late_removal_refuted :
  ~ (forall P pieces timeout clock before during,
     Forall (fun d => d <> []) pieces -> pieces <> [] ->
     let id := sha256 P (message_of pieces) in
     let s0 := receiving_run P timeout (receiving_new clock) before in
     messages id s0 = [message_of pieces] -> c_table s0 !! id = None ->
     came during = parts_of P pieces -> passed (before ++ during) = 0 -> 0 < timeout ->
     let s := receiving_run P timeout s0 during in
     all_ended id s -> (length (messages id s0) < length (messages id s))%nat).
Proof. exact late_removal_refuted. Qed.
Print Assumptions c74_late_removal_refuted.
