(** How long RLDP queries take, and what they tell about the round-trip time. *)
From Coq Require Import List NArith Bool.
From Verif.Base Require Import Bytes.
From Verif.Model Require Import Compression Fec RldpTransfer RldpQuery RldpTiming RldpNode.
From Verif.Spec Require Import CompressionSpec FecSpec TimingSpec ReturnSpec.
From Verif.Proof Require Import TimingFacts RldpReturnFacts.
Import ListNotations.
Open Scope N_scope.

(** C98: after every history of a node, each of its queries can return by itself, without any message from
    anybody: after at most six turns of its own tasks, if the waits time out. *)
Theorem c98_returns : forall E F slice checked z o (before : list (rldp_event E)) k,
  let n := rldp_after F slice checked z o rldp_node_new before in
  (k < length (rn_queries n))%nat ->
  exists own : list (rldp_event E), forallb (of_query n k) own = true /\ (length own <= 6)%nat
    /\ exists r, result_of z (rldp_after F slice checked z o n own) k = Some r.
Proof. exact (fun E F slice checked z o => query_ends F slice checked z o). Qed.
Print Assumptions c98_returns.

(** C98: and its result is final, whatever happens later. *)
Theorem c98_final : forall E F slice checked z o (before later : list (rldp_event E)) k r,
  let n := rldp_after F slice checked z o rldp_node_new before in
  result_of z n k = Some r -> result_of z (rldp_after F slice checked z o n later) k = Some r.
Proof. exact (fun E F slice checked z o => result_final F slice checked z o). Qed.
Print Assumptions c98_final.

(** C98: a query of which the ADNL layer refuses a datagram returns an error, one that times out while it is
    sent returns no answer. *)
Theorem c98_which : forall E F slice checked z o n k q u g,
  nth_error (rn_queries n) k = Some q -> qr_stage q = QSending -> nth_error (rn_senders n) (qr_sender q) = Some u ->
  (forall p, se_point (ou_sender u) = AtCheck p ->
     result_of z (rldp_after (E:=E) F slice checked z o n [NSender (qr_sender q) LoopRefused; NQueryTurn k g]) k = Some RError)
  /\ (forall p, se_point (ou_sender u) = AtSend p ->
     result_of z (rldp_after (E:=E) F slice checked z o n [NSender (qr_sender q) LoopTimeout; NQueryTurn k g]) k = Some RNoAnswer).
Proof. exact (fun E F slice checked z o => sending_fails_nth F slice checked z o). Qed.
Print Assumptions c98_which.

Example c98_returns_example :
  let run := rldp_after toy_fec 2000000 true toy_zstd (mk_rldp_options false 1000 10000) in
  let n := run rldp_node_new [NQuery (E:=unit) [7] (repeat 1 32) (repeat 2 32) 1700000000 [1; 2; 3]] in
  let own := [NSender (E:=unit) 0 LoopStep; NSender 0 LoopStep; NSender 0 LoopStep; NSender 0 LoopStep; NSender 0 LoopTimeout; NQueryTurn 0 true] in
  forallb (of_query n 0) own = true /\ result_of toy_zstd n 0 = None
  /\ result_of toy_zstd (run n own) 0 = Some RNoAnswer
  /\ result_of toy_zstd (run (run n own) [NQueryTurn (E:=unit) 0 false; NQuery [7] (repeat 1 32) (repeat 2 32) 1700000000 [1; 2; 3]]) 0
     = Some RNoAnswer
  /\ result_of toy_zstd (run n [NSender (E:=unit) 0 LoopStep; NSender 0 LoopStep; NSender 0 LoopStep; NSender 0 LoopRefused; NQueryTurn 0 true]) 0
     = Some RError.
Proof. vm_compute. repeat split. Qed.

(** C98: a query is given up while it is being sent only if nothing new was confirmed for at least the
    minimum timeout (and one percent of it for each symbol confirmed).  The estimate it then returns is the
    double of that from the times measured so far, up to the maximum timeout. *)
Theorem c98_patient_sending : forall o r now evs est, qo_min o <= qo_max o ->
  send_waits o (send_wait_new o r now) evs = NotSent est ->
  exists before t s after, evs = before ++ WaveOver t s :: after
    /\ (let (since, best) := quiet_since now 0 before in s <= best /\ longest (qo_min o) best < t - since)
    /\ est = N.min (2 * averaged (match r with Some r => r | None => 0 end) (send_measures now 0 before)) (qo_max o).
Proof. exact send_gives_up. Qed.
Print Assumptions c98_patient_sending.

(** C98: while it goes on, there was news at every look, or the last news is not older than the maximum
    timeout (and one percent of it for each symbol). *)
Theorem c98_prompt_sending : forall o r now before t s after st, qo_min o <= qo_max o ->
  send_waits o (send_wait_new o r now) (before ++ WaveOver t s :: after) = StillSending st ->
  let (since, best) := quiet_since now 0 before in best < s \/ t - since <= longest (qo_max o) best.
Proof. exact send_prompt. Qed.
Print Assumptions c98_prompt_sending.

Example c98_sending_example :
  let o := mk_query_options 500 10000 in
  send_waits o (send_wait_new o None 0) [WaveOver 10 0; WaveOver 40 3; WaveOver 50 3; PartOver 100; WaveOver 110 0; WaveOver 700 0]
    = NotSent (50 * 2)
  /\ quiet_since 0 0 [WaveOver 10 0; WaveOver 40 3; WaveOver 50 3; PartOver 100; WaveOver 110 0] = (100, 0)
  /\ send_waits o (send_wait_new o None 0) [WaveOver 9000 0; WaveOver 9500 1; WaveOver 9600 1; LastOver 9700] = Sent 4850.
Proof. vm_compute. repeat split. Qed.

(** C98: the same while it waits for the answer, where every message is news; the estimate is
    kept as it is. *)
Theorem c98_patient_waiting : forall o r now u evs est, qo_min o <= qo_max o ->
  answer_waits o (answer_wait_new o r now u) evs = NotAnswered est ->
  exists before ev after, evs = before ++ ev :: after
    /\ (let (since, count) := silent_since now u before in
        as_updates ev <= count /\ longest (qo_min o) count < as_now ev - since)
    /\ est = averaged r (answer_measures now u before).
Proof. exact answer_gives_up. Qed.
Print Assumptions c98_patient_waiting.

Theorem c98_prompt_waiting : forall o r now u before ev after st, qo_min o <= qo_max o ->
  answer_waits o (answer_wait_new o r now u) (before ++ ev :: after) = StillWaiting st ->
  let (since, count) := silent_since now u before in
  count < as_updates ev \/ as_now ev - since <= longest (qo_max o) count.
Proof. exact answer_prompt. Qed.
Print Assumptions c98_prompt_waiting.

(** C98: and a whole answer is returned, if no look before it or at it came too late. *)
Theorem c98_noticed : forall o r now u before ev after, qo_min o <= qo_max o ->
  Forall (fun e => as_whole e = false) before -> as_whole ev = true ->
  (forall b e a, before ++ ev :: after = b ++ e :: a -> (length b <= length before)%nat ->
     let (since, count) := silent_since now u b in
     count < as_updates e \/ as_now e - since <= longest (qo_min o) count) ->
  exists est, answer_waits o (answer_wait_new o r now u) (before ++ ev :: after) = Answered est.
Proof. exact answer_noticed. Qed.
Print Assumptions c98_noticed.

Example c98_waiting_example :
  let o := mk_query_options 500 10000 in
  let st := answer_wait_new o 120 1000 4 in
  answer_waits o st [mk_answer_sight 1010 4 false; mk_answer_sight 1200 5 false; mk_answer_sight 1210 6 true] = Answered 42
  /\ answer_waits o st [mk_answer_sight 1010 4 false; mk_answer_sight 1521 4 true] = NotAnswered 120
  /\ longest 500 4 = 520 /\ silent_since 1000 4 [mk_answer_sight 1010 4 false] = (1000, 4).
Proof. vm_compute. repeat split. Qed.

(** C98 is false as stated: there is no limit to the whole query.  A peer that confirms one symbol more
    every 10 milliseconds, or sends another message, keeps it going for any time. *)
Theorem c98_endless_refuted : forall o r n,
  (exists st, send_waits o (send_wait_new o r 0) (trickle n) = StillSending st)
  /\ (forall r', exists st, answer_waits o (answer_wait_new o r' 0 0) (chatter n) = StillWaiting st).
Proof. exact endless. Qed.
Print Assumptions c98_endless_refuted.

(** C98: the estimate is the one given, averaged with the times between news. *)
Theorem c98_sending_measured : forall o r now evs,
  let est := averaged (match r with Some r => r | None => 0 end) (send_measures now 0 evs) in
  match send_waits o (send_wait_new o r now) evs with
  | StillSending st => sw_roundtrip st = est
  | Sent e => e = est
  | NotSent _ => True
  end.
Proof. exact send_measured. Qed.
Print Assumptions c98_sending_measured.

Theorem c98_waiting_measured : forall o r now u evs,
  let est := averaged r (answer_measures now u evs) in
  match answer_waits o (answer_wait_new o r now u) evs with
  | StillWaiting st => aw_roundtrip st = est
  | Answered e => e = est
  | NotAnswered _ => True
  end.
Proof. exact answer_measured. Qed.
Print Assumptions c98_waiting_measured.

(** C98: it is at most the largest of the one given and the duration of the query, and twice
    that, up to the maximum timeout, if it could not be sent. *)
Theorem c98_sending_estimate : forall o r now d evs, Forall (fun ev => now <= sight_time ev <= now + d) evs ->
  let b := N.max (match r with Some r => r | None => 0 end) d in
  match send_waits o (send_wait_new o r now) evs with
  | StillSending st => sw_roundtrip st <= b
  | Sent est => est <= b
  | NotSent est => est <= 2 * b /\ est <= qo_max o
  end.
Proof. exact send_bound. Qed.
Print Assumptions c98_sending_estimate.

Theorem c98_waiting_estimate : forall o r now u d evs, Forall (fun ev => now <= as_now ev <= now + d) evs ->
  match answer_waits o (answer_wait_new o r now u) evs with
  | StillWaiting st => aw_roundtrip st <= N.max r d
  | Answered est | NotAnswered est => est <= N.max r d
  end.
Proof. exact answer_bound. Qed.
Print Assumptions c98_waiting_estimate.

(** C98: every query in a row that the peer does not react to doubles the estimate, up to the maximum
    timeout... *)
Theorem c98_backoff_partial : forall o n r, r <= qo_max o ->
  after_failures o (Some r) n = Some (N.min (r * 2 ^ N.of_nat n) (qo_max o)).
Proof. exact backoff. Qed.
Print Assumptions c98_backoff_partial.

(** ...but not if there was no estimate before: then it becomes zero and stays so, and the queries wait for
    the minimum timeout only, where the first one waited for the maximum. *)
Theorem c98_backoff_refuted : forall o n, qo_min o <= qo_max o ->
  sw_timeout (send_wait_new o None 0) = qo_max o
  /\ after_failures o None (S n) = Some 0
  /\ sw_timeout (send_wait_new o (after_failures o None (S n)) 0) = qo_min o.
Proof. exact no_backoff. Qed.
Print Assumptions c98_backoff_refuted.

(** C98: and the estimate of an answer is too low: if it arrives within one look, a time of zero is counted
    after the time measured, and the estimate is at most half of the longer of the two. *)
Theorem c98_halved_refuted : forall o r now u e u', u < u' ->
  exists est, answer_waits o (answer_wait_new o r now u) [mk_answer_sight (now + e) u' true] = Answered est
    /\ 2 * est <= N.max r e.
Proof. exact halved. Qed.
Print Assumptions c98_halved_refuted.

Example c98_estimate_example :
  let o := mk_query_options 500 10000 in
  after_failures o (Some 300) 3 = Some 2400 /\ after_failures o (Some 300) 9 = Some 10000
  /\ answer_waits o (answer_wait_new o 200 0 0) [mk_answer_sight 200 1 true] = Answered 100
  /\ answer_measures 0 0 [mk_answer_sight 200 1 true] = [200; 0]
  /\ send_measures 0 0 [WaveOver 9000 0; WaveOver 9500 1; WaveOver 9600 1; LastOver 9700] = [9500; 200]
  /\ averaged 0 [9500; 200] = 4850.
Proof. vm_compute. repeat split. Qed.
