(** How long an RLDP query waits. *)
From Coq Require Import List NArith Arith Lia Bool.
From Coq Require Import ZifyBool ZifyNat ZifyN.
From Verif.Base Require Import Bytes.
From Verif.Model Require Import RldpQuery RldpTiming.
From Verif.Spec Require Import TimingSpec.
From Verif.Proof Require Import RldpQueryFacts.
Import ListNotations.
Open Scope N_scope.

Lemma timeout_bounds : forall o r, qo_min o <= qo_max o -> qo_min o <= compute_timeout o r <= qo_max o.
Proof. intros o [r|] H; cbn [compute_timeout]; [destruct (N.ltb_spec (qo_max o) r)|]; lia. Qed.

Lemma longest_mono : forall a b c, a <= b -> longest a c <= longest b c.
Proof.
  intros a b c H. unfold longest. assert (a * c / 100 <= b * c / 100) by (apply N.div_le_mono; [lia|nia]). lia.
Qed.

Definition fair (o : query_options) (t : N) : Prop := qo_min o <= t <= qo_max o.

(** ** Sending *)

Lemma send_gives_up_at : forall o evs st est, qo_min o <= qo_max o -> fair o (sw_timeout st) ->
  send_waits o st evs = NotSent est ->
  exists before t s after, evs = before ++ WaveOver t s :: after
    /\ (let (since, best) := quiet_since (sw_start st) (sw_seqno st) before in
        s <= best /\ longest (qo_min o) best < t - since)
    /\ est = N.min (2 * averaged (sw_roundtrip st) (send_measures (sw_start st) (sw_seqno st) before)) (qo_max o).
Proof.
  intros o evs. induction evs as [|ev evs IH]; intros st est Ho Hf H; [discriminate H|].
  cbn [send_waits] in H. destruct ev as [now s|now|now]; cbn [send_look] in H.
  - destruct (N.ltb_spec (sw_seqno st) s) as [Hs|Hs].
    + cbn [update_roundtrip] in H. apply IH in H; [|exact Ho|now apply timeout_bounds].
      destruct H as (b & t & s' & a & -> & H). exists (WaveOver now s :: b), t, s', a. split; [reflexivity|].
      cbn [quiet_since send_measures]. cbn [sw_start sw_seqno sw_roundtrip] in H. destruct (N.ltb_spec (sw_seqno st) s); [exact H|lia].
    + destruct (is_timed_out (now - sw_start st) (sw_timeout st) (sw_seqno st)) eqn:E.
      * exists [], now, s, evs. split; [reflexivity|]. cbn [quiet_since send_measures averaged fold_left].
        split; [|apply (f_equal (fun x => match x with NotSent e => e | _ => est end)) in H; cbv iota beta in H; rewrite <- H; unfold big_roundtrip, averaged; cbn [fold_left]; lia].
        split; [exact Hs|].
        unfold is_timed_out in E. apply N.ltb_lt in E.
        pose proof (longest_mono (qo_min o) (sw_timeout st) (sw_seqno st) (proj1 Hf)) as L. unfold longest in *. lia.
      * apply IH in H; [|exact Ho|exact Hf]. destruct H as (b & t & s' & a & -> & H).
        exists (WaveOver now s :: b), t, s', a. split; [reflexivity|]. cbn [quiet_since send_measures].
        destruct (N.ltb_spec (sw_seqno st) s); [lia|exact H].
  - cbn [update_roundtrip] in H. apply IH in H; [|exact Ho|now apply timeout_bounds].
    destruct H as (b & t & s' & a & -> & H). exists (PartOver now :: b), t, s', a. split; [reflexivity|exact H].
  - discriminate H.
Qed.

Lemma send_gives_up : forall o r now evs est, qo_min o <= qo_max o ->
  send_waits o (send_wait_new o r now) evs = NotSent est ->
  exists before t s after, evs = before ++ WaveOver t s :: after
    /\ (let (since, best) := quiet_since now 0 before in s <= best /\ longest (qo_min o) best < t - since)
    /\ est = N.min (2 * averaged (match r with Some r => r | None => 0 end) (send_measures now 0 before)) (qo_max o).
Proof. intros o r now evs est Ho H. exact (send_gives_up_at o evs (send_wait_new o r now) est Ho (timeout_bounds o r Ho) H). Qed.

Lemma send_prompt_at : forall o before st t s after st', qo_min o <= qo_max o -> fair o (sw_timeout st) ->
  send_waits o st (before ++ WaveOver t s :: after) = StillSending st' ->
  let (since, best) := quiet_since (sw_start st) (sw_seqno st) before in
  best < s \/ t - since <= longest (qo_max o) best.
Proof.
  intros o before. induction before as [|ev before IH]; intros st t s after st' Ho Hf H.
  - cbn [app send_waits send_look quiet_since] in *. destruct (N.ltb_spec (sw_seqno st) s) as [Hs|Hs]; [now left|].
    destruct (is_timed_out (t - sw_start st) (sw_timeout st) (sw_seqno st)) eqn:E; [discriminate H|].
    right. unfold is_timed_out in E. apply N.ltb_ge in E.
    pose proof (longest_mono (sw_timeout st) (qo_max o) (sw_seqno st) (proj2 Hf)) as L. unfold longest in *. lia.
  - cbn [app send_waits] in H. destruct ev as [now s'|now|now]; cbn [send_look quiet_since] in *.
    + destruct (N.ltb_spec (sw_seqno st) s') as [Hs|Hs].
      * cbn [update_roundtrip] in H. apply IH in H; [exact H|exact Ho|now apply timeout_bounds].
      * destruct (is_timed_out (now - sw_start st) (sw_timeout st) (sw_seqno st)) eqn:E; [discriminate H|].
        apply IH in H; [exact H|exact Ho|exact Hf].
    + cbn [update_roundtrip] in H. apply IH in H; [exact H|exact Ho|now apply timeout_bounds].
    + discriminate H.
Qed.

Lemma send_prompt : forall o r now before t s after st', qo_min o <= qo_max o ->
  send_waits o (send_wait_new o r now) (before ++ WaveOver t s :: after) = StillSending st' ->
  let (since, best) := quiet_since now 0 before in best < s \/ t - since <= longest (qo_max o) best.
Proof.
  intros o r now before t s after st' Ho H.
  exact (send_prompt_at o before (send_wait_new o r now) t s after st' Ho (timeout_bounds o r Ho) H).
Qed.

(** ** Waiting for the answer *)

Lemma answer_gives_up_at : forall o evs st est, qo_min o <= qo_max o -> fair o (aw_timeout st) ->
  answer_waits o st evs = NotAnswered est ->
  exists before ev after, evs = before ++ ev :: after
    /\ (let (since, count) := silent_since (aw_start st) (aw_updates st) before in
        as_updates ev <= count /\ longest (qo_min o) count < as_now ev - since)
    /\ est = averaged (aw_roundtrip st) (answer_measures (aw_start st) (aw_updates st) before).
Proof.
  intros o evs. induction evs as [|ev evs IH]; intros st est Ho Hf H; [discriminate H|].
  cbn [answer_waits] in H. unfold answer_look in H.
  destruct (N.ltb_spec (aw_updates st) (as_updates ev)) as [Hs|Hs].
  - cbn [update_roundtrip] in H. destruct (as_whole ev) eqn:Ew; [discriminate H|].
    apply IH in H; [|exact Ho|now apply timeout_bounds].
    destruct H as (b & e & a & -> & H). exists (ev :: b), e, a. split; [reflexivity|].
    cbn [silent_since answer_measures]. rewrite Ew. cbn [aw_start aw_updates aw_roundtrip] in H.
    destruct (N.ltb_spec (aw_updates st) (as_updates ev)); [exact H|lia].
  - destruct (is_timed_out (as_now ev - aw_start st) (aw_timeout st) (aw_updates st)) eqn:E.
    + exists [], ev, evs. split; [reflexivity|]. cbn [silent_since answer_measures averaged fold_left].
      split; [|apply (f_equal (fun x => match x with NotAnswered e => e | _ => est end)) in H; cbv iota beta in H; now rewrite <- H].
      split; [exact Hs|].
      unfold is_timed_out in E. apply N.ltb_lt in E.
      pose proof (longest_mono (qo_min o) (aw_timeout st) (aw_updates st) (proj1 Hf)) as L. unfold longest in *. lia.
    + destruct (as_whole ev) eqn:Ew; [discriminate H|].
      apply IH in H; [|exact Ho|exact Hf]. destruct H as (b & e & a & -> & H).
      exists (ev :: b), e, a. split; [reflexivity|]. cbn [silent_since answer_measures]. rewrite Ew.
      destruct (N.ltb_spec (aw_updates st) (as_updates ev)); [lia|exact H].
Qed.

Lemma answer_gives_up : forall o r now u evs est, qo_min o <= qo_max o ->
  answer_waits o (answer_wait_new o r now u) evs = NotAnswered est ->
  exists before ev after, evs = before ++ ev :: after
    /\ (let (since, count) := silent_since now u before in
        as_updates ev <= count /\ longest (qo_min o) count < as_now ev - since)
    /\ est = averaged r (answer_measures now u before).
Proof. intros o r now u evs est Ho H. exact (answer_gives_up_at o evs (answer_wait_new o r now u) est Ho (timeout_bounds o (Some r) Ho) H). Qed.

Lemma answer_prompt_at : forall o before st ev after st', qo_min o <= qo_max o -> fair o (aw_timeout st) ->
  answer_waits o st (before ++ ev :: after) = StillWaiting st' ->
  let (since, count) := silent_since (aw_start st) (aw_updates st) before in
  count < as_updates ev \/ as_now ev - since <= longest (qo_max o) count.
Proof.
  intros o before. induction before as [|e before IH]; intros st ev after st' Ho Hf H.
  - cbn [app answer_waits silent_since] in *. unfold answer_look in H.
    destruct (N.ltb_spec (aw_updates st) (as_updates ev)) as [Hs|Hs]; [now left|].
    destruct (is_timed_out (as_now ev - aw_start st) (aw_timeout st) (aw_updates st)) eqn:E; [discriminate H|].
    right. unfold is_timed_out in E. apply N.ltb_ge in E.
    pose proof (longest_mono (aw_timeout st) (qo_max o) (aw_updates st) (proj2 Hf)) as L. unfold longest in *. lia.
  - cbn [app answer_waits silent_since] in *. unfold answer_look in H.
    destruct (N.ltb_spec (aw_updates st) (as_updates e)) as [Hs|Hs].
    + cbn [update_roundtrip] in H. destruct (as_whole e); [discriminate H|].
      apply IH in H; [exact H|exact Ho|now apply timeout_bounds].
    + destruct (is_timed_out (as_now e - aw_start st) (aw_timeout st) (aw_updates st)); [discriminate H|].
      destruct (as_whole e); [discriminate H|]. apply IH in H; [exact H|exact Ho|exact Hf].
Qed.

Lemma answer_prompt : forall o r now u before ev after st', qo_min o <= qo_max o ->
  answer_waits o (answer_wait_new o r now u) (before ++ ev :: after) = StillWaiting st' ->
  let (since, count) := silent_since now u before in
  count < as_updates ev \/ as_now ev - since <= longest (qo_max o) count.
Proof.
  intros o r now u before ev after st' Ho H.
  exact (answer_prompt_at o before (answer_wait_new o r now u) ev after st' Ho (timeout_bounds o (Some r) Ho) H).
Qed.

(** A whole answer is noticed at once, unless the time is over. *)
Lemma answer_noticed_at : forall o before st ev after, qo_min o <= qo_max o -> fair o (aw_timeout st) ->
  Forall (fun e => as_whole e = false) before -> as_whole ev = true ->
  (forall b e a, before ++ ev :: after = b ++ e :: a -> (length b <= length before)%nat ->
     let (since, count) := silent_since (aw_start st) (aw_updates st) b in
     count < as_updates e \/ as_now e - since <= longest (qo_min o) count) ->
  exists est, answer_waits o st (before ++ ev :: after) = Answered est.
Proof.
  intros o before. induction before as [|e before IH]; intros st ev after Ho Hf Hb He H.
  - specialize (H [] ev after eq_refl (le_n _)). cbn [silent_since] in H. cbn [app answer_waits]. unfold answer_look.
    rewrite He. destruct (N.ltb_spec (aw_updates st) (as_updates ev)) as [Hs|Hs]; [cbn [update_roundtrip]; eauto|].
    destruct (is_timed_out (as_now ev - aw_start st) (aw_timeout st) (aw_updates st)) eqn:E; [|eauto].
    exfalso. unfold is_timed_out in E. apply N.ltb_lt in E.
    pose proof (longest_mono (qo_min o) (aw_timeout st) (aw_updates st) (proj1 Hf)) as L. unfold longest in *. lia.
  - inversion Hb as [|? ? He' Hb']; subst. cbn [app answer_waits]. unfold answer_look. rewrite He'.
    pose proof (H [] e (before ++ ev :: after) eq_refl ltac:(cbn [length]; lia)) as H0. cbn [silent_since] in H0.
    destruct (N.ltb_spec (aw_updates st) (as_updates e)) as [Hs|Hs].
    + cbn [update_roundtrip]. apply IH; try assumption; [now apply timeout_bounds|].
      intros b x a E L. specialize (H (e :: b) x a (f_equal (cons e) E) ltac:(cbn [length]; lia)).
      cbn [silent_since] in H. destruct (N.ltb_spec (aw_updates st) (as_updates e)); [exact H|lia].
    + destruct (is_timed_out (as_now e - aw_start st) (aw_timeout st) (aw_updates st)) eqn:E.
      * exfalso. unfold is_timed_out in E. apply N.ltb_lt in E.
        pose proof (longest_mono (qo_min o) (aw_timeout st) (aw_updates st) (proj1 Hf)) as L. unfold longest in *. lia.
      * apply IH; try assumption. intros b x a Eq L.
        specialize (H (e :: b) x a (f_equal (cons e) Eq) ltac:(cbn [length]; lia)).
        cbn [silent_since] in H. destruct (N.ltb_spec (aw_updates st) (as_updates e)); [lia|exact H].
Qed.

Lemma answer_noticed : forall o r now u before ev after, qo_min o <= qo_max o ->
  Forall (fun e => as_whole e = false) before -> as_whole ev = true ->
  (forall b e a, before ++ ev :: after = b ++ e :: a -> (length b <= length before)%nat ->
     let (since, count) := silent_since now u b in
     count < as_updates e \/ as_now e - since <= longest (qo_min o) count) ->
  exists est, answer_waits o (answer_wait_new o r now u) (before ++ ev :: after) = Answered est.
Proof.
  intros o r now u before ev after Ho Hb He H.
  exact (answer_noticed_at o before (answer_wait_new o r now u) ev after Ho (timeout_bounds o (Some r) Ho) Hb He H).
Qed.

(** ** No end *)

Lemma trickle_at : forall o n k st, sw_seqno st < N.of_nat k ->
  exists st', send_waits o st (map (fun k => WaveOver (10 * N.of_nat k) (N.of_nat k)) (seq k n)) = StillSending st'.
Proof.
  intros o n. induction n as [|n IH]; intros k st H; [now exists st|].
  cbn [seq map send_waits send_look]. destruct (N.ltb_spec (sw_seqno st) (N.of_nat k)); [|lia].
  cbn [update_roundtrip]. apply IH. cbn [sw_seqno]. lia.
Qed.

Lemma chatter_at : forall o n k st, aw_updates st < N.of_nat k ->
  exists st', answer_waits o st (map (fun k => mk_answer_sight (10 * N.of_nat k) (N.of_nat k) false) (seq k n))
    = StillWaiting st'.
Proof.
  intros o n. induction n as [|n IH]; intros k st H; [now exists st|].
  cbn [seq map answer_waits]. unfold answer_look. cbn [as_updates as_whole as_now].
  destruct (N.ltb_spec (aw_updates st) (N.of_nat k)); [|lia].
  cbn [update_roundtrip]. apply IH. cbn [aw_updates]. lia.
Qed.

Lemma endless : forall o r n,
  (exists st, send_waits o (send_wait_new o r 0) (trickle n) = StillSending st)
  /\ (forall r', exists st, answer_waits o (answer_wait_new o r' 0 0) (chatter n) = StillWaiting st).
Proof.
  intros o r n. split; [apply trickle_at; cbn; lia|]. intros r'. apply chatter_at. cbn. lia.
Qed.

(** ** Estimates *)

Lemma fails : forall o r, send_waits o (send_wait_new o r 0) [WaveOver (sw_timeout (send_wait_new o r 0) + 1) 0]
  = NotSent (big_roundtrip o (match r with Some r => r | None => 0 end)).
Proof.
  intros o r. cbn [send_waits send_look send_wait_new sw_seqno sw_start sw_timeout sw_roundtrip].
  change (0 <? 0) with false. cbv iota. rewrite no_updates_timeout.
  destruct (N.ltb_spec (compute_timeout o r) (compute_timeout o r + 1 - 0)); [reflexivity|lia].
Qed.

Lemma backoff : forall o n r, r <= qo_max o ->
  after_failures o (Some r) n = Some (N.min (r * 2 ^ N.of_nat n) (qo_max o)).
Proof.
  intros o n. induction n as [|n IH]; intros r H.
  - cbn [after_failures]. change (N.of_nat 0) with 0. rewrite N.pow_0_r. f_equal. lia.
  - cbn [after_failures]. cbv zeta. rewrite fails. unfold big_roundtrip. rewrite IH by lia.
    f_equal. rewrite Nat2N.inj_succ, N.pow_succ_r by lia.
    set (p := 2 ^ N.of_nat n). assert (1 <= p) by (unfold p; pose proof (N.pow_nonzero 2 (N.of_nat n)); lia).
    destruct (N.le_gt_cases (r * 2) (qo_max o)); [rewrite (N.min_l (r * 2)) by lia; f_equal; lia|].
    rewrite (N.min_r (r * 2)) by lia. rewrite !N.min_r; [reflexivity| |]; nia.
Qed.

Lemma no_backoff : forall o n, qo_min o <= qo_max o ->
  sw_timeout (send_wait_new o None 0) = qo_max o
  /\ after_failures o None (S n) = Some 0
  /\ sw_timeout (send_wait_new o (after_failures o None (S n)) 0) = qo_min o.
Proof.
  intros o n H. split; [reflexivity|].
  assert (E : after_failures o None (S n) = Some 0).
  { cbn [after_failures]. cbv zeta. rewrite fails. unfold big_roundtrip. rewrite backoff by lia. f_equal. lia. }
  split; [exact E|]. rewrite E. cbn [send_wait_new sw_timeout compute_timeout].
  destruct (N.ltb_spec (qo_max o) 0); lia.
Qed.

Lemma halved : forall o r now u e u', u < u' ->
  exists est, answer_waits o (answer_wait_new o r now u) [mk_answer_sight (now + e) u' true] = Answered est
    /\ 2 * est <= N.max r e.
Proof.
  intros o r now u e u' H. cbn [answer_waits]. unfold answer_look, answer_wait_new.
  cbn [aw_updates as_updates as_now aw_start aw_roundtrip as_whole].
  destruct (N.ltb_spec u u'); [|lia]. cbn [update_roundtrip aw_roundtrip aw_start fst].
  eexists. split; [reflexivity|]. rewrite N.sub_diag. replace (now + e - now) with e by lia.
  pose proof (estimate o r e) as E. unfold update_roundtrip in E. cbn [fst] in E.
  set (x := if r =? 0 then e else (r + e) / 2) in *.
  assert (x <= N.max r e) by (destruct (N.eq_0_gt_0_cases r); [rewrite (proj1 E) by assumption; lia|lia]).
  destruct (N.eqb_spec x 0); [lia|]. rewrite N.add_0_r. pose proof (N.mul_div_le x 2 ltac:(discriminate)). lia.
Qed.

Lemma update_bound : forall o r e b, r <= b -> e <= b -> fst (update_roundtrip o r e) <= b.
Proof.
  intros o r e b Hr He. destruct (estimate o r e) as [E0 E1]. destruct (N.eq_0_gt_0_cases r) as [Z|Z].
  - rewrite E0 by exact Z. exact He.
  - specialize (E1 Z). lia.
Qed.

Lemma send_bound_at : forall o t0 d b evs st, sw_roundtrip st <= b -> d <= b -> t0 <= sw_start st ->
  Forall (fun ev => t0 <= sight_time ev <= t0 + d) evs ->
  match send_waits o st evs with
  | StillSending st' => sw_roundtrip st' <= b
  | Sent est => est <= b
  | NotSent est => est <= 2 * b /\ est <= qo_max o
  end.
Proof.
  intros o t0 d b evs. induction evs as [|ev evs IH]; intros st Hr Hd Hs H; [exact Hr|].
  inversion H as [|? ? He H']; subst. cbn [send_waits]. destruct ev as [now s|now|now]; cbn [send_look sight_time] in *.
  - destruct (sw_seqno st <? s).
    + destruct (update_roundtrip o (sw_roundtrip st) (now - sw_start st)) as [r' t'] eqn:E.
      apply IH; cbn [sw_roundtrip sw_start]; try assumption; [|lia].
      apply (f_equal fst) in E. cbn [fst] in E. rewrite <- E. apply update_bound; lia.
    + destruct (is_timed_out _ _ _); [unfold big_roundtrip; lia|now apply IH].
  - destruct (update_roundtrip o (sw_roundtrip st) (now - sw_start st)) as [r' t'] eqn:E.
    apply IH; cbn [sw_roundtrip sw_start]; try assumption; [|lia].
    apply (f_equal fst) in E. cbn [fst] in E. rewrite <- E. apply update_bound; lia.
  - apply update_bound; lia.
Qed.

Lemma send_bound : forall o r now d evs, Forall (fun ev => now <= sight_time ev <= now + d) evs ->
  let b := N.max (match r with Some r => r | None => 0 end) d in
  match send_waits o (send_wait_new o r now) evs with
  | StillSending st' => sw_roundtrip st' <= b
  | Sent est => est <= b
  | NotSent est => est <= 2 * b /\ est <= qo_max o
  end.
Proof.
  intros o r now d evs H b. apply (send_bound_at o now d b); cbn [send_wait_new sw_roundtrip sw_start]; subst b; try lia.
  exact H.
Qed.

Lemma answer_bound_at : forall o t0 d b evs st, aw_roundtrip st <= b -> d <= b -> t0 <= aw_start st ->
  Forall (fun ev => t0 <= as_now ev <= t0 + d) evs ->
  match answer_waits o st evs with
  | StillWaiting st' => aw_roundtrip st' <= b
  | Answered est | NotAnswered est => est <= b
  end.
Proof.
  intros o t0 d b evs. induction evs as [|ev evs IH]; intros st Hr Hd Hs H; [exact Hr|].
  inversion H as [|? ? He H']; subst. cbn [answer_waits]. unfold answer_look.
  destruct (aw_updates st <? as_updates ev).
  - destruct (update_roundtrip o (aw_roundtrip st) (as_now ev - aw_start st)) as [r' t'] eqn:E.
    apply (f_equal fst) in E. cbn [fst] in E.
    assert (r' <= b) by (rewrite <- E; apply update_bound; lia).
    destruct (as_whole ev); cbn [aw_roundtrip aw_start].
    + apply update_bound; lia.
    + apply IH; cbn [aw_roundtrip aw_start]; try assumption. lia.
  - destruct (is_timed_out _ _ _); [exact Hr|]. destruct (as_whole ev); [apply update_bound; lia|now apply IH].
Qed.

Lemma answer_bound : forall o r now u d evs, Forall (fun ev => now <= as_now ev <= now + d) evs ->
  match answer_waits o (answer_wait_new o r now u) evs with
  | StillWaiting st' => aw_roundtrip st' <= N.max r d
  | Answered est | NotAnswered est => est <= N.max r d
  end.
Proof.
  intros o r now u d evs H.
  apply (answer_bound_at o now d (N.max r d)); cbn [answer_wait_new aw_roundtrip aw_start]; try lia. exact H.
Qed.

Lemma send_measured_at : forall o evs st,
  let r := averaged (sw_roundtrip st) (send_measures (sw_start st) (sw_seqno st) evs) in
  match send_waits o st evs with
  | StillSending st' => sw_roundtrip st' = r
  | Sent est => est = r
  | NotSent _ => True
  end.
Proof.
  intros o evs. induction evs as [|ev evs IH]; intros st; [reflexivity|].
  cbn [send_waits]. destruct ev as [now s|now|now]; cbn [send_look send_measures].
  - destruct (sw_seqno st <? s).
    + exact (IH (mk_send_wait _ _ now s)).
    + destruct (is_timed_out _ _ _); [exact I|apply IH].
  - exact (IH (mk_send_wait _ _ now 0)).
  - reflexivity.
Qed.

Lemma send_measured : forall o r now evs,
  let est := averaged (match r with Some r => r | None => 0 end) (send_measures now 0 evs) in
  match send_waits o (send_wait_new o r now) evs with
  | StillSending st => sw_roundtrip st = est
  | Sent e => e = est
  | NotSent _ => True
  end.
Proof. intros o r now evs. exact (send_measured_at o evs (send_wait_new o r now)). Qed.

Lemma answer_measured_at : forall o evs st,
  let r := averaged (aw_roundtrip st) (answer_measures (aw_start st) (aw_updates st) evs) in
  match answer_waits o st evs with
  | StillWaiting st' => aw_roundtrip st' = r
  | Answered est => est = r
  | NotAnswered _ => True
  end.
Proof.
  intros o evs. induction evs as [|ev evs IH]; intros st; [reflexivity|].
  cbn [answer_waits answer_measures]. unfold answer_look.
  destruct (aw_updates st <? as_updates ev).
  - cbn [update_roundtrip]. destruct (as_whole ev).
    + cbn [aw_roundtrip aw_start]. rewrite N.sub_diag. reflexivity.
    + exact (IH (mk_answer_wait _ _ (as_now ev) (as_updates ev))).
  - destruct (is_timed_out _ _ _); [destruct (as_whole ev); exact I|].
    destruct (as_whole ev); [reflexivity|apply IH].
Qed.

Lemma answer_measured : forall o r now u evs,
  let est := averaged r (answer_measures now u evs) in
  match answer_waits o (answer_wait_new o r now u) evs with
  | StillWaiting st => aw_roundtrip st = est
  | Answered e => e = est
  | NotAnswered _ => True
  end.
Proof. intros o r now u evs. exact (answer_measured_at o evs (answer_wait_new o r now u)). Qed.
