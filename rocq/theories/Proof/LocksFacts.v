(** Nobody waits forever for the locks of the tables. *)
From Coq Require Import List Arith Bool Lia.
From Coq Require Import ZifyBool ZifyNat.
From Verif.Model Require Import Locks.
From Verif.Spec Require Import LocksSpec.
Import ListNotations.

(** *** An order on the locks *)

Definition class (t : table) : nat :=
  match t with
  | TOverlays => 0 | TKnown => 1 | TNeighbours => 2 | TFresh => 3 | TUserSet => 4
  | TPeers => 5 | TByPeers => 6 | TById => 7
  | TDhtKnown => 8 | TPenalties => 9 | TBuckets => 10 | TStorage => 11
  | TTransfers => 12 | TParts => 13 | TQueries => 14 | TConsumers => 15 | TOwned => 16 | TReceived => 17
  | TIgnored => 18 | TNodes => 19 | TRldp => 20 | TBarrier => 21 | TSemaphores => 22
  end.
Section Order.
Context (order : nat -> nat).
Definition place (l : lock) : nat * nat :=
  (class (fst l), match fst l with TUserSet => order (snd l) | _ => snd l end).
Definition below (a b : lock) : bool :=
  (fst (place a) <? fst (place b)) || (Nat.eqb (fst (place a)) (fst (place b)) && (snd (place a) <? snd (place b))).
Lemma below_trans : forall a b c, below a b = true -> below b c = true -> below a c = true.
Proof. intros a b c. unfold below. destruct (place a), (place b), (place c). cbn [fst snd]. lia. Qed.
Lemma below_irrefl : forall a, below a a = false.
Proof. intros a. unfold below. destruct (place a). cbn [fst snd]. lia. Qed.
Lemma lock_eqb_eq : forall a b, lock_eqb a b = true <-> a = b.
Proof.
  intros [t i] [u j]. unfold lock_eqb. cbn. split.
  - intros H. apply andb_prop in H. destruct H as [H1 H2]. apply Nat.eqb_eq in H2. subst j. f_equal.
    destruct t, u; cbn in H1; congruence.
  - intros [= -> ->]. rewrite !Nat.eqb_refl. reflexivity.
Qed.
Lemma lock_eqb_refl : forall a, lock_eqb a a = true.
Proof. intros a. now apply lock_eqb_eq. Qed.

(** What a sequence of acts does to the locks held, if every lock taken is above those held. *)
Fixpoint follow (held : list (lock * bool)) (acts : list act) : option (list (lock * bool)) :=
  match acts with
  | [] => Some held
  | Take l w :: r => if forallb (fun h => below (fst h) l) held then follow ((l, w) :: held) r else None
  | Drop l :: r => if existsb (fun h => lock_eqb (fst h) l) held then follow (release l held) r else None
  end.
Lemma follow_app : forall a b held,
  follow held (a ++ b) = match follow held a with Some h => follow h b | None => None end.
Proof.
  induction a as [|[l w|l] a IH]; intros b held; [reflexivity| |]; cbn.
  - destruct (forallb _ held); [apply IH|reflexivity].
  - destruct (existsb _ held); [apply IH|reflexivity].
Qed.
Definition over (held : list (lock * bool)) (l : lock) : Prop := forallb (fun h => below (fst h) l) held = true.
(** A piece that leaves the locks as it found them. *)
Definition neutral (held : list (lock * bool)) (acts : list act) : Prop := follow held acts = Some held.
Lemma neutral_nil : forall held, neutral held [].
Proof. reflexivity. Qed.
Lemma neutral_app : forall held a b, neutral held a -> neutral held b -> neutral held (a ++ b).
Proof. intros held a b Ha Hb. unfold neutral. rewrite follow_app, Ha. exact Hb. Qed.
Lemma neutral_holding : forall held l w inside, over held l -> neutral ((l, w) :: held) inside ->
  neutral held (holding l w inside).
Proof.
  intros held l w inside Ho Hi. unfold neutral, holding. cbn. rewrite Ho, follow_app, Hi. cbn.
  now rewrite lock_eqb_refl.
Qed.
Lemma neutral_read : forall held l, over held l -> neutral held (read l).
Proof. intros. apply neutral_holding; [assumption|apply neutral_nil]. Qed.
Lemma neutral_write : forall held l, over held l -> neutral held (write l).
Proof. intros. apply neutral_holding; [assumption|apply neutral_nil]. Qed.
Lemma neutral_concat : forall A held (f : A -> list act) l, (forall x, neutral held (f x)) ->
  neutral held (concat (map f l)).
Proof. intros A held f l H. induction l; cbn; [apply neutral_nil|]. now apply neutral_app. Qed.
Lemma neutral_repeat : forall held a n, neutral held a -> neutral held (concat (repeat a n)).
Proof. intros held a n H. induction n; cbn; [apply neutral_nil|]. now apply neutral_app. Qed.

Lemma follow_iterate : forall t count next p w, t <> TUserSet -> p < next ->
  follow [((t, p), w)] (iterate t (Some p) next count) = Some [].
Proof.
  intros t. induction count as [|n IH]; intros next p w Ht Hp.
  - cbn. now rewrite lock_eqb_refl.
  - cbn [iterate app follow].
    assert (Hb : forallb (fun h => below (fst h) (t, next)) [((t, p), w)] = true).
    { cbn [forallb fst]. rewrite andb_true_r. unfold below, place. cbn [fst snd]. rewrite Nat.eqb_refl. apply orb_true_iff. right. cbn [andb]. apply Nat.ltb_lt. destruct t; try exact Hp. congruence. }
    rewrite Hb. cbn [existsb fst]. rewrite lock_eqb_refl, orb_true_r. cbn [release fst].
    assert (Hne : lock_eqb (t, next) (t, p) = false).
    { apply Bool.not_true_iff_false. intros H. apply lock_eqb_eq in H. injection H. lia. }
    rewrite Hne, lock_eqb_refl. apply IH; [assumption|lia].
Qed.
Lemma neutral_iterate : forall t next count, t <> TUserSet -> neutral [] (iterate t None next count).
Proof.
  intros t next [|n] Ht; [reflexivity|]. unfold neutral. cbn [iterate app follow]. cbn [forallb].
  apply follow_iterate; [assumption|lia].
Qed.

Ltac places := unfold over; cbn; unfold below, place; cbn; try reflexivity.
Ltac pieces := repeat first
  [ apply neutral_nil
  | apply neutral_app
  | apply neutral_read; solve [places]
  | apply neutral_write; solve [places]
  | apply neutral_holding; [solve [places]|]
  | apply neutral_iterate; discriminate
  | apply neutral_concat; intros ?
  | apply neutral_repeat
  | match goal with |- neutral _ (if ?b then _ else _) => destruct b end
  | match goal with |- neutral _ (match ?x with Some _ => _ | None => _ end) => destruct x as [[? ?]|] end
  | match goal with |- neutral _ (match ?x with Some _ => _ | None => _ end) => destruct x end ].
Lemma operation_neutral : forall o, neutral [] (locks_of o).
Proof.
  intros o. destruct o; cbn [locks_of];
  unfold adnl_query, dht_query, add_public_peer, add_dht_peer, check_packet, remove_peer, rldp_query, rldp_part,
    rldp_answer, broadcast, send_to, create_channel, remove_public_peer, update_neighbours, add_overlay, random_peers,
    fill_from, find_value, find_node, match_peers, receive_part, reset_peer, drop_channel, send_message, add_peer,
    storage_gc, store, next_peer, broadcast_done, is_active_peer, add_subscriber; pieces.
Qed.
Lemma call_neutral : forall c, well_used order c -> neutral [] (locks_of_call c).
Proof.
  intros [o|dst src|inside] H; cbn [locks_of_call].
  - apply operation_neutral.
  - destruct (Nat.eqb dst src) eqn:E; [apply neutral_nil|]. apply Nat.eqb_neq in E.
    destruct H as [H|H]; [contradiction|]. unfold fill_from. apply neutral_holding; [reflexivity|].
    apply neutral_write. unfold over. cbn [forallb fst]. unfold below, place. cbn [fst snd class Nat.eqb]. rewrite andb_true_r. apply orb_true_iff. right. cbn [andb]. apply Nat.ltb_lt. exact H.
  - cbn in H. subst inside. cbn. apply neutral_read. reflexivity.
Qed.

(** *** The tasks *)

Definition orderly (t : task) : Prop := follow (t_held t) (t_rest t) = Some [].
Lemma start_orderly : forall calls, Forall (well_used order) calls -> orderly (start calls).
Proof.
  intros calls H. unfold orderly, start. cbn [t_held t_rest]. induction H as [|c calls Hc H IH]; [reflexivity|]. cbn.
  rewrite follow_app, (call_neutral c Hc). exact IH.
Qed.
Lemma advance_orderly : forall wf ts t t', orderly t -> advance wf ts t = Some t' ->
  orderly t' /\ S (length (t_rest t')) = length (t_rest t).
Proof.
  intros wf ts [held rest] t' Ho Ha. unfold orderly in *. unfold advance in Ha. cbn in Ho, Ha.
  destruct rest as [|[l w|l] r]; [discriminate| |].
  - destruct (granted wf ts l w); [|discriminate]. injection Ha as <-. cbn in *.
    destruct (forallb _ held); [|discriminate]. split; [exact Ho|reflexivity].
  - injection Ha as <-. cbn in *. destruct (existsb _ held); [|discriminate]. split; [exact Ho|reflexivity].
Qed.
Lemma orderly_end : forall t, orderly t -> t_rest t = [] -> finished t.
Proof. intros [held rest] H Hr. cbn in *. subst rest. unfold orderly in H. cbn in H. injection H as ->. split; reflexivity. Qed.
(** A task that holds a lock is not at its end and, if it waits, waits for a lock above. *)
Lemma holder_waits : forall t l w, orderly t -> In (l, w) (t_held t) ->
  t_rest t <> [] /\ (forall m v r, t_rest t = Take m v :: r -> below l m = true).
Proof.
  intros [held rest] l w Ho Hin. unfold orderly in Ho. cbn in *. split.
  - intros ->. cbn in Ho. injection Ho as ->. contradiction.
  - intros m v r ->. cbn in Ho. destruct (forallb _ held) eqn:E; [|discriminate].
    rewrite forallb_forall in E. exact (E _ Hin).
Qed.

Definition stuck (wf : bool) (ts : list task) : Prop := forall t, In t ts -> advance wf ts t = None.
(** Among stuck orderly tasks, whoever waits for a lock has somebody who waits for a lock above. *)
Lemma waits_above : forall wf ts t l w r, Forall orderly ts -> stuck wf ts -> In t ts -> t_rest t = Take l w :: r ->
  exists u m v q, In u ts /\ t_rest u = Take m v :: q /\ below l m = true.
Proof.
  intros wf ts t l w r Ho Hs Hin Hr.
  assert (Hheld : forall v, existsb (blocks l v) ts = true ->
    exists u m v q, In u ts /\ t_rest u = Take m v :: q /\ below l m = true).
  { intros v Hb. apply existsb_exists in Hb. destruct Hb as (u & Hu & Hb). apply existsb_exists in Hb.
    destruct Hb as ([l' w'] & Hh & Hb). apply andb_prop in Hb. destruct Hb as [He _]. apply lock_eqb_eq in He. cbn in He. subst l'.
    rewrite Forall_forall in Ho. destruct (holder_waits u l w' (Ho _ Hu) Hh) as [Hne Hab].
    pose proof (Hs u Hu) as Hsu. unfold advance in Hsu.
    destruct (t_rest u) as [|[m x|m] q] eqn:Eu; [contradiction| |discriminate].
    exists u, m, x, q. split; [exact Hu|]. split; [exact Eu|]. now apply (Hab m x q). }
  pose proof (Hs t Hin) as Ht. unfold advance in Ht. rewrite Hr in Ht.
  destruct (granted wf ts l w) eqn:Eg; [discriminate|]. unfold granted in Eg.
  apply andb_false_iff in Eg. destruct Eg as [Eg|Eg].
  - apply negb_false_iff in Eg. exact (Hheld w Eg).
  - apply orb_false_iff in Eg. destruct Eg as [Ew Eg]. apply negb_false_iff in Eg. apply andb_prop in Eg.
    destruct Eg as [_ Eg]. apply existsb_exists in Eg. destruct Eg as (u & Hu & Hw).
    unfold wants_write in Hw. destruct (t_rest u) as [|[m [|]|m] q] eqn:Eu; try discriminate.
    apply lock_eqb_eq in Hw. subst m.
    pose proof (Hs u Hu) as Hsu. unfold advance in Hsu. rewrite Eu in Hsu.
    destruct (granted wf ts l true) eqn:Eg; [discriminate|]. unfold granted in Eg. cbn in Eg. rewrite andb_true_r in Eg.
    apply negb_false_iff in Eg. exact (Hheld true Eg).
Qed.
(** A finite list has no endless ascent. *)
Lemma no_ascent : forall (good : lock -> Prop) (l : list lock),
  (forall a, good a -> In a l) -> (forall a, good a -> exists b, good b /\ below a b = true) -> forall a, ~ good a.
Proof.
  intros good l. revert good. induction l as [|x l IH]; intros good Hin Hup a Ha; [exact (Hin a Ha)|].
  (* the ones above x *)
  assert (Hx : forall b, good b -> below x b = true -> False).
  { intros b Hb Hxb. apply (IH (fun c => good c /\ below x c = true)) with (a := b); [| |now split].
    - intros c [Hc Hxc]. destruct (Hin c Hc) as [<-|H]; [now rewrite below_irrefl in Hxc|exact H].
    - intros c [Hc Hxc]. destruct (Hup c Hc) as (d & Hd & Hcd). exists d. split; [split; [exact Hd|]|exact Hcd].
      exact (below_trans _ _ _ Hxc Hcd). }
  apply (IH (fun c => good c /\ c <> x)) with (a := a).
  - intros c [Hc Hn]. destruct (Hin c Hc) as [->|H]; [contradiction|exact H].
  - intros c [Hc Hn]. destruct (Hup c Hc) as (d & Hd & Hcd). destruct (lock_eqb d x) eqn:E.
    + apply lock_eqb_eq in E. subst d. destruct (Hup x Hd) as (f & Hf & Hxf). destruct (Hx f Hf Hxf).
    + exists d. split; [split; [exact Hd|]|exact Hcd]. intros ->. now rewrite lock_eqb_refl in E.
  - split; [exact Ha|]. intros ->. destruct (Hup x Ha) as (f & Hf & Hxf). exact (Hx f Hf Hxf).
Qed.
Definition awaited (t : task) : list lock := match t_rest t with Take l _ :: _ => [l] | _ => [] end.
Theorem somebody_moves : forall wf ts, Forall orderly ts -> stuck wf ts -> Forall finished ts.
Proof.
  intros wf ts Ho Hs. apply Forall_forall. intros t Hin.
  pose proof (proj1 (Forall_forall _ _) Ho t Hin) as Ht.
  destruct (t_rest t) as [|[l w|l] r] eqn:Er; [now apply orderly_end| |].
  - exfalso. apply (no_ascent (fun a => exists u v q, In u ts /\ t_rest u = Take a v :: q) (concat (map awaited ts))) with (a := l).
    + intros a (u & v & q & Hu & Eu). apply in_concat. exists (awaited u). split; [now apply in_map|].
      unfold awaited. rewrite Eu. now left.
    + intros a (u & v & q & Hu & Eu). destruct (waits_above wf ts u a v q Ho Hs Hu Eu) as (u' & m & v' & q' & Hu' & Eu' & Hb).
      exists m. split; [|exact Hb]. now exists u', v', q'.
    + now exists t, w, r.
  - pose proof (Hs t Hin) as H. unfold advance in H. rewrite Er in H. discriminate.
Qed.

(** *** Runs *)

Lemma in_replace : forall i t ts u, In u (replace i t ts) -> u = t \/ In u ts.
Proof.
  induction i as [|i IH]; intros t [|x ts] u H; cbn in *; try tauto.
  - destruct H as [->|H]; tauto.
  - destruct H as [->|H]; [tauto|]. destruct (IH _ _ _ H); tauto.
Qed.
Lemma replace_length : forall i t ts, length (replace i t ts) = length ts.
Proof. induction i; intros t [|x ts]; cbn; auto. Qed.
Lemma work_replace : forall i t t' ts, nth_error ts i = Some t -> S (length (t_rest t')) = length (t_rest t) ->
  S (work (replace i t' ts)) = work ts.
Proof.
  unfold work. induction i as [|i IH]; intros t t' [|x ts] Hn Hl; cbn in *; try discriminate.
  - injection Hn as ->. lia.
  - pose proof (IH t t' ts Hn Hl). unfold list_sum in *. lia.
Qed.
Lemma step_orderly : forall wf ts i, Forall orderly ts -> Forall orderly (lock_step wf ts i)
  /\ length (lock_step wf ts i) = length ts
  /\ (lock_step wf ts i = ts \/ S (work (lock_step wf ts i)) = work ts).
Proof.
  intros wf ts i Ho. unfold lock_step. destruct (nth_error ts i) as [t|] eqn:En; [|repeat split; auto].
  destruct (advance wf ts t) as [t'|] eqn:Ea; [|repeat split; auto].
  pose proof (nth_error_In _ _ En) as Hin. pose proof (proj1 (Forall_forall _ _) Ho _ Hin) as Ht.
  destruct (advance_orderly _ _ _ _ Ht Ea) as [Ht' Hl]. repeat split.
  - apply Forall_forall. intros u Hu. destruct (in_replace _ _ _ _ Hu) as [->|H]; [exact Ht'|].
    exact (proj1 (Forall_forall _ _) Ho _ H).
  - apply replace_length.
  - right. now apply (work_replace i t).
Qed.
Lemma run_orderly : forall wf sched ts, Forall orderly ts -> Forall orderly (lock_run wf ts sched)
  /\ length (lock_run wf ts sched) = length ts
  /\ (lock_run wf ts sched = ts \/ work (lock_run wf ts sched) < work ts).
Proof.
  intros wf sched. induction sched as [|i sched IH]; intros ts Ho; [repeat split; auto|].
  destruct (step_orderly wf ts i Ho) as (H1 & H2 & H3). destruct (IH _ H1) as (H4 & H5 & H6).
  change (lock_run wf ts (i :: sched)) with (lock_run wf (lock_step wf ts i) sched).
  repeat split; [exact H4|congruence|].
  destruct H6 as [H6|H6]; destruct H3 as [H3|H3].
  - left. congruence.
  - right. rewrite H6. lia.
  - right. now rewrite H3 in *.
  - right. lia.
Qed.
(** If a round changes nothing, everybody was stuck. *)
Lemma round_stuck : forall wf r ts, Forall orderly ts -> lock_run wf ts r = ts ->
  forall i t, In i r -> nth_error ts i = Some t -> advance wf ts t = None.
Proof.
  intros wf r. induction r as [|j r IH]; intros ts Ho Hrun i t Hi Hn; [contradiction|].
  cbn in Hrun. change (lock_run wf (lock_step wf ts j) r = ts) in Hrun.
  destruct (step_orderly wf ts j Ho) as (H1 & H2 & H3). destruct (run_orderly wf r _ H1) as (_ & _ & H6).
  assert (Hs : lock_step wf ts j = ts).
  { destruct H3 as [H3|H3]; [exact H3|]. destruct H6 as [H6|H6]; rewrite Hrun in H6; [now symmetry|lia]. }
  rewrite Hs in Hrun. destruct Hi as [->|Hi]; [|now apply (IH ts Ho Hrun i t)].
  destruct (advance wf ts t) as [t'|] eqn:Ea; [|reflexivity]. exfalso.
  unfold lock_step in Hs. rewrite Hn, Ea in Hs.
  pose proof (nth_error_In _ _ Hn) as Hin. pose proof (proj1 (Forall_forall _ _) Ho _ Hin) as Ht.
  destruct (advance_orderly _ _ _ _ Ht Ea) as [_ Hl]. pose proof (work_replace i t t' ts Hn Hl) as Hw. rewrite Hs in Hw. lia.
Qed.
Lemma rounds_finish : forall wf rounds ts, Forall orderly ts -> Forall (round (length ts)) rounds ->
  work ts <= length rounds -> Forall finished (lock_run wf ts (concat rounds)).
Proof.
  intros wf rounds. induction rounds as [|r rounds IH]; intros ts Ho Hr Hw.
  - cbn in *. apply Forall_forall. intros t Hin. apply orderly_end; [exact (proj1 (Forall_forall _ _) Ho _ Hin)|].
    assert (Hz : forall ts', work ts' = 0 -> In t ts' -> t_rest t = []).
    { unfold work. induction ts' as [|x ts' IHt]; intros H0 Hi; [contradiction|]. unfold list_sum in *. destruct Hi as [->|Hi]; cbn in *.
      - destruct (t_rest t); [reflexivity|cbn in H0; lia].
      - apply IHt; [lia|exact Hi]. }
    apply (Hz ts); [lia|exact Hin].
  - cbn [concat]. unfold lock_run. rewrite fold_left_app. fold (lock_run wf ts r). fold (lock_run wf (lock_run wf ts r) (concat rounds)).
    inversion Hr as [|? ? Hr1 Hr2]; subst. destruct (run_orderly wf r ts Ho) as (H1 & H2 & H3).
    destruct H3 as [H3|H3].
    + assert (Hs : stuck wf ts).
      { intros t Hin. apply In_nth_error in Hin. destruct Hin as (i & Hi).
        apply (round_stuck wf r ts Ho H3 i t); [|exact Hi]. apply Hr1. apply nth_error_Some. congruence. }
      pose proof (somebody_moves wf ts Ho Hs) as Hf. rewrite H3.
      destruct (run_orderly wf (concat rounds) ts Ho) as (H4 & _ & H5). destruct H5 as [->|H5]; [exact Hf|].
      exfalso. assert (Hz : forall ts', Forall finished ts' -> work ts' = 0).
      { unfold work. induction 1 as [|x ts' [Hx _] _ IHt]; cbn; [reflexivity|]. rewrite Hx. exact IHt. }
      rewrite (Hz ts Hf) in H5. lia.
    + apply IH; [exact H1|now rewrite H2|]. cbn [length] in Hw. lia.
Qed.
End Order.

Definition all_well_used (order : nat -> nat) (tasks : list (list call)) : Prop := Forall (Forall (well_used order)) tasks.
Lemma starts_orderly : forall order tasks, Forall (Forall (well_used order)) tasks -> Forall (orderly order) (map start tasks).
Proof. intros order tasks H. induction H as [|c tasks Hc H IH]; cbn; constructor; [now apply start_orderly|exact IH]. Qed.
Theorem locks_finish : forall writers_first order tasks rounds,
  Forall (Forall (well_used order)) tasks -> Forall (round (length tasks)) rounds ->
  work (map start tasks) <= length rounds ->
  Forall finished (lock_run writers_first (map start tasks) (concat rounds)).
Proof.
  intros wf order tasks rounds H Hr Hw. apply (rounds_finish order); [now apply starts_orderly| |exact Hw].
  now rewrite map_length.
Qed.
Theorem locks_never_stuck : forall writers_first order tasks sched,
  Forall (Forall (well_used order)) tasks -> ~ deadlocked writers_first (lock_run writers_first (map start tasks) sched).
Proof.
  intros wf order tasks sched H [Hn Hd]. apply Hn. set (ts := lock_run wf (map start tasks) sched) in *.
  assert (Ho : Forall (orderly order) ts) by (apply run_orderly, starts_orderly, H).
  apply (somebody_moves order wf ts Ho). intros t Hin. apply In_nth_error in Hin. destruct Hin as (i & Hi).
  apply (round_stuck order wf [i] ts Ho (Hd [i]) i t); [now left|exact Hi].
Qed.

(** *** Exclusion *)

Definition exclusive_ok (ts : list task) : Prop := forall i j t u l w v,
  nth_error ts i = Some t -> nth_error ts j = Some u -> i <> j -> In (l, w) (t_held t) -> In (l, v) (t_held u) -> w = false /\ v = false.
Lemma release_In : forall l held x, In x (release l held) -> In x held.
Proof. induction held as [|h held IH]; cbn; [tauto|]. intros x. destruct (lock_eqb (fst h) l); cbn; [tauto|]. intros [H|H]; auto. Qed.
Lemma nth_replace : forall i t ts j u, nth_error (replace i t ts) j = Some u ->
  (j = i /\ u = t) \/ (j <> i /\ nth_error ts j = Some u).
Proof.
  induction i as [|i IH]; intros t [|x ts] j u H; cbn in H.
  - destruct j; discriminate.
  - destruct j; cbn in *; [injection H as ->; now left|right; split; [discriminate|exact H]].
  - destruct j; discriminate.
  - destruct j; cbn in *; [right; split; [discriminate|exact H]|]. destruct (IH _ _ _ _ H) as [[-> ->]|[H1 H2]]; [now left|].
    right. split; [congruence|exact H2].
Qed.
Lemma granted_no_holder : forall wf ts l w i u v, granted wf ts l w = true -> nth_error ts i = Some u -> In (l, v) (t_held u) ->
  w = false /\ v = false.
Proof.
  intros wf ts l w i u v Hg Hu Hin. unfold granted in Hg. apply andb_prop in Hg. destruct Hg as [Hg _].
  apply negb_true_iff in Hg. destruct (w || v) eqn:E.
  - exfalso. assert (existsb (blocks l w) ts = true) as Hc; [|congruence].
    apply existsb_exists. exists u. split; [exact (nth_error_In _ _ Hu)|]. unfold blocks. apply existsb_exists.
    exists (l, v). split; [exact Hin|]. cbn. now rewrite lock_eqb_refl.
  - apply orb_false_iff in E. exact E.
Qed.
Lemma step_exclusive : forall wf ts i, exclusive_ok ts -> exclusive_ok (lock_step wf ts i).
Proof.
  intros wf ts i H. unfold lock_step. destruct (nth_error ts i) as [t|] eqn:En; [|exact H].
  destruct (advance wf ts t) as [t'|] eqn:Ea; [|exact H].
  assert (Hnew : forall l w, In (l, w) (t_held t') -> In (l, w) (t_held t) \/ granted wf ts l w = true).
  { unfold advance in Ea. destruct (t_rest t) as [|[l w|l] r]; [discriminate| |].
    - destruct (granted wf ts l w) eqn:Eg; [|discriminate]. injection Ea as <-. cbn. intros l' w' [[= <- <-]|Hin]; auto.
    - injection Ea as <-. cbn. intros l' w' Hin. left. exact (release_In _ _ _ Hin). }
  intros a b x y l w v Ha Hb Hab Hx Hy.
  apply nth_replace in Ha. apply nth_replace in Hb.
  destruct Ha as [[-> ->]|[Hna Ha]], Hb as [[-> ->]|[Hnb Hb]].
  - contradiction.
  - destruct (Hnew l w Hx) as [Hx'|Hg]; [exact (H i b t y l w v En Hb Hab Hx' Hy)|].
    exact (granted_no_holder _ _ _ _ _ _ _ Hg Hb Hy).
  - destruct (Hnew l v Hy) as [Hy'|Hg]; [exact (H a i x t l w v Ha En Hab Hx Hy')|].
    destruct (granted_no_holder _ _ _ _ _ _ _ Hg Ha Hx). now split.
  - exact (H a b x y l w v Ha Hb Hab Hx Hy).
Qed.
Theorem locks_exclude : forall writers_first tasks sched i j t u l w v,
  let ts := lock_run writers_first (map start tasks) sched in
  nth_error ts i = Some t -> nth_error ts j = Some u -> i <> j ->
  In (l, w) (t_held t) -> In (l, v) (t_held u) -> w = false /\ v = false.
Proof.
  intros wf tasks sched. cbv zeta.
  assert (H : exclusive_ok (lock_run wf (map start tasks) sched)).
  { assert (H0 : exclusive_ok (map start tasks)).
    { intros i j t u l w v Hi _ _ Hin _. rewrite nth_error_map in Hi. destruct (nth_error tasks i); [|discriminate].
      cbn in Hi. injection Hi as <-. contradiction. }
    revert H0. generalize (map start tasks). induction sched as [|i sched IH]; intros ts H0; [exact H0|]. cbn. apply IH. now apply step_exclusive. }
  intros i j t u l w v. apply H.
Qed.

(** *** Deadlocks *)

Lemma deadlock_by_steps : forall wf ts, ~ Forall finished ts -> (forall i, i < length ts -> lock_step wf ts i = ts) -> deadlocked wf ts.
Proof.
  intros wf ts Hn H. split; [exact Hn|]. intros sched. induction sched as [|i sched IH]; [reflexivity|]. cbn.
  assert (Hi : lock_step wf ts i = ts).
  { destruct (Nat.ltb i (length ts)) eqn:E; [apply H, Nat.ltb_lt, E|]. apply Nat.ltb_ge in E.
    unfold lock_step. now rewrite (proj2 (nth_error_None ts i) E). }
  rewrite Hi. exact IH.
Qed.
Theorem fills_deadlock : exists sched, deadlocked false (lock_run false (map start [[Fill 0 1]; [Fill 1 0]]) sched).
Proof.
  exists [0; 1]. apply deadlock_by_steps.
  - intros H. inversion H as [|? ? [Hf _] _]. vm_compute in Hf. discriminate.
  - intros [|[|i]] Hi; [reflexivity|reflexivity|]. cbn in Hi. lia.
Qed.
Theorem iterating_deadlock : forall p b n is_new, exists sched,
  deadlocked false (lock_run false (map start [[ForEachKnown [AddDhtPeer p b n is_new]]]) sched).
Proof.
  intros p b n is_new. exists [0; 0; 0].
  assert (H : exists rest, lock_run false (map start [[ForEachKnown [AddDhtPeer p b n is_new]]]) [0; 0; 0]
    = [mk_task [((TDhtKnown, 0), false)] (Take (TDhtKnown, 0) true :: rest)]).
  { eexists. cbn. rewrite Nat.eqb_refl. cbn. reflexivity. }
  destruct H as [rest H]. rewrite H. apply deadlock_by_steps.
  - intros Hf. inversion Hf as [|? ? [Hr _] _]. discriminate Hr.
  - intros [|i] Hi; [reflexivity|]. cbn in Hi. lia.
Qed.
