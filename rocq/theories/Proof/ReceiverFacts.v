(** The queue of received broadcasts. *)
From Coq Require Import List NArith Bool Arith Lia Permutation.
From Coq Require Import ZifyBool ZifyNat ZifyN.
From Verif.Model Require Import Receiver.
From Verif.Spec Require Import ReceiverSpec.
Import ListNotations.

(** ** Lists *)
Section Lists.
Context {A : Type}.

Lemma set_nth_split : forall (l : list A) i old x, nth_error l i = Some old ->
  exists a b, l = a ++ old :: b /\ set_nth l i x = a ++ x :: b /\ length a = i.
Proof.
  intros l i old x H. apply nth_error_split in H as (a & b & -> & <-). exists a, b. split; [reflexivity|]. split; [|reflexivity].
  unfold set_nth. rewrite firstn_app, firstn_all, Nat.sub_diag. cbn [firstn]. rewrite app_nil_r. f_equal. f_equal.
  rewrite skipn_app, skipn_all2 by lia. cbn [app]. now replace (S (length a) - length a) with 1 by lia.
Qed.

Lemma set_nth_length : forall (l : list A) i old x, nth_error l i = Some old -> length (set_nth l i x) = length l.
Proof. intros l i old x H. destruct (set_nth_split l i old x H) as (a & b & -> & -> & _). rewrite !app_length. reflexivity. Qed.

Lemma set_nth_in : forall (l : list A) i old x y, nth_error l i = Some old -> In y (set_nth l i x) -> y = x \/ In y l.
Proof.
  intros l i old x y H Hy. destruct (set_nth_split l i old x H) as (a & b & -> & E & _). rewrite E in Hy.
  rewrite in_app_iff in *. cbn in *. intuition auto.
Qed.

Lemma set_nth_keep : forall (l : list A) i old x y, nth_error l i = Some old -> In y l -> y <> old -> In y (set_nth l i x).
Proof.
  intros l i old x y H Hy Hn. destruct (set_nth_split l i old x H) as (a & b & -> & E & _). rewrite E.
  rewrite in_app_iff in *. cbn in *. intuition congruence.
Qed.

Lemma set_nth_new : forall (l : list A) i old x, nth_error l i = Some old -> In x (set_nth l i x).
Proof.
  intros l i old x H. destruct (set_nth_split l i old x H) as (a & b & -> & E & _). rewrite E. apply in_or_app. right. now left.
Qed.

Lemma set_nth_nth : forall (l : list A) i old x j, nth_error l i = Some old ->
  nth_error (set_nth l i x) j = if j =? i then Some x else nth_error l j.
Proof.
  intros l i old x j H. destruct (set_nth_split l i old x H) as (a & b & -> & E & <-). rewrite E. clear E H.
  destruct (Nat.eqb_spec j (length a)) as [->|Hn].
  - rewrite nth_error_app2 by lia. now rewrite Nat.sub_diag.
  - destruct (lt_dec j (length a)) as [Hl|Hl].
    + now rewrite !nth_error_app1 by lia.
    + rewrite !nth_error_app2 by lia. now replace (j - length a) with (S (j - length a - 1)) by lia.
Qed.

Definition count (f : A -> nat) (l : list A) : nat := list_sum (map f l).

Lemma count_app : forall f (a b : list A), count f (a ++ b) = count f a + count f b.
Proof. intros f a b. unfold count. rewrite map_app, list_sum_app. reflexivity. Qed.

Lemma count_set : forall f (l : list A) i old x, nth_error l i = Some old -> count f (set_nth l i x) + f old = count f l + f x.
Proof.
  intros f l i old x H. destruct (set_nth_split l i old x H) as (a & b & -> & -> & _). rewrite !count_app. cbn. lia.
Qed.

Lemma flat_set {B} : forall (f : A -> list B) (l : list A) i old x, nth_error l i = Some old ->
  Permutation (f old ++ flat_map f (set_nth l i x)) (f x ++ flat_map f l).
Proof.
  intros f l i old x H. destruct (set_nth_split l i old x H) as (a & b & -> & -> & _). rewrite !flat_map_app. cbn [flat_map].
  rewrite (Permutation_app_comm (flat_map f a)), (Permutation_app_comm (flat_map f a)).
  rewrite !app_assoc. rewrite (Permutation_app_comm (f old) (f x)). reflexivity.
Qed.

Lemma count_pos : forall f (l : list A) x, In x l -> f x <= count f l.
Proof.
  intros f l x H. apply in_split in H as (a & b & ->). rewrite count_app. cbn. lia.
Qed.

Lemma count_ex : forall f (l : list A), 0 < count f l -> exists x, In x l /\ 0 < f x.
Proof.
  intros f l. induction l as [|a l IH]; [cbn; lia|]. change (count f (a :: l)) with (f a + count f l). intros H. destruct (f a) eqn:E.
  - destruct IH as (x & Hx & Hf); [lia|]. exists x. split; [now right|exact Hf].
  - exists a. split; [now left|lia].
Qed.
End Lists.

Section Receiver.
Context {T : Type}.
Implicit Types (s : rcv T) (c : consumer T).

Definition holds c : list nat := match c with CArrive b | CParked b => [b] | _ => [] end.
Definition tholds (t : task) : list nat := match t with TArrive b | TParked b => [b] | _ => [] end.
Definition callers s : list nat := flat_map holds (rc_consumers s).
Definition offered s : list nat := rc_barriers s ++ flat_map tholds (rc_tasks s).
Definition wait1 c : nat := if waiting c then 1 else 0.
Definition awake c : nat := match c with CTry => 1 | _ => 0 end.
Definition inside c : nat := match c with CEnter | CDone _ | CCancelled => 0 | _ => 1 end.
Definition live (t : task) : nat := match t with TDone => 0 | _ => 1 end.

(** A barrier held by at most one caller is released like a single caller. *)
Lemma wake_none : forall b (l : list (consumer T)), ~ In (CParked b) l -> map (wake_consumer b) l = l.
Proof.
  intros b l. induction l as [|c l IH]; intros H; [reflexivity|]. cbn [map]. rewrite IH by (intros E; apply H; now right). f_equal.
  destruct c; try reflexivity. cbn. destruct (Nat.eqb_spec b0 b) as [->|]; [|reflexivity]. exfalso. apply H. now left.
Qed.

Lemma holds_in : forall b (l : list (consumer T)), In b (flat_map holds l) <-> In (CArrive b) l \/ In (CParked b) l.
Proof.
  intros b l. rewrite in_flat_map. split.
  - intros (c & Hc & Hb). destruct c; cbn in Hb; try contradiction; destruct Hb as [->|[]]; auto.
  - intros [H|H]; eexists; (split; [exact H|now left]).
Qed.

Lemma tholds_in : forall b (l : list task), In b (flat_map tholds l) <-> In (TArrive b) l \/ In (TParked b) l.
Proof.
  intros b l. rewrite in_flat_map. split.
  - intros (c & Hc & Hb). destruct c; cbn in Hb; try contradiction; destruct Hb as [->|[]]; auto.
  - intros [H|H]; eexists; (split; [exact H|now left]).
Qed.

Lemma wake_one : forall b (l : list (consumer T)) i, NoDup (flat_map holds l) -> nth_error l i = Some (CParked b) ->
  map (wake_consumer b) l = set_nth l i CTry.
Proof.
  intros b l i Hd H. destruct (set_nth_split l i _ CTry H) as (a & r & -> & -> & _). rewrite flat_map_app in Hd. cbn [flat_map holds app] in Hd.
  apply NoDup_remove in Hd as [_ Hd]. rewrite in_app_iff in Hd. rewrite map_app. cbn [map wake_consumer]. rewrite Nat.eqb_refl.
  rewrite !wake_none; [reflexivity| |]; intros E; apply Hd; rewrite !holds_in; auto.
Qed.

Lemma twake_none : forall b (l : list task), ~ In (TParked b) l -> map (wake_task b) l = l.
Proof.
  intros b l. induction l as [|c l IH]; intros H; [reflexivity|]. cbn [map]. rewrite IH by (intros E; apply H; now right). f_equal.
  destruct c; try reflexivity. cbn. destruct (Nat.eqb_spec b0 b) as [->|]; [|reflexivity]. exfalso. apply H. now left.
Qed.

Lemma twake_one : forall b (l : list task) i, NoDup (flat_map tholds l) -> nth_error l i = Some (TParked b) ->
  map (wake_task b) l = set_nth l i TDone.
Proof.
  intros b l i Hd H. destruct (set_nth_split l i _ TDone H) as (a & r & -> & -> & _). rewrite flat_map_app in Hd. cbn [flat_map tholds app] in Hd.
  apply NoDup_remove in Hd as [_ Hd]. rewrite in_app_iff in Hd. rewrite map_app. cbn [map wake_task]. rewrite Nat.eqb_refl.
  rewrite !twake_none; [reflexivity| |]; intros E; apply Hd; rewrite !tholds_in; auto.
Qed.

Record rinv (k : nat) s : Prop := mk_rinv
  { ri_fresh : forall b, In b (offered s) \/ In b (rc_arrived s) -> b < rc_next s;
    ri_offered : NoDup (offered s);
    ri_callers : NoDup (callers s);
    ri_sub : incl (callers s) (offered s);
    ri_tp : forall b, In (TParked b) (rc_tasks s) -> In (CArrive b) (rc_consumers s) /\ In b (rc_arrived s);
    ri_cp : forall b, In (CParked b) (rc_consumers s) -> In b (rc_arrived s);
    ri_ca : forall b, In (CArrive b) (rc_consumers s) -> In b (rc_arrived s) -> In (TParked b) (rc_tasks s);
    ri_b : forall b, In b (offered s) -> In b (rc_arrived s) \/ In (CArrive b) (rc_consumers s);
    ri_lock : rc_lock s = count inside (rc_consumers s) + k;
    ri_stale : length (offered s) <= length (callers s) + k;
    ri_wake : 0 < count wait1 (rc_consumers s) ->
      length (rc_data s) + length (offered s)
      <= count live (rc_tasks s) + count awake (rc_consumers s) + k + length (callers s) }.

Lemma rinv_new : rinv 0 (rcv_new T).
Proof.
  split; cbn; try tauto; try (constructor); try lia. intros b [].
Qed.

Lemma has_arrived_spec : forall s b, has_arrived s b = true <-> In b (rc_arrived s).
Proof.
  intros s b. unfold has_arrived. rewrite existsb_exists. split.
  - intros (x & Hx & E). apply Nat.eqb_eq in E. now subst.
  - intros H. exists b. split; [exact H|apply Nat.eqb_refl].
Qed.

(** What a step of a caller or a task does, when the barriers are in order. *)
Inductive moved s : rcv T -> Prop :=
| MIdle : moved s s
| MEnter i : nth_error (rc_consumers s) i = Some CEnter ->
    moved s (mk_rcv (rc_data s) (rc_barriers s) (S (rc_lock s)) (rc_next s) (rc_arrived s)
               (set_nth (rc_consumers s) i CTry) (rc_tasks s) (rc_pushed s) (rc_log s))
| MTake i v rest : nth_error (rc_consumers s) i = Some CTry -> rc_data s = v :: rest ->
    moved s (mk_rcv rest (rc_barriers s) (rc_lock s) (rc_next s) (rc_arrived s)
               (set_nth (rc_consumers s) i (CGot v)) (rc_tasks s) (rc_pushed s) (rc_log s ++ [(i, v)]))
| MEmpty i : nth_error (rc_consumers s) i = Some CTry -> rc_data s = [] ->
    moved s (mk_rcv (rc_data s) (rc_barriers s) (rc_lock s) (rc_next s) (rc_arrived s)
               (set_nth (rc_consumers s) i CPark) (rc_tasks s) (rc_pushed s) (rc_log s))
| MLeave i v : nth_error (rc_consumers s) i = Some (CGot v) ->
    moved s (mk_rcv (rc_data s) (rc_barriers s) (pred (rc_lock s)) (rc_next s) (rc_arrived s)
               (set_nth (rc_consumers s) i (CDone v)) (rc_tasks s) (rc_pushed s) (rc_log s))
| MPark i : nth_error (rc_consumers s) i = Some CPark ->
    moved s (mk_rcv (rc_data s) (rc_barriers s ++ [rc_next s]) (rc_lock s) (S (rc_next s)) (rc_arrived s)
               (set_nth (rc_consumers s) i (CArrive (rc_next s))) (rc_tasks s) (rc_pushed s) (rc_log s))
| MFirst i b : nth_error (rc_consumers s) i = Some (CArrive b) -> ~ In b (rc_arrived s) ->
    moved s (mk_rcv (rc_data s) (rc_barriers s) (rc_lock s) (rc_next s) (b :: rc_arrived s)
               (set_nth (rc_consumers s) i (CParked b)) (rc_tasks s) (rc_pushed s) (rc_log s))
| MSecond i j b : nth_error (rc_consumers s) i = Some (CArrive b) -> nth_error (rc_tasks s) j = Some (TParked b) ->
    moved s (mk_rcv (rc_data s) (rc_barriers s) (rc_lock s) (rc_next s) (rc_arrived s)
               (set_nth (rc_consumers s) i CTry) (set_nth (rc_tasks s) j TDone) (rc_pushed s) (rc_log s))
| MExit j : nth_error (rc_tasks s) j = Some TCheck -> rc_lock s = 0 ->
    moved s (mk_rcv (rc_data s) (rc_barriers s) (rc_lock s) (rc_next s) (rc_arrived s)
               (rc_consumers s) (set_nth (rc_tasks s) j TDone) (rc_pushed s) (rc_log s))
| MCheck j : nth_error (rc_tasks s) j = Some TCheck -> rc_lock s <> 0 ->
    moved s (mk_rcv (rc_data s) (rc_barriers s) (rc_lock s) (rc_next s) (rc_arrived s)
               (rc_consumers s) (set_nth (rc_tasks s) j TTry) (rc_pushed s) (rc_log s))
| MYield j : nth_error (rc_tasks s) j = Some TTry -> rc_barriers s = [] ->
    moved s (mk_rcv (rc_data s) (rc_barriers s) (rc_lock s) (rc_next s) (rc_arrived s)
               (rc_consumers s) (set_nth (rc_tasks s) j TCheck) (rc_pushed s) (rc_log s))
| MPop j b rest : nth_error (rc_tasks s) j = Some TTry -> rc_barriers s = b :: rest ->
    moved s (mk_rcv (rc_data s) rest (rc_lock s) (rc_next s) (rc_arrived s)
               (rc_consumers s) (set_nth (rc_tasks s) j (TArrive b)) (rc_pushed s) (rc_log s))
| MTFirst j b : nth_error (rc_tasks s) j = Some (TArrive b) -> ~ In b (rc_arrived s) ->
    moved s (mk_rcv (rc_data s) (rc_barriers s) (rc_lock s) (rc_next s) (b :: rc_arrived s)
               (rc_consumers s) (set_nth (rc_tasks s) j (TParked b)) (rc_pushed s) (rc_log s))
| MTSecond i j b : nth_error (rc_tasks s) j = Some (TArrive b) -> nth_error (rc_consumers s) i = Some (CParked b) ->
    moved s (mk_rcv (rc_data s) (rc_barriers s) (rc_lock s) (rc_next s) (rc_arrived s)
               (set_nth (rc_consumers s) i CTry) (set_nth (rc_tasks s) j TDone) (rc_pushed s) (rc_log s))
| MTStale j b : nth_error (rc_tasks s) j = Some (TArrive b) -> In b (rc_arrived s) -> ~ In b (callers s) ->
    moved s (mk_rcv (rc_data s) (rc_barriers s) (rc_lock s) (rc_next s) (rc_arrived s)
               (rc_consumers s) (set_nth (rc_tasks s) j TDone) (rc_pushed s) (rc_log s)).

Lemma NoDup_app_r : forall {A} (a b : list A), NoDup (a ++ b) -> NoDup b.
Proof. intros A a. induction a as [|x a IH]; intros b H; [exact H|]. inversion H; auto. Qed.

Lemma consumer_moved : forall k s i, rinv k s -> moved s (consumer_step s i).
Proof.
  intros k s i H. unfold consumer_step. destruct (nth_error (rc_consumers s) i) as [[| |v| |b|b|v|]|] eqn:E; try apply MIdle.
  - exact (MEnter s i E).
  - destruct (rc_data s) as [|v rest] eqn:Ed; [|exact (MTake s i v rest E Ed)]. exact (MEmpty s i E Ed).
  - exact (MLeave s i v E).
  - exact (MPark s i E).
  - destruct (has_arrived s b) eqn:Ea.
    + apply has_arrived_spec in Ea. pose proof (ri_ca _ _ H b (nth_error_In _ _ E) Ea) as Ht.
      apply In_nth_error in Ht as [j Hj]. unfold release, put_consumer. cbn [rc_data rc_barriers rc_lock rc_next rc_arrived rc_consumers rc_tasks rc_pushed rc_log].
      rewrite (twake_one b _ j (NoDup_app_r _ _ (ri_offered _ _ H)) Hj).
      rewrite wake_none; [exact (MSecond s i j b E Hj)|].
      intros Hc. destruct (set_nth_in _ _ _ _ _ E Hc) as [Hx|Hx]; [discriminate Hx|].
      pose proof (ri_callers _ _ H) as Hd. unfold callers in Hd. destruct (set_nth_split _ _ _ CTry E) as (a & r & E1 & _ & _).
      rewrite E1, flat_map_app in Hd. cbn [flat_map holds app] in Hd. apply NoDup_remove in Hd as [_ Hd]. apply Hd.
      rewrite <- flat_map_app. apply holds_in. right. rewrite E1 in Hx. apply in_app_or in Hx as [Hx|[Hx|Hx]]; [|discriminate Hx|]; apply in_or_app; auto.
    + apply (MFirst s i b E). intros Hi. apply has_arrived_spec in Hi. congruence.
Qed.

Lemma task_moved : forall k s j, rinv k s -> moved s (task_step s j).
Proof.
  intros k s j H. unfold task_step. destruct (nth_error (rc_tasks s) j) as [[| |b|b|]|] eqn:E; try apply MIdle.
  - unfold put_task. destruct (Nat.eqb_spec (rc_lock s) 0); [exact (MExit s j E e)|exact (MCheck s j E n)].
  - destruct (rc_barriers s) as [|b rest] eqn:Eb; [|exact (MPop s j b rest E Eb)]. exact (MYield s j E Eb).
  - destruct (has_arrived s b) eqn:Ea.
    + apply has_arrived_spec in Ea. unfold release, put_task. cbn [rc_data rc_barriers rc_lock rc_next rc_arrived rc_consumers rc_tasks rc_pushed rc_log].
      assert (Hnp : ~ In (TParked b) (rc_tasks s)).
      { intros Hx. pose proof (NoDup_app_r _ _ (ri_offered _ _ H)) as Hd. destruct (set_nth_split _ _ _ TDone E) as (a & r & E1 & _ & _).
        rewrite E1, flat_map_app in Hd. cbn [flat_map tholds app] in Hd. apply NoDup_remove in Hd as [_ Hd]. apply Hd.
        rewrite <- flat_map_app. apply tholds_in. right. rewrite E1 in Hx. apply in_app_or in Hx as [Hx|[Hx|Hx]]; [|discriminate Hx|]; apply in_or_app; auto. }
      rewrite twake_none.
      2:{ intros Hc. destruct (set_nth_in _ _ _ _ _ E Hc) as [Hx|Hx]; [discriminate Hx|auto]. }
      destruct (in_dec Nat.eq_dec b (callers s)) as [Hc|Hc].
      * apply holds_in in Hc as [Hc|Hc]; [exfalso; exact (Hnp (ri_ca _ _ H b Hc Ea))|].
        apply In_nth_error in Hc as [i Hi]. rewrite (wake_one b _ i (ri_callers _ _ H) Hi). exact (MTSecond s i j b E Hi).
      * rewrite wake_none; [exact (MTStale s j b E Ea Hc)|]. intros Hx. apply Hc. apply holds_in. auto.
    + apply (MTFirst s j b E). intros Hi. apply has_arrived_spec in Hi. congruence.
Qed.

Ltac counts E new :=
  pose proof (count_set inside _ _ _ new E); pose proof (count_set wait1 _ _ _ new E); pose proof (count_set awake _ _ _ new E);
  pose proof (flat_set holds _ _ _ new E) as Hperm; cbn [inside wait1 waiting awake holds app] in *.
Ltac tcounts E new :=
  pose proof (count_set live _ _ _ new E); pose proof (flat_set tholds _ _ _ new E) as Htperm; cbn [live tholds app] in *.
Ltac was E H := let H' := fresh "Heq" in destruct (set_nth_in _ _ _ _ _ E H) as [H'|H']; clear H; [try discriminate H'|rename H' into H].

(** A caller moves without touching its barrier. *)
Lemma same_barriers : forall k s i old new lock data arrived log,
  rinv k s -> nth_error (rc_consumers s) i = Some old -> holds old = holds new ->
  (forall b, In (CArrive b) (set_nth (rc_consumers s) i new) -> In (CArrive b) (rc_consumers s)) ->
  (forall b, In (CArrive b) (rc_consumers s) -> In (CArrive b) (set_nth (rc_consumers s) i new) \/ In b arrived /\ ~ In (TParked b) (rc_tasks s)) ->
  (forall b, In (CParked b) (set_nth (rc_consumers s) i new) -> In b arrived) ->
  incl (rc_arrived s) arrived ->
  (forall b, In b arrived -> In b (rc_arrived s) \/ b < rc_next s /\ ~ In (CArrive b) (set_nth (rc_consumers s) i new)) ->
  lock = count inside (set_nth (rc_consumers s) i new) + k ->
  (0 < count wait1 (set_nth (rc_consumers s) i new) ->
      length data + length (offered s)
      <= count live (rc_tasks s) + count awake (set_nth (rc_consumers s) i new) + k + length (callers s)) ->
  rinv k (mk_rcv data (rc_barriers s) lock (rc_next s) arrived (set_nth (rc_consumers s) i new) (rc_tasks s) (rc_pushed s) log).
Proof.
  intros k s i old new lock data arrived log H E Hh Hca Hca' Hcp Ha Ha' Hl Hw.
  pose proof (flat_set holds _ _ _ new E) as Hp. rewrite Hh in Hp. apply Permutation_app_inv_l in Hp.
  split; cbn [rc_data rc_barriers rc_lock rc_next rc_arrived rc_consumers rc_tasks rc_pushed rc_log offered callers].
  - intros b [Hb|Hb]; [apply (ri_fresh _ _ H); now left|]. destruct (Ha' b Hb) as [Hx|[Hx _]]; [|exact Hx]. apply (ri_fresh _ _ H). now right.
  - apply (ri_offered _ _ H).
  - unfold callers. cbn. eapply Permutation_NoDup; [symmetry; exact Hp|apply (ri_callers _ _ H)].
  - intros b Hb. apply (ri_sub _ _ H). eapply Permutation_in; [exact Hp|exact Hb].
  - intros b Hb. destruct (ri_tp _ _ H b Hb) as [H1 H2]. split; [|now apply Ha].
    destruct (Hca' b H1) as [Hx|[_ Hx]]; [exact Hx|contradiction].
  - exact Hcp.
  - intros b Hb Hab. destruct (Ha' b Hab) as [Hx|[_ Hx]]; [|contradiction]. apply (ri_ca _ _ H b); [now apply Hca|exact Hx].
  - intros b Hb. destruct (ri_b _ _ H b Hb) as [Hx|Hx]; [left; now apply Ha|]. destruct (Hca' b Hx) as [Hy|[Hy _]]; auto.
  - exact Hl.
  - unfold callers. cbn. rewrite (Permutation_length Hp). apply (ri_stale _ _ H).
  - intros Hx. unfold callers. cbn. rewrite (Permutation_length Hp). unfold offered. cbn. now apply Hw.
Qed.

Lemma same_arrive : forall s i old new, nth_error (rc_consumers s) i = Some old ->
  (forall b, old <> CArrive b) -> (forall b, new <> CArrive b) ->
  (forall b, In (CArrive b) (set_nth (rc_consumers s) i new) <-> In (CArrive b) (rc_consumers s)).
Proof.
  intros s i old new E H1 H2 b. split; intros H.
  - was E H; [exfalso; exact (H2 b (eq_sym Heq))|exact H].
  - eapply set_nth_keep; [exact E|exact H|]. intros Hx. exact (H1 b (eq_sym Hx)).
Qed.

Lemma rinv_moved : forall k s s', rinv k s -> moved s s' -> rinv k s'.
Proof.
  intros k s s' H Hm.
  assert (Hquiet : forall i old new lock data log, nth_error (rc_consumers s) i = Some old ->
    holds old = [] -> holds new = [] -> lock = count inside (set_nth (rc_consumers s) i new) + k ->
    (0 < count wait1 (set_nth (rc_consumers s) i new) ->
      length data + length (offered s)
      <= count live (rc_tasks s) + count awake (set_nth (rc_consumers s) i new) + k + length (callers s)) ->
    rinv k (mk_rcv data (rc_barriers s) lock (rc_next s) (rc_arrived s) (set_nth (rc_consumers s) i new) (rc_tasks s) (rc_pushed s) log)).
  { intros i old new lock data log E Ho Hn Hl Hw.
    assert (Hsa : forall b, In (CArrive b) (set_nth (rc_consumers s) i new) <-> In (CArrive b) (rc_consumers s)).
    { apply (same_arrive s i old new E); intros b ->; discriminate. }
    apply (same_barriers k s i old new); try assumption; try congruence.
    - intros b. apply Hsa.
    - intros b Hb. left. now apply Hsa.
    - intros b Hb. was E Hb; [subst new; discriminate Hn|]. now apply (ri_cp _ _ H).
    - intros b Hb. now left. }
  pose proof (ri_lock _ _ H) as Hl. pose proof (ri_stale _ _ H) as Hst. pose proof (ri_wake _ _ H) as Hw.
  assert (Hwork : forall j old new, nth_error (rc_tasks s) j = Some old -> tholds old = tholds new -> live old = live new ->
    (forall b, old <> TParked b) -> (forall b, new <> TParked b) ->
    rinv k (mk_rcv (rc_data s) (rc_barriers s) (rc_lock s) (rc_next s) (rc_arrived s) (rc_consumers s) (set_nth (rc_tasks s) j new) (rc_pushed s) (rc_log s))).
  { intros j old new E Hh Hli Ho Hn. pose proof (flat_set tholds _ _ _ new E) as Hp. rewrite Hh in Hp. apply Permutation_app_inv_l in Hp.
    pose proof (count_set live _ _ _ new E) as Hc.
    assert (Hof : Permutation (rc_barriers s ++ flat_map tholds (set_nth (rc_tasks s) j new)) (offered s)) by (apply Permutation_app_head; exact Hp).
    split; unfold offered, callers in *; cbn [rc_data rc_barriers rc_lock rc_next rc_arrived rc_consumers rc_tasks rc_pushed rc_log].
    - intros b [Hb|Hb]; apply (ri_fresh _ _ H); [left|now right]. eapply Permutation_in; [exact Hof|exact Hb].
    - eapply Permutation_NoDup; [symmetry; exact Hof|apply (ri_offered _ _ H)].
    - apply (ri_callers _ _ H).
    - intros b Hb. eapply Permutation_in; [symmetry; exact Hof|]. now apply (ri_sub _ _ H).
    - intros b Hb. was E Hb; [exfalso; exact (Hn b (eq_sym Heq))|]. now apply (ri_tp _ _ H).
    - apply (ri_cp _ _ H).
    - intros b Hb Hab. eapply set_nth_keep; [exact E|now apply (ri_ca _ _ H)|]. intros Hx. exact (Ho b (eq_sym Hx)).
    - intros b Hb. apply (ri_b _ _ H). eapply Permutation_in; [exact Hof|exact Hb].
    - exact Hl.
    - rewrite (Permutation_length Hof). exact Hst.
    - intros Hx. rewrite (Permutation_length Hof). specialize (Hw Hx). unfold offered in Hw. lia. }
  (* the arrival of both sides at [b] *)
  assert (Hboth : forall i j b oldc oldt, nth_error (rc_consumers s) i = Some oldc -> nth_error (rc_tasks s) j = Some oldt ->
    (oldc = CArrive b /\ oldt = TParked b \/ oldc = CParked b /\ oldt = TArrive b) ->
    rinv k (mk_rcv (rc_data s) (rc_barriers s) (rc_lock s) (rc_next s) (rc_arrived s)
               (set_nth (rc_consumers s) i CTry) (set_nth (rc_tasks s) j TDone) (rc_pushed s) (rc_log s))).
  { intros i j b oldc oldt Ei Ej Hor. counts Ei (@CTry T). tcounts Ej TDone.
    assert (Hp : Permutation (b :: flat_map holds (set_nth (rc_consumers s) i CTry)) (callers s)) by (destruct Hor as [[-> ->]|[-> ->]]; exact Hperm).
    assert (Htp : Permutation (b :: flat_map tholds (set_nth (rc_tasks s) j TDone)) (flat_map tholds (rc_tasks s))) by (destruct Hor as [[-> ->]|[-> ->]]; exact Htperm).
    assert (Hof : Permutation (b :: rc_barriers s ++ flat_map tholds (set_nth (rc_tasks s) j TDone)) (offered s)).
    { rewrite Permutation_middle. apply Permutation_app_head. exact Htp. }
    assert (HdL : NoDup (b :: flat_map holds (set_nth (rc_consumers s) i CTry))).
    { eapply Permutation_NoDup; [symmetry; exact Hp|apply (ri_callers _ _ H)]. }
    assert (HdB : NoDup (b :: rc_barriers s ++ flat_map tholds (set_nth (rc_tasks s) j TDone))).
    { eapply Permutation_NoDup; [symmetry; exact Hof|apply (ri_offered _ _ H)]. }
    pose proof (Permutation_length Hp) as Hlp. pose proof (Permutation_length Hof) as Hlo. cbn [length] in Hlp, Hlo.
    assert (Hnb : forall b', In (CArrive b') (set_nth (rc_consumers s) i CTry) -> b' <> b).
    { intros b' Hb ->. apply NoDup_cons_iff in HdL as [HdL _]. apply HdL. apply holds_in. now left. }
    assert (Hntb : forall b', In (TParked b') (set_nth (rc_tasks s) j TDone) -> b' <> b).
    { intros b' Hb ->. apply NoDup_cons_iff in HdB as [HdB _]. apply HdB. apply in_or_app. right. apply tholds_in. now right. }
    assert (Hkeep : forall b', b' <> b -> In (CArrive b') (rc_consumers s) -> In (CArrive b') (set_nth (rc_consumers s) i CTry)).
    { intros b' Hn Hb. eapply set_nth_keep; [exact Ei|exact Hb|]. destruct Hor as [[-> _]|[-> _]]; congruence. }
    split; unfold offered, callers in *; cbn [rc_data rc_barriers rc_lock rc_next rc_arrived rc_consumers rc_tasks rc_pushed rc_log].
    - intros b' [Hb|Hb]; apply (ri_fresh _ _ H); [left|now right]. eapply Permutation_in; [exact Hof|now right].
    - now apply NoDup_cons_iff in HdB.
    - now apply NoDup_cons_iff in HdL.
    - intros b' Hb. assert (Hi : In b' (rc_barriers s ++ flat_map tholds (rc_tasks s))) by (apply (ri_sub _ _ H); eapply Permutation_in; [exact Hp|now right]).
      apply (Permutation_in b' (Permutation_sym Hof)) in Hi as [<-|Hi]; [|exact Hi]. apply NoDup_cons_iff in HdL as [HdL _]; contradiction.
    - intros b' Hb. pose proof (Hntb b' Hb) as Hne. was Ej Hb. destruct (ri_tp _ _ H b' Hb) as [Hx Hy]. auto.
    - intros b' Hb. was Ei Hb. now apply (ri_cp _ _ H).
    - intros b' Hb Hab. pose proof (Hnb b' Hb) as Hne. was Ei Hb. eapply set_nth_keep; [exact Ej|now apply (ri_ca _ _ H)|].
      destruct Hor as [[_ ->]|[_ ->]]; congruence.
    - intros b' Hb. assert (Hne : b' <> b) by (intros ->; apply NoDup_cons_iff in HdB as [HdB _]; contradiction).
      destruct (ri_b _ _ H b') as [Hx|Hx]; [eapply Permutation_in; [exact Hof|now right]|now left|]. right. auto.
    - destruct Hor as [[-> ->]|[-> ->]]; cbn [inside] in *; lia.
    - lia.
    - intros _. assert (Hx : 0 < count wait1 (rc_consumers s)).
      { destruct Hor as [[-> ->]|[-> ->]]; (eapply Nat.lt_le_trans; [|apply (count_pos wait1 _ _ (nth_error_In _ _ Ei))]); cbn; lia. }
      specialize (Hw Hx). destruct Hor as [[-> ->]|[-> ->]]; cbn [awake live] in *; lia. }
  destruct Hm as [|i E|i v rest E Ed|i E Ed|i v E|i E|i b E Ha|i j b E Et|j E Hl0|j E Hl0|j E Eb|j b rest E Eb|j b E Ha|i j b E Ec|j b E Ha Hc].
  - exact H.
  - counts E (@CTry T). apply (Hquiet i CEnter); try reflexivity; [exact E|lia|]. intros Hx. specialize (Hw ltac:(lia)). lia.
  - counts E (CGot v). apply (Hquiet i CTry); try reflexivity; [exact E|lia|]. intros Hx. specialize (Hw ltac:(lia)). rewrite Ed in Hw. cbn [length] in Hw. lia.
  - counts E (@CPark T). apply (Hquiet i CTry); try reflexivity; [exact E|lia|]. intros _. rewrite Ed. cbn [length]. lia.
  - counts E (CDone v). apply (Hquiet i (CGot v)); try reflexivity; [exact E|lia|]. intros Hx. specialize (Hw ltac:(lia)). lia.
  - (* a new barrier *)
    counts E (CArrive (T:=T) (rc_next s)).
    assert (Hfr : ~ In (rc_next s) (offered s)) by (intros Hx; pose proof (ri_fresh _ _ H _ (or_introl Hx)); lia).
    assert (Hfa : ~ In (rc_next s) (rc_arrived s)) by (intros Hx; pose proof (ri_fresh _ _ H _ (or_intror Hx)); lia).
    assert (Hof : Permutation (rc_next s :: offered s) ((rc_barriers s ++ [rc_next s]) ++ flat_map tholds (rc_tasks s))).
    { unfold offered. rewrite <- app_assoc. cbn [app]. apply Permutation_middle. }
    pose proof (Permutation_length Hperm) as Hlp. pose proof (Permutation_length Hof) as Hlo. cbn [length] in Hlp, Hlo.
    split; unfold offered, callers in *; cbn [rc_data rc_barriers rc_lock rc_next rc_arrived rc_consumers rc_tasks rc_pushed rc_log].
    + intros b [Hb|Hb].
      * apply (Permutation_in _ (Permutation_sym Hof)) in Hb as [<-|Hb]; [lia|]. pose proof (ri_fresh _ _ H b (or_introl Hb)). lia.
      * pose proof (ri_fresh _ _ H b (or_intror Hb)). lia.
    + eapply Permutation_NoDup; [exact Hof|]. constructor; [exact Hfr|apply (ri_offered _ _ H)].
    + eapply Permutation_NoDup; [symmetry; exact Hperm|]. constructor; [|apply (ri_callers _ _ H)]. intros Hx. apply Hfr. now apply (ri_sub _ _ H).
    + intros b Hb. apply (Permutation_in _ Hperm) in Hb. apply (Permutation_in _ Hof). destruct Hb as [<-|Hb]; [now left|right]. now apply (ri_sub _ _ H).
    + intros b Hb. destruct (ri_tp _ _ H b Hb) as [Hx Hy]. split; [|exact Hy]. eapply set_nth_keep; [exact E|exact Hx|discriminate].
    + intros b Hb. was E Hb. now apply (ri_cp _ _ H).
    + intros b Hb Hab. was E Hb; [injection Heq as ->; contradiction|]. now apply (ri_ca _ _ H).
    + intros b Hb. apply (Permutation_in _ (Permutation_sym Hof)) in Hb as [<-|Hb].
      * right. eapply set_nth_new. exact E.
      * destruct (ri_b _ _ H b Hb) as [Hx|Hx]; [now left|right]. eapply set_nth_keep; [exact E|exact Hx|discriminate].
    + lia.
    + lia.
    + intros Hx. specialize (Hw ltac:(lia)). lia.
  - (* the caller arrives first *)
    counts E (CParked (T:=T) b).
    assert (HinL : In b (callers s)) by (apply holds_in; left; eapply nth_error_In, E).
    assert (Hone : ~ In (CArrive b) (set_nth (rc_consumers s) i (CParked b))).
    { pose proof (ri_callers _ _ H) as Hd. unfold callers in Hd. destruct (set_nth_split _ _ _ (CParked (T:=T) b) E) as (a & r & E1 & E2 & _).
      rewrite E1, flat_map_app in Hd. cbn [flat_map holds app] in Hd. apply NoDup_remove in Hd as [_ Hd].
      intros Hx. apply Hd. rewrite <- flat_map_app. apply holds_in. left. rewrite E2 in Hx. apply in_app_or in Hx as [Hx|[Hx|Hx]]; [|discriminate Hx|]; apply in_or_app; auto. }
    assert (Hnt : ~ In (TParked b) (rc_tasks s)).
    { intros Hx. destruct (ri_tp _ _ H b Hx) as [_ Hy]. contradiction. }
    apply (same_barriers k s i (CArrive b)); try assumption; try reflexivity.
    + intros b' Hb. was E Hb. exact Hb.
    + intros b' Hb. destruct (Nat.eq_dec b' b) as [->|Hne]; [right; split; [now left|exact Hnt]|left].
      eapply set_nth_keep; [exact E|exact Hb|congruence].
    + intros b' Hb. was E Hb; [injection Heq as ->; now left|]. right. now apply (ri_cp _ _ H).
    + intros b' Hb. now right.
    + intros b' [<-|Hb]; [right|now left]. split; [|exact Hone]. apply (ri_fresh _ _ H). left. now apply (ri_sub _ _ H).
    + lia.
    + intros Hx. specialize (Hw ltac:(lia)). lia.
  - apply (Hboth i j b (CArrive b) (TParked b) E Et). auto.
  - (* no caller: the task ends *)
    tcounts E TDone.
    assert (Hnw : count wait1 (rc_consumers s) = 0).
    { assert (Hle : forall l : list (consumer T), count wait1 l <= count inside l).
      { intros l. induction l as [|c l IH]; [cbn; lia|]. change (wait1 c + count wait1 l <= inside c + count inside l).
        assert (wait1 c <= inside c) by (destruct c; cbn; lia). lia. }
      specialize (Hle (rc_consumers s)). lia. }
    assert (Hof : Permutation (rc_barriers s ++ flat_map tholds (set_nth (rc_tasks s) j TDone)) (offered s)) by (apply Permutation_app_head; exact Htperm).
    split; unfold offered, callers in *; cbn [rc_data rc_barriers rc_lock rc_next rc_arrived rc_consumers rc_tasks rc_pushed rc_log].
    + intros b [Hb|Hb]; apply (ri_fresh _ _ H); [left|now right]. eapply Permutation_in; [exact Hof|exact Hb].
    + eapply Permutation_NoDup; [symmetry; exact Hof|apply (ri_offered _ _ H)].
    + apply (ri_callers _ _ H).
    + intros b Hb. eapply Permutation_in; [symmetry; exact Hof|]. now apply (ri_sub _ _ H).
    + intros b Hb. was E Hb. now apply (ri_tp _ _ H).
    + apply (ri_cp _ _ H).
    + intros b Hb Hab. eapply set_nth_keep; [exact E|now apply (ri_ca _ _ H)|discriminate].
    + intros b Hb. apply (ri_b _ _ H). eapply Permutation_in; [exact Hof|exact Hb].
    + exact Hl.
    + rewrite (Permutation_length Hof). exact Hst.
    + intros Hx. lia.
  - apply (Hwork j TCheck TTry E); try reflexivity; discriminate.
  - apply (Hwork j TTry TCheck E); try reflexivity; discriminate.
  - (* a barrier goes to a task *)
    tcounts E (TArrive b).
    assert (Hof : Permutation (rest ++ flat_map tholds (set_nth (rc_tasks s) j (TArrive b))) (offered s)).
    { unfold offered. rewrite Eb, Htperm. rewrite <- Permutation_middle. reflexivity. }
    split; unfold offered, callers in *; cbn [rc_data rc_barriers rc_lock rc_next rc_arrived rc_consumers rc_tasks rc_pushed rc_log].
    + intros b' [Hb|Hb]; apply (ri_fresh _ _ H); [left|now right]. eapply Permutation_in; [exact Hof|exact Hb].
    + eapply Permutation_NoDup; [symmetry; exact Hof|apply (ri_offered _ _ H)].
    + apply (ri_callers _ _ H).
    + intros b' Hb. eapply Permutation_in; [symmetry; exact Hof|]. now apply (ri_sub _ _ H).
    + intros b' Hb. was E Hb. now apply (ri_tp _ _ H).
    + apply (ri_cp _ _ H).
    + intros b' Hb Hab. eapply set_nth_keep; [exact E|now apply (ri_ca _ _ H)|discriminate].
    + intros b' Hb. apply (ri_b _ _ H). eapply Permutation_in; [exact Hof|exact Hb].
    + exact Hl.
    + rewrite (Permutation_length Hof). exact Hst.
    + intros Hx. rewrite (Permutation_length Hof). specialize (Hw Hx). unfold offered in Hw. lia.
  - (* the task arrives first *)
    tcounts E (TParked b). apply (Permutation_app_inv_l [b]) in Htperm.
    assert (Hof : Permutation (rc_barriers s ++ flat_map tholds (set_nth (rc_tasks s) j (TParked b))) (offered s)) by (apply Permutation_app_head; exact Htperm).
    assert (Hb0 : In b (offered s)).
    { unfold offered. apply in_or_app. right. apply tholds_in. left. eapply nth_error_In, E. }
    split; unfold offered, callers in *; cbn [rc_data rc_barriers rc_lock rc_next rc_arrived rc_consumers rc_tasks rc_pushed rc_log].
    + intros b' [Hb|[<-|Hb]]; apply (ri_fresh _ _ H); [left|left; exact Hb0|now right]. eapply Permutation_in; [exact Hof|exact Hb].
    + eapply Permutation_NoDup; [symmetry; exact Hof|apply (ri_offered _ _ H)].
    + apply (ri_callers _ _ H).
    + intros b' Hb. eapply Permutation_in; [symmetry; exact Hof|]. now apply (ri_sub _ _ H).
    + intros b' Hb. was E Hb.
      * injection Heq as ->. split; [|now left]. destruct (ri_b _ _ H b Hb0) as [Hx|Hx]; [contradiction|exact Hx].
      * destruct (ri_tp _ _ H b' Hb) as [Hx Hy]. split; [exact Hx|now right].
    + intros b' Hb. right. now apply (ri_cp _ _ H).
    + intros b' Hb [<-|Hab]; [eapply set_nth_new; exact E|]. eapply set_nth_keep; [exact E|now apply (ri_ca _ _ H)|discriminate].
    + intros b' Hb. destruct (ri_b _ _ H b') as [Hx|Hx]; [eapply Permutation_in; [exact Hof|exact Hb]|left; now right|now right].
    + exact Hl.
    + rewrite (Permutation_length Hof). exact Hst.
    + intros Hx. rewrite (Permutation_length Hof). specialize (Hw Hx). unfold offered in Hw. lia.
  - apply (Hboth i j b (CParked b) (TArrive b) Ec E). auto.
  - (* the caller of this barrier is gone *)
    tcounts E TDone.
    assert (Hof : Permutation (b :: rc_barriers s ++ flat_map tholds (set_nth (rc_tasks s) j TDone)) (offered s)).
    { rewrite Permutation_middle. apply Permutation_app_head. exact Htperm. }
    pose proof (Permutation_length Hof) as Hlo. cbn [length] in Hlo.
    assert (HdB : NoDup (b :: rc_barriers s ++ flat_map tholds (set_nth (rc_tasks s) j TDone))).
    { eapply Permutation_NoDup; [symmetry; exact Hof|apply (ri_offered _ _ H)]. }
    split; unfold offered, callers in *; cbn [rc_data rc_barriers rc_lock rc_next rc_arrived rc_consumers rc_tasks rc_pushed rc_log].
    + intros b' [Hb|Hb]; apply (ri_fresh _ _ H); [left|now right]. eapply Permutation_in; [exact Hof|now right].
    + now apply NoDup_cons_iff in HdB.
    + apply (ri_callers _ _ H).
    + intros b' Hb. pose proof (ri_sub _ _ H b' Hb) as Hi. apply (Permutation_in b' (Permutation_sym Hof)) in Hi as [<-|Hi]; [contradiction|exact Hi].
    + intros b' Hb. was E Hb. now apply (ri_tp _ _ H).
    + apply (ri_cp _ _ H).
    + intros b' Hb Hab. eapply set_nth_keep; [exact E|now apply (ri_ca _ _ H)|discriminate].
    + intros b' Hb. apply (ri_b _ _ H). eapply Permutation_in; [exact Hof|now right].
    + exact Hl.
    + lia.
    + intros Hx. specialize (Hw Hx). lia.
Qed.

Lemma count_wait_waits : forall l : list (consumer T), 0 < count wait1 l <-> exists c, In c l /\ waiting c = true.
Proof.
  intros l. split.
  - intros H. apply count_ex in H as (c & Hc & Hx). exists c. split; [exact Hc|]. unfold wait1 in Hx. destruct (waiting c); [reflexivity|lia].
  - intros (c & Hc & Hx). eapply Nat.lt_le_trans; [|exact (count_pos wait1 _ _ Hc)]. unfold wait1. rewrite Hx. lia.
Qed.

Lemma rinv_cancel : forall k s i b, rinv k s -> nth_error (rc_consumers s) i = Some (CParked b) ->
  rinv (S k) (put_consumer s i CCancelled).
Proof.
  intros k s i b H E. counts E (@CCancelled T).
  assert (Hsa : forall b', In (CArrive b') (set_nth (rc_consumers s) i CCancelled) <-> In (CArrive b') (rc_consumers s)).
  { apply (same_arrive s i (CParked b) CCancelled E); discriminate. }
  pose proof (Permutation_length Hperm) as Hlp. cbn [length] in Hlp.
  pose proof (ri_lock _ _ H) as Hl. pose proof (ri_stale _ _ H) as Hst. pose proof (ri_wake _ _ H) as Hw.
  unfold put_consumer.
  split; unfold offered, callers in *; cbn [rc_data rc_barriers rc_lock rc_next rc_arrived rc_consumers rc_tasks rc_pushed rc_log].
  - apply (ri_fresh _ _ H).
  - apply (ri_offered _ _ H).
  - assert (Hd : NoDup (b :: flat_map holds (set_nth (rc_consumers s) i CCancelled))) by (eapply Permutation_NoDup; [symmetry; exact Hperm|apply (ri_callers _ _ H)]).
    now apply NoDup_cons_iff in Hd.
  - intros b' Hb. apply (ri_sub _ _ H). eapply Permutation_in; [exact Hperm|now right].
  - intros b' Hb. rewrite Hsa. now apply (ri_tp _ _ H).
  - intros b' Hb. was E Hb. now apply (ri_cp _ _ H).
  - intros b' Hb. rewrite Hsa in Hb. now apply (ri_ca _ _ H).
  - intros b' Hb. rewrite Hsa. now apply (ri_b _ _ H).
  - lia.
  - lia.
  - intros Hx. specialize (Hw ltac:(lia)). lia.
Qed.

Lemma rinv_push : forall k s v, rinv k s -> rinv k (rcv_step s (RPush v)).
Proof.
  intros k s v [H1 H2 H3 H4 H5 H6 H7 H8 H9 H10 H11].
  assert (Ht : flat_map tholds (rc_tasks s ++ [TCheck]) = flat_map tholds (rc_tasks s)) by (rewrite flat_map_app; cbn; apply app_nil_r).
  assert (Hin : forall b, In (TParked b) (rc_tasks s ++ [TCheck]) <-> In (TParked b) (rc_tasks s)).
  { intros b. rewrite in_app_iff. cbn. split; [intros [Hx|[Hx|[]]]; [exact Hx|discriminate Hx]|auto]. }
  split; unfold rcv_step, offered, callers in *; cbn [rc_data rc_barriers rc_lock rc_next rc_arrived rc_consumers rc_tasks rc_pushed rc_log];
    rewrite ?Ht; try assumption.
  - intros b. rewrite Hin. apply H5.
  - intros b. rewrite Hin. apply H7.
  - intros Hx. specialize (H11 Hx). rewrite app_length, count_app. cbn. lia.
Qed.

Lemma rinv_pop : forall k s, rinv k s -> rinv k (rcv_step s RPop).
Proof.
  intros k s [H1 H2 H3 H4 H5 H6 H7 H8 H9 H10 H11].
  assert (Ht : flat_map holds (rc_consumers s ++ [CEnter]) = flat_map holds (rc_consumers s)) by (rewrite flat_map_app; cbn; apply app_nil_r).
  assert (Hin : forall c : consumer T, c <> CEnter -> In c (rc_consumers s ++ [CEnter]) <-> In c (rc_consumers s)).
  { intros b Hn. rewrite in_app_iff. cbn. split; [intros [Hx|[Hx|[]]]; [exact Hx|congruence]|auto]. }
  split; unfold rcv_step, offered, callers in *; cbn [rc_data rc_barriers rc_lock rc_next rc_arrived rc_consumers rc_tasks rc_pushed rc_log];
    rewrite ?Ht; try assumption.
  - intros b Hb. rewrite Hin by discriminate. now apply H5.
  - intros b. rewrite Hin by discriminate. apply H6.
  - intros b. rewrite Hin by discriminate. apply H7.
  - intros b Hb. rewrite Hin by discriminate. now apply H8.
  - rewrite count_app. cbn. lia.
  - rewrite !count_app. cbn. intros Hx. specialize (H11 ltac:(lia)). lia.
Qed.

Lemma rinv_step : forall k s e, rinv k s -> exists k', rinv k' (rcv_step s e) /\ k' <= k + cancels [e].
Proof.
  intros k s [v| |i|j|i] H.
  - exists k. split; [now apply rinv_push|cbn; lia].
  - exists k. split; [now apply rinv_pop|cbn; lia].
  - exists k. split; [|cbn; lia]. apply (rinv_moved k s _ H). apply (consumer_moved k _ _ H).
  - exists k. split; [|cbn; lia]. apply (rinv_moved k s _ H). apply (task_moved k _ _ H).
  - cbn [rcv_step]. destruct (nth_error (rc_consumers s) i) as [[| |v| |b|b|v|]|] eqn:E; try (exists k; split; [exact H|cbn; lia]).
    exists (S k). split; [now apply (rinv_cancel k s i b)|cbn; lia].
Qed.

Lemma cancels_app : forall a b : list (rcv_event T), cancels (a ++ b) = cancels a + cancels b.
Proof. intros a b. unfold cancels. now rewrite filter_app, app_length. Qed.

Lemma rinv_run : forall evs k s, rinv k s -> exists k', rinv k' (rcv_run s evs) /\ k' <= k + cancels evs.
Proof.
  induction evs as [|e evs IH]; intros k s H; [exists k; split; [exact H|lia]|].
  destruct (rinv_step k s e H) as (k1 & H1 & L1). destruct (IH k1 _ H1) as (k2 & H2 & L2). exists k2. split; [exact H2|].
  change (e :: evs) with ([e] ++ evs). rewrite cancels_app. lia.
Qed.

(** ** The order of the broadcasts. *)
Record oinv s : Prop := mk_oinv
  { oi_pushed : rc_pushed s = map snd (rc_log s) ++ rc_data s;
    oi_once : NoDup (map fst (rc_log s));
    oi_log : forall i v, In (i, v) (rc_log s) <-> nth_error (rc_consumers s) i = Some (CGot v) \/ nth_error (rc_consumers s) i = Some (CDone v) }.

Lemma oinv_new : oinv (rcv_new T).
Proof.
  split; cbn; [reflexivity|constructor|]. intros i v. split; [intros []|]. destruct i; intros [H|H]; discriminate H.
Qed.

Lemma oinv_consumers : forall s s' i old new, oinv s -> nth_error (rc_consumers s) i = Some old ->
  (forall v, old = CGot v \/ old = CDone v <-> new = CGot v \/ new = CDone v) ->
  rc_consumers s' = set_nth (rc_consumers s) i new -> rc_pushed s' = rc_pushed s -> rc_log s' = rc_log s -> rc_data s' = rc_data s -> oinv s'.
Proof.
  intros s s' i old new [H1 H2 H3] E Hx Hc Hp Hl Hd. split; rewrite ?Hp, ?Hl, ?Hd; try assumption.
  intros i' v. rewrite Hc, H3. destruct (Nat.eq_dec i' i) as [->|Hn].
  - rewrite E, (set_nth_nth _ _ _ _ i E), Nat.eqb_refl. specialize (Hx v). destruct Hx as [Ha Hb].
    split; (intros [Hy|Hy]; injection Hy as Hy; [|]); match goal with |- Some ?x = _ \/ _ => idtac end;
      try (destruct (Ha (or_introl Hy)) as [->| ->]; auto); try (destruct (Ha (or_intror Hy)) as [->| ->]; auto);
      try (destruct (Hb (or_introl Hy)) as [->| ->]; auto); try (destruct (Hb (or_intror Hy)) as [->| ->]; auto).
  - rewrite (set_nth_nth _ _ _ _ i' E). replace (i' =? i) with false by (symmetry; now apply Nat.eqb_neq). reflexivity.
Qed.

Lemma oinv_moved : forall s s', oinv s -> moved s s' -> oinv s'.
Proof.
  intros s s' H Hm.
  assert (Hx : forall d b n a ts lk, d = rc_data s -> oinv (mk_rcv d b n lk a (rc_consumers s) ts (rc_pushed s) (rc_log s))).
  { intros d b n a ts lk ->. destruct H as [H1 H2 H3]. split; assumption. }
  assert (Hc : forall i old new d b n a ts lk, d = rc_data s -> nth_error (rc_consumers s) i = Some old ->
    (forall v, old = CGot v \/ old = CDone v <-> new = CGot v \/ new = CDone v) ->
    oinv (mk_rcv d b n lk a (set_nth (rc_consumers s) i new) ts (rc_pushed s) (rc_log s))).
  { intros i old new d b n a ts lk Hd E Ho. apply (oinv_consumers s _ i old new H E Ho); try reflexivity. exact Hd. }
  destruct Hm as [|i E|i v rest E Ed|i E Ed|i v E|i E|i b E Ha|i j b E Et|j E Hl0|j E Hl0|j E Eb|j b rest E Eb|j b E Ha|i j b E Ec|j b E Ha Hc0];
    try (apply Hx; reflexivity);
    try (apply (Hc _ _ _ _ _ _ _ _ _ eq_refl E); intros v'; split; intros [Hy|Hy]; discriminate Hy).
  - exact H.
  - destruct H as [H1 H2 H3].
    assert (Hni : forall v', ~ In (i, v') (rc_log s)) by (intros v' Hy; apply H3 in Hy as [Hy|Hy]; rewrite E in Hy; discriminate Hy).
    split; cbn [rc_data rc_consumers rc_pushed rc_log].
    + rewrite H1, Ed, map_app, <- app_assoc. reflexivity.
    + rewrite map_app. cbn [map fst]. apply Permutation_NoDup with (i :: map fst (rc_log s)); [apply Permutation_cons_append|].
      constructor; [|exact H2]. intros Hy. apply in_map_iff in Hy as ([i' v'] & <- & Hy). exact (Hni v' Hy).
    + intros i' v'. rewrite (set_nth_nth _ _ _ _ i' E), in_app_iff. cbn [In]. destruct (Nat.eqb_spec i' i) as [->|Hn].
      * split.
        -- intros [Hy|[Hy|[]]]; [contradiction (Hni v' Hy)|]. injection Hy as ->. now left.
        -- intros [Hy|Hy]; [|discriminate Hy]. injection Hy as ->. auto.
      * rewrite <- H3. split; [intros [Hy|[Hy|[]]]; [exact Hy|congruence]|auto].
  - apply (Hc _ _ _ _ _ _ _ _ _ eq_refl E). intros v'. split; intros [Hy|Hy]; try discriminate Hy; injection Hy as ->; auto.
  - apply (Hc _ _ _ _ _ _ _ _ _ eq_refl Ec). intros v'. split; intros [Hy|Hy]; discriminate Hy.
Qed.

Lemma oinv_step : forall k s e, rinv k s -> oinv s -> oinv (rcv_step s e).
Proof.
  intros k s [v| |i|j|i] Hr H.
  - destruct H as [H1 H2 H3]. split; cbn [rcv_step rc_data rc_consumers rc_pushed rc_log]; try assumption. rewrite H1. apply eq_sym, app_assoc.
  - destruct H as [H1 H2 H3]. split; cbn [rcv_step rc_data rc_consumers rc_pushed rc_log]; try assumption.
    intros i v. rewrite H3. destruct (Nat.lt_ge_cases i (length (rc_consumers s))) as [Hl|Hl].
    + rewrite nth_error_app1 by exact Hl. reflexivity.
    + rewrite nth_error_app2 by exact Hl. rewrite (proj2 (nth_error_None _ _) Hl).
      destruct (i - length (rc_consumers s)) as [|[|n]]; cbn; split; intros [Hy|Hy]; discriminate Hy.
  - apply (oinv_moved s); [exact H|]. apply (consumer_moved k _ _ Hr).
  - apply (oinv_moved s); [exact H|]. apply (task_moved k _ _ Hr).
  - cbn [rcv_step]. destruct (nth_error (rc_consumers s) i) as [[| |v| |b|b|v|]|] eqn:E; try exact H.
    apply (oinv_consumers s _ i (CParked b) CCancelled H E); try reflexivity. intros v. split; intros [Hy|Hy]; discriminate Hy.
Qed.

Lemma oinv_run : forall evs k s, rinv k s -> oinv s -> oinv (rcv_run s evs).
Proof.
  induction evs as [|e evs IH]; intros k s Hr H; [exact H|]. destruct (rinv_step k s e Hr) as (k' & Hk & _).
  apply (IH k'); [exact Hk|now apply (oinv_step k)].
Qed.

Lemma step_pushed : forall s e, rc_pushed (rcv_step s e) = rc_pushed s ++ pushes [e].
Proof.
  intros s [v| |i|j|i]; cbn [rcv_step pushes flat_map app]; try (rewrite app_nil_r); try reflexivity.
  - unfold consumer_step. destruct (nth_error (rc_consumers s) i) as [[| |v| |b|b|v|]|]; try reflexivity; [destruct (rc_data s)|destruct (has_arrived s b)]; reflexivity.
  - unfold task_step. destruct (nth_error (rc_tasks s) j) as [[| |b|b|]|]; try reflexivity; [destruct (rc_barriers s)|destruct (has_arrived s b)]; reflexivity.
  - destruct (nth_error (rc_consumers s) i) as [[| |v| |b|b|v|]|]; reflexivity.
Qed.

Lemma step_log : forall s e, rc_log (rcv_step s e) = rc_log s
  \/ exists i v, e = RConsumer i /\ nth_error (rc_consumers s) i = Some CTry /\ rc_log (rcv_step s e) = rc_log s ++ [(i, v)].
Proof.
  intros s [v| |i|j|i]; cbn [rcv_step]; try (left; reflexivity).
  - unfold consumer_step. destruct (nth_error (rc_consumers s) i) as [[| |v| |b|b|v|]|] eqn:E; try (left; reflexivity).
    + destruct (rc_data s) as [|v rest]; [left; reflexivity|]. right. exists i, v. repeat split. exact E.
    + destruct (has_arrived s b); left; reflexivity.
  - unfold task_step. destruct (nth_error (rc_tasks s) j) as [[| |b|b|]|]; try (left; reflexivity); [destruct (rc_barriers s)|destruct (has_arrived s b)]; left; reflexivity.
  - destruct (nth_error (rc_consumers s) i) as [[| |v| |b|b|v|]|]; left; reflexivity.
Qed.

Lemma run_pushed : forall evs s, rc_pushed (rcv_run s evs) = rc_pushed s ++ pushes evs.
Proof.
  induction evs as [|e evs IH]; intros s; [cbn; now rewrite app_nil_r|]. cbn [rcv_run fold_left]. fold (rcv_run (rcv_step s e) evs).
  rewrite IH, step_pushed, <- app_assoc. f_equal. unfold pushes. now rewrite <- flat_map_app.
Qed.

Lemma receiver_order : forall evs, let s := rcv_run (rcv_new T) evs in
  pushes evs = map snd (rc_log s) ++ rc_data s
  /\ NoDup (map fst (rc_log s))
  /\ (forall i v, returned s i v -> In (i, v) (rc_log s))
  /\ (forall i v, In (i, v) (rc_log s) -> returned s i v \/ returned (rcv_step s (RConsumer i)) i v)
  /\ (forall e, rc_log (rcv_step s e) = rc_log s \/ exists i v, e = RConsumer i /\ rc_log (rcv_step s e) = rc_log s ++ [(i, v)]).
Proof.
  intros evs s. destruct (oinv_run evs 0 _ rinv_new oinv_new) as [H1 H2 H3]. fold s in H1, H2, H3.
  rewrite <- H1. split; [unfold s; rewrite run_pushed; reflexivity|]. split; [exact H2|].
  split; [intros i v Hr; apply H3; now right|]. split.
  - intros i v Hi. apply H3 in Hi as [Hi|Hi]; [right|now left]. unfold returned, rcv_step, consumer_step. rewrite Hi.
    cbn [put_consumer rc_consumers]. rewrite (set_nth_nth _ _ _ _ i Hi), Nat.eqb_refl. reflexivity.
  - intros e. destruct (step_log s e) as [Hl|(i & v & Hl & _ & Hx)]; [now left|right; exists i, v; auto].
Qed.

(** ** Everything settles. *)
Definition cweight (c : consumer T) : nat :=
  match c with CEnter => 6 | CTry => 5 | CPark => 4 | CArrive _ => 3 | CGot _ => 1 | CParked _ | CDone _ | CCancelled => 0 end.
Definition tweight (t : task) : nat :=
  match t with TCheck | TTry => 10 | TArrive _ => 9 | TParked _ => 8 | TDone => 0 end.
Definition weight s : nat := count cweight (rc_consumers s) + count tweight (rc_tasks s).

Definition spinning (t : task) : Prop := t = TCheck \/ t = TTry.

Lemma weight_moved : forall s s', moved s s' ->
  s' = s \/ weight s' < weight s
  \/ weight s' = weight s /\ rc_consumers s' = rc_consumers s /\ rc_barriers s' = rc_barriers s /\ rc_lock s' = rc_lock s
     /\ exists j old new, nth_error (rc_tasks s) j = Some old /\ spinning old /\ spinning new /\ rc_tasks s' = set_nth (rc_tasks s) j new.
Proof.
  intros s s' Hm. unfold weight.
  Local Ltac lighter E new := pose proof (count_set cweight _ _ _ new E); cbn [cweight rc_consumers rc_tasks] in *.
  Local Ltac tlighter E new := pose proof (count_set tweight _ _ _ new E); cbn [tweight rc_consumers rc_tasks] in *.
  destruct Hm as [|i E|i v rest E Ed|i E Ed|i v E|i E|i b E Ha|i j b E Et|j E Hl0|j E Hl0|j E Eb|j b rest E Eb|j b E Ha|i j b E Ec|j b E Ha Hc0].
  - now left.
  - right; left. lighter E (@CTry T). lia.
  - right; left. lighter E (CGot v). lia.
  - right; left. lighter E (@CPark T). lia.
  - right; left. lighter E (CDone v). lia.
  - right; left. lighter E (CArrive (T:=T) (rc_next s)). lia.
  - right; left. lighter E (CParked (T:=T) b). lia.
  - right; left. lighter E (@CTry T). tlighter Et TDone. lia.
  - right; left. tlighter E TDone. lia.
  - right; right. tlighter E TTry. split; [lia|]. repeat (split; [reflexivity|]). exists j, TCheck, TTry. unfold spinning. auto.
  - right; right. tlighter E TCheck. split; [lia|]. repeat (split; [reflexivity|]). exists j, TTry, TCheck. unfold spinning. auto.
  - right; left. tlighter E (TArrive b). lia.
  - right; left. tlighter E (TParked b). lia.
  - right; left. lighter Ec (@CTry T). tlighter E TDone. lia.
  - right; left. tlighter E TDone. lia.
Qed.

Definition settled (c : consumer T) : Prop := match c with CParked _ | CDone _ | CCancelled => True | _ => False end.

Lemma consumer_changes : forall s i c, nth_error (rc_consumers s) i = Some c -> ~ settled c ->
  nth_error (rc_consumers (consumer_step s i)) i <> Some c.
Proof.
  intros s i c E Hn. unfold consumer_step. rewrite E. destruct c as [| |v| |b|b|v|]; try (exfalso; exact (Hn I));
    try (cbn [put_consumer rc_consumers]; rewrite (set_nth_nth _ _ _ _ i E), Nat.eqb_refl; discriminate).
  - destruct (rc_data s); cbn [put_consumer rc_consumers]; rewrite (set_nth_nth _ _ _ _ i E), Nat.eqb_refl; discriminate.
  - destruct (has_arrived s b); cbn [first_arrival release put_consumer rc_consumers].
    + rewrite nth_error_map, (set_nth_nth _ _ _ _ i E), Nat.eqb_refl. discriminate.
    + rewrite (set_nth_nth _ _ _ _ i E), Nat.eqb_refl. discriminate.
Qed.

Lemma consumer_weight : forall k s i, rinv k s ->
  weight (consumer_step s i) < weight s
  \/ consumer_step s i = s /\ forall c, nth_error (rc_consumers s) i = Some c -> settled c.
Proof.
  intros k s i H. destruct (nth_error (rc_consumers s) i) as [c|] eqn:E.
  2:{ right. split; [unfold consumer_step; now rewrite E|discriminate]. }
  assert (Hd : settled c \/ ~ settled c) by (destruct c; cbn; tauto). destruct Hd as [Hs|Hs].
  - right. split; [unfold consumer_step; rewrite E; destruct c; cbn in Hs; try contradiction; reflexivity|]. intros c' Hc. now injection Hc as <-.
  - left. pose proof (consumer_changes s i c E Hs) as Hc.
    destruct (weight_moved s _ (consumer_moved k s i H)) as [Hx|[Hx|(_ & Hx & _)]]; [|exact Hx|]; rewrite Hx in Hc; contradiction.
Qed.

Definition idle s (t : task) : Prop :=
  match t with TDone | TParked _ => True | TCheck => rc_lock s <> 0 | TTry => rc_barriers s = [] | TArrive _ => False end.

Lemma task_weight : forall k s j, rinv k s ->
  weight (task_step s j) < weight s
  \/ rc_consumers (task_step s j) = rc_consumers s /\ rc_barriers (task_step s j) = rc_barriers s /\ rc_lock (task_step s j) = rc_lock s
     /\ weight (task_step s j) = weight s
     /\ length (rc_tasks (task_step s j)) = length (rc_tasks s)
     /\ (forall j', j' <> j -> nth_error (rc_tasks (task_step s j)) j' = nth_error (rc_tasks s) j')
     /\ (forall t, nth_error (rc_tasks s) j = Some t -> idle s t /\ exists t', nth_error (rc_tasks (task_step s j)) j = Some t'
          /\ match t with TCheck => t' = TTry | TTry => t' = TCheck | _ => t' = t end).
Proof.
  intros k s j H.
  assert (Hput : forall old new, nth_error (rc_tasks s) j = Some old -> idle s old -> task_step s j = put_task s j new ->
     tweight old = tweight new -> match old with TCheck => new = TTry | TTry => new = TCheck | _ => False end ->
     rc_consumers (task_step s j) = rc_consumers s /\ rc_barriers (task_step s j) = rc_barriers s /\ rc_lock (task_step s j) = rc_lock s
     /\ weight (task_step s j) = weight s
     /\ length (rc_tasks (task_step s j)) = length (rc_tasks s)
     /\ (forall j', j' <> j -> nth_error (rc_tasks (task_step s j)) j' = nth_error (rc_tasks s) j')
     /\ (forall t, nth_error (rc_tasks s) j = Some t -> idle s t /\ exists t', nth_error (rc_tasks (task_step s j)) j = Some t'
          /\ match t with TCheck => t' = TTry | TTry => t' = TCheck | _ => t' = t end)).
  { intros old new E Hi Hx Hw Hn. rewrite Hx. pose proof (count_set tweight _ _ _ new E) as Hc. unfold weight. cbn [put_task rc_consumers rc_barriers rc_lock rc_tasks].
    repeat (split; [reflexivity|]). split; [lia|]. split; [exact (set_nth_length _ _ _ _ E)|]. split.
    - intros j' Hj. rewrite (set_nth_nth _ _ _ _ j' E). replace (j' =? j) with false by (symmetry; now apply Nat.eqb_neq). reflexivity.
    - intros t Ht. rewrite E in Ht. injection Ht as <-. split; [exact Hi|]. exists new. rewrite (set_nth_nth _ _ _ _ j E), Nat.eqb_refl. split; [reflexivity|].
      destruct old; try contradiction; exact Hn. }
  destruct (nth_error (rc_tasks s) j) as [t|] eqn:E.
  2:{ right. assert (Hx : task_step s j = s) by (unfold task_step; now rewrite E). rewrite Hx. repeat (split; [reflexivity|]). discriminate. }
  assert (Hsame : task_step s j = s -> t <> TCheck -> t <> TTry -> idle s t ->
     rc_consumers (task_step s j) = rc_consumers s /\ rc_barriers (task_step s j) = rc_barriers s /\ rc_lock (task_step s j) = rc_lock s
     /\ weight (task_step s j) = weight s
     /\ length (rc_tasks (task_step s j)) = length (rc_tasks s)
     /\ (forall j', j' <> j -> nth_error (rc_tasks (task_step s j)) j' = nth_error (rc_tasks s) j')
     /\ (forall t0, Some t = Some t0 -> idle s t0 /\ exists t', nth_error (rc_tasks (task_step s j)) j = Some t'
          /\ match t0 with TCheck => t' = TTry | TTry => t' = TCheck | _ => t' = t0 end)).
  { intros Hx Hn1 Hn2 Hi. rewrite Hx. repeat (split; [reflexivity|]). intros t0 Ht. injection Ht as <-. split; [exact Hi|].
    exists t. split; [exact E|]. destruct t; try reflexivity; contradiction. }
  destruct t as [| |b|b|].
  - destruct (Nat.eqb_spec (rc_lock s) 0) as [Hl|Hl].
    + left. unfold task_step. rewrite E, Hl. cbn [Nat.eqb]. unfold weight. pose proof (count_set tweight _ _ _ TDone E) as Hc.
      cbn [tweight put_task rc_consumers rc_tasks] in *. lia.
    + right. apply (Hput TCheck TTry); try reflexivity; [exact Hl|]. unfold task_step. rewrite E. apply Nat.eqb_neq in Hl. now rewrite Hl.
  - destruct (rc_barriers s) as [|b rest] eqn:Eb.
    + right. apply (Hput TTry TCheck); try reflexivity; [exact Eb|]. unfold task_step. now rewrite E, Eb.
    + left. unfold task_step. rewrite E, Eb. unfold weight. pose proof (count_set tweight _ _ _ (TArrive b) E) as Hc.
      cbn [tweight put_task rc_consumers rc_tasks] in *. lia.
  - left. assert (Hnow : exists t', nth_error (rc_tasks (task_step s j)) j = Some t' /\ t' <> TArrive b /\ ~ spinning t').
    { unfold task_step. rewrite E. destruct (has_arrived s b); cbn [first_arrival release put_task rc_tasks].
      - exists TDone. rewrite nth_error_map, (set_nth_nth _ _ _ _ j E), Nat.eqb_refl. repeat split; try discriminate. intros [Hx|Hx]; discriminate Hx.
      - exists (TParked b). rewrite (set_nth_nth _ _ _ _ j E), Nat.eqb_refl. repeat split; try discriminate. intros [Hx|Hx]; discriminate Hx. }
    destruct Hnow as (t' & Ht' & Hn1 & Hn2).
    destruct (weight_moved s _ (task_moved k s j H)) as [Hx|[Hx|(Hw & Hc & Hb & Hl & j0 & old & new & Ej & Ho & Hn & Ht)]]; [|exact Hx|]; exfalso.
    + rewrite Hx, E in Ht'. injection Ht' as <-. contradiction.
    + rewrite Ht, (set_nth_nth _ _ _ _ j Ej) in Ht'. destruct (j =? j0); [injection Ht' as <-; contradiction|].
      rewrite E in Ht'. injection Ht' as <-. contradiction.
  - right. apply Hsame; try discriminate; [|exact I]. unfold task_step. now rewrite E.
  - right. apply Hsame; try discriminate; [|exact I]. unfold task_step. now rewrite E.
Qed.

(** A round of steps of the program that does not lower the weight. *)
Definition crun i (l : list (rcv_event T)) : nat := runs (fun e => match e with RConsumer k => k =? i | _ => false end) l.
Definition trun j (l : list (rcv_event T)) : nat := runs (fun e => match e with RTask k => k =? j | _ => false end) l.

Lemma internal_weight : forall k s e, rinv k s -> internal e = true -> weight (rcv_step s e) <= weight s.
Proof.
  intros k s [v| |i|j|i] H He; try discriminate He; cbn [rcv_step].
  - destruct (consumer_weight k s i H) as [Hx|[Hx _]]; [lia|]. now rewrite Hx.
  - destruct (task_weight k s j H) as [Hx|(_ & _ & _ & Hx & _)]; lia.
Qed.

Lemma internal_rinv : forall k s e, rinv k s -> internal e = true -> rinv k (rcv_step s e).
Proof.
  intros k s [v| |i|j|i] H He; try discriminate He; cbn [rcv_step].
  - apply (rinv_moved k s _ H). apply (consumer_moved k _ _ H).
  - apply (rinv_moved k s _ H). apply (task_moved k _ _ H).
Qed.

Lemma rinv_internal : forall l k s, rinv k s -> forallb internal l = true -> rinv k (rcv_run s l) /\ weight (rcv_run s l) <= weight s.
Proof.
  induction l as [|e l IH]; intros k s H Hl; [split; [exact H|cbn; lia]|]. cbn [forallb] in Hl. apply andb_true_iff in Hl as [He Hl].
  pose proof (internal_weight k s e H He) as Hw. destruct (IH k _ (internal_rinv k s e H He) Hl) as [H1 H2].
  split; [exact H1|]. cbn [rcv_run fold_left]. fold (rcv_run (rcv_step s e) l). lia.
Qed.

Definition tidle s (n : nat) (t t' : task) : Prop :=
  match t with
  | TDone | TParked _ => t' = t
  | TArrive _ => n = 0 /\ t' = t
  | TCheck => spinning t' /\ (1 <= n -> rc_lock s <> 0) /\ (2 <= n -> rc_barriers s = [])
  | TTry => spinning t' /\ (1 <= n -> rc_barriers s = []) /\ (2 <= n -> rc_lock s <> 0)
  end.

Lemma idle_round : forall l k s, rinv k s -> forallb internal l = true -> weight (rcv_run s l) = weight s ->
  rc_consumers (rcv_run s l) = rc_consumers s /\ rc_barriers (rcv_run s l) = rc_barriers s /\ rc_lock (rcv_run s l) = rc_lock s
  /\ length (rc_tasks (rcv_run s l)) = length (rc_tasks s)
  /\ (forall i c, nth_error (rc_consumers s) i = Some c -> 1 <= crun i l -> settled c)
  /\ (forall j t, nth_error (rc_tasks s) j = Some t -> exists t', nth_error (rc_tasks (rcv_run s l)) j = Some t' /\ tidle s (trun j l) t t').
Proof.
  induction l as [|e l IH]; intros k s H Hl Hw.
  { repeat (split; [reflexivity|]). split; [intros i c _ Hc; cbn in Hc; lia|]. intros j t Hj. exists t. split; [exact Hj|].
    destruct t; cbn; unfold spinning; repeat split; auto; lia. }
  cbn [forallb] in Hl. apply andb_true_iff in Hl as [He Hl]. pose proof (internal_rinv k s e H He) as H1.
  cbn [rcv_run fold_left] in *. fold (rcv_run (rcv_step s e) l) in *.
  destruct (rinv_internal l k _ H1 Hl) as [_ Hw1].
  destruct e as [v| |i|j|i]; try discriminate He; cbn [rcv_step] in *.
  - destruct (consumer_weight k s i H) as [Hx|[Hx Hs]]; [lia|]. rewrite Hx in *.
    destruct (IH k s H Hl Hw) as (E1 & E2 & E3 & E4 & Hc & Ht). repeat (split; [assumption|]). split.
    + intros i' c Hi Hn. unfold crun, runs in Hn. cbn [filter] in Hn. destruct (Nat.eqb_spec i i') as [->|Hne]; [now apply Hs|now apply (Hc i' c Hi)].
    + intros j t Hj. exact (Ht j t Hj).
  - destruct (task_weight k s j H) as [Hx|(C1 & C2 & C3 & C4 & C5 & C6 & C7)]; [lia|].
    destruct (IH k _ H1 Hl ltac:(lia)) as (E1 & E2 & E3 & E4 & Hc & Ht).
    split; [congruence|]. split; [congruence|]. split; [congruence|]. split; [congruence|]. split.
    + intros i' c Hi Hn. apply (Hc i' c); [now rewrite C1|exact Hn].
    + intros j' t Hj. destruct (Nat.eq_dec j' j) as [->|Hne].
      * destruct (C7 t Hj) as [Hid (t1 & Ht1 & Hm)]. destruct (Ht j t1 Ht1) as (t2 & Ht2 & Hti). exists t2. split; [exact Ht2|].
        unfold trun, runs. cbn [filter]. rewrite Nat.eqb_refl. cbn [length]. fold (runs (fun e => match e with RTask k => k =? j | _ => false end) l). fold (trun j l).
        destruct t; subst t1; cbn [idle tidle] in *; rewrite ?C2, ?C3 in Hti.
        -- destruct Hti as (Ha & Hb & Hd). split; [exact Ha|]. split; [auto|]. intros Hn. apply Hb. lia.
        -- destruct Hti as (Ha & Hb & Hd). split; [exact Ha|]. split; [auto|]. intros Hn. apply Hb. lia.
        -- contradiction.
        -- exact Hti.
        -- exact Hti.
      * destruct (Ht j' t) as (t2 & Ht2 & Hti); [now rewrite C6|]. exists t2. split; [exact Ht2|].
        unfold trun, runs. cbn [filter]. replace (j =? j') with false by (symmetry; apply Nat.eqb_neq; congruence).
        fold (runs (fun e => match e with RTask k => k =? j' | _ => false end) l). fold (trun j' l).
        destruct t; cbn [tidle] in *; rewrite ?C2, ?C3 in Hti; exact Hti.
Qed.

Lemma fair_settles : forall k s l, rinv k s -> fair_round s l -> weight (rcv_run s l) < weight s \/ resting (rcv_run s l).
Proof.
  intros k s l H (Hi & Hc & Ht). destruct (rinv_internal l k s H Hi) as [_ Hle].
  destruct (Nat.eq_dec (weight (rcv_run s l)) (weight s)) as [Hw|Hw]; [right|left; lia].
  destruct (idle_round l k s H Hi Hw) as (E1 & E2 & E3 & E4 & Gc & Gt). split; apply Forall_forall.
  - intros c Hin. rewrite E1 in Hin. apply In_nth_error in Hin as [i Hn]. apply (Gc i c Hn).
    assert (i < length (rc_consumers s)) by (apply nth_error_Some; congruence). specialize (Hc i H0). unfold crun. lia.
  - intros t' Hin. apply In_nth_error in Hin as [j Hj]. assert (Hlt : j < length (rc_tasks s)) by (rewrite <- E4; apply nth_error_Some; congruence).
    destruct (nth_error (rc_tasks s) j) as [t|] eqn:E; [|apply nth_error_None in E; lia].
    destruct (Gt j t E) as (t2 & Ht2 & Hti). rewrite Hj in Ht2. injection Ht2 as <-. specialize (Ht j Hlt). fold (trun j l) in Ht.
    rewrite E2, E3. destruct t; cbn [tidle] in Hti.
    + destruct Hti as ([->| ->] & Ha & Hb); auto with arith.
    + destruct Hti as ([->| ->] & Ha & Hb); auto with arith.
    + lia.
    + subst. exact I.
    + subst. exact I.
Qed.

(** Rest lasts. *)
Lemma resting_step : forall s e, resting s -> internal e = true ->
  resting (rcv_step s e) /\ rc_data (rcv_step s e) = rc_data s /\ rc_consumers (rcv_step s e) = rc_consumers s /\ rc_barriers (rcv_step s e) = rc_barriers s
  /\ rc_lock (rcv_step s e) = rc_lock s /\ length (rc_tasks (rcv_step s e)) = length (rc_tasks s)
  /\ forall j t, nth_error (rc_tasks s) j = Some t -> spinning t -> exists t', nth_error (rc_tasks (rcv_step s e)) j = Some t' /\ spinning t'.
Proof.
  intros s e (Hc & Ht) He.
  assert (Hs : resting s /\ rc_data s = rc_data s /\ rc_consumers s = rc_consumers s /\ rc_barriers s = rc_barriers s /\ rc_lock s = rc_lock s
    /\ length (rc_tasks s) = length (rc_tasks s)
    /\ forall j t, nth_error (rc_tasks s) j = Some t -> spinning t -> exists t', nth_error (rc_tasks s) j = Some t' /\ spinning t').
  { repeat split; try assumption. intros j t Hj Hsp. exists t. auto. }
  assert (Hput : forall j old new, nth_error (rc_tasks s) j = Some old -> spinning old -> spinning new ->
    resting (put_task s j new) /\ rc_data s = rc_data s /\ rc_consumers s = rc_consumers s /\ rc_barriers s = rc_barriers s /\ rc_lock s = rc_lock s
    /\ length (rc_tasks (put_task s j new)) = length (rc_tasks s)
    /\ forall j' t, nth_error (rc_tasks s) j' = Some t -> spinning t -> exists t', nth_error (rc_tasks (put_task s j new)) j' = Some t' /\ spinning t').
  { intros j old new E Ho Hn. split.
    - split; [exact Hc|]. rewrite Forall_forall in *. cbn [put_task rc_tasks rc_barriers rc_lock]. intros t Hin. was E Hin; [|now apply (Ht t)].
      specialize (Ht old (nth_error_In _ _ E)). destruct Ho as [->| ->]; destruct Hn as [->| ->]; subst t; exact Ht.
    - repeat (split; [reflexivity|]). split; [exact (set_nth_length _ _ _ _ E)|]. intros j' t Hj Hsp. cbn [put_task rc_tasks]. rewrite (set_nth_nth _ _ _ _ j' E).
      destruct (j' =? j); [exists new; auto|exists t; auto]. }
  destruct e as [v| |i|j|i]; try discriminate He; cbn [rcv_step].
  - replace (consumer_step s i) with s; [exact Hs|]. unfold consumer_step. destruct (nth_error (rc_consumers s) i) as [c|] eqn:E; [|reflexivity].
    rewrite Forall_forall in Hc. specialize (Hc c (nth_error_In _ _ E)). destruct c; try contradiction; reflexivity.
  - destruct (nth_error (rc_tasks s) j) as [t|] eqn:E; [|replace (task_step s j) with s by (unfold task_step; now rewrite E); exact Hs].
    pose proof Ht as Ht0. rewrite Forall_forall in Ht0. specialize (Ht0 t (nth_error_In _ _ E)). destruct t as [| |b|b|].
    + destruct Ht0 as [Hb Hl]. apply Nat.eqb_neq in Hl. replace (task_step s j) with (put_task s j TTry) by (unfold task_step; now rewrite E, Hl).
      apply (Hput j TCheck TTry E); unfold spinning; auto.
    + destruct Ht0 as [Hb Hl]. replace (task_step s j) with (put_task s j TCheck) by (unfold task_step; now rewrite E, Hb).
      apply (Hput j TTry TCheck E); unfold spinning; auto.
    + contradiction.
    + replace (task_step s j) with s by (unfold task_step; now rewrite E). exact Hs.
    + replace (task_step s j) with s by (unfold task_step; now rewrite E). exact Hs.
Qed.

Lemma resting_run : forall l s, resting s -> forallb internal l = true ->
  resting (rcv_run s l) /\ rc_data (rcv_run s l) = rc_data s /\ rc_consumers (rcv_run s l) = rc_consumers s
  /\ forall j t, nth_error (rc_tasks s) j = Some t -> spinning t -> exists t', nth_error (rc_tasks (rcv_run s l)) j = Some t' /\ spinning t'.
Proof.
  induction l as [|e l IH]; intros s H Hl; [repeat split; try apply H; intros j t Hj Hs; exists t; auto|].
  cbn [forallb] in Hl. apply andb_true_iff in Hl as [He Hl]. destruct (resting_step s e H He) as (H1 & E1 & E2 & _ & _ & _ & Hsp).
  destruct (IH _ H1 Hl) as (H2 & E3 & E4 & Hsp2). cbn [rcv_run fold_left]. fold (rcv_run (rcv_step s e) l).
  split; [exact H2|]. split; [congruence|]. split; [congruence|]. intros j t Hj Hs. destruct (Hsp j t Hj Hs) as (t1 & Ht1 & Hs1). exact (Hsp2 j t1 Ht1 Hs1).
Qed.

Lemma internal_sizes : forall s e, internal e = true ->
  length (rc_consumers (rcv_step s e)) = length (rc_consumers s) /\ length (rc_tasks (rcv_step s e)) = length (rc_tasks s).
Proof.
  intros s [v| |i|j|i] He; try discriminate He; cbn [rcv_step].
  - unfold consumer_step. destruct (nth_error (rc_consumers s) i) as [[| |v| |b|b|v|]|] eqn:E; try (split; reflexivity);
      try (cbn [put_consumer rc_consumers rc_tasks]; rewrite (set_nth_length _ _ _ _ E); split; reflexivity).
    + destruct (rc_data s); cbn [put_consumer rc_consumers rc_tasks]; rewrite (set_nth_length _ _ _ _ E); split; reflexivity.
    + destruct (has_arrived s b); cbn [put_consumer release first_arrival rc_consumers rc_tasks]; rewrite ?map_length, (set_nth_length _ _ _ _ E); split; reflexivity.
  - unfold task_step. destruct (nth_error (rc_tasks s) j) as [[| |b|b|]|] eqn:E; try (split; reflexivity);
      try (cbn [put_task rc_consumers rc_tasks]; rewrite (set_nth_length _ _ _ _ E); split; reflexivity).
    + destruct (rc_barriers s); cbn [put_task rc_consumers rc_tasks]; rewrite (set_nth_length _ _ _ _ E); split; reflexivity.
    + destruct (has_arrived s b); cbn [put_task release first_arrival rc_consumers rc_tasks]; rewrite ?map_length, (set_nth_length _ _ _ _ E); split; reflexivity.
Qed.

Lemma internal_sizes_run : forall l s, forallb internal l = true ->
  length (rc_consumers (rcv_run s l)) = length (rc_consumers s) /\ length (rc_tasks (rcv_run s l)) = length (rc_tasks s).
Proof.
  induction l as [|e l IH]; intros s Hl; [split; reflexivity|]. cbn [forallb] in Hl. apply andb_true_iff in Hl as [He Hl].
  destruct (internal_sizes s e He) as [E1 E2]. destruct (IH (rcv_step s e) Hl) as [E3 E4].
  cbn [rcv_run fold_left]. fold (rcv_run (rcv_step s e) l). split; congruence.
Qed.

Lemma fair_same : forall s s' l, length (rc_consumers s') = length (rc_consumers s) -> length (rc_tasks s') = length (rc_tasks s) ->
  fair_round s l -> fair_round s' l.
Proof. intros s s' l E1 E2 (H1 & H2 & H3). split; [exact H1|]. rewrite E1, E2. auto. Qed.

Lemma run_app : forall a b s, rcv_run s (a ++ b) = rcv_run (rcv_run s a) b.
Proof. intros a b s. unfold rcv_run. now rewrite fold_left_app. Qed.

Lemma settles : forall rounds k s, rinv k s -> Forall (fair_round s) rounds -> weight s < length rounds ->
  resting (rcv_run s (concat rounds)).
Proof.
  induction rounds as [|l rounds IH]; intros k s H Hf Hw; [cbn in Hw; lia|]. inversion Hf as [|? ? Hl Hf']; subst.
  cbn [concat]. rewrite run_app. destruct Hl as (Hi & Hrest) eqn:Hlq. pose proof Hl as Hl0.
  destruct (internal_sizes_run l s Hi) as [E1 E2].
  assert (Hall : Forall (fair_round (rcv_run s l)) rounds) by (eapply Forall_impl; [|exact Hf']; intros l' Hx; now apply (fair_same s)).
  destruct (fair_settles k s l H Hl0) as [Hx|Hx].
  - apply (IH k); [apply (rinv_internal l k s H Hi)|exact Hall|cbn [length] in Hw; lia].
  - apply resting_run; [exact Hx|]. clear - Hall. induction rounds as [|x r IH]; [reflexivity|]. inversion Hall as [|? ? (Hx & _) Hr]; subst.
    cbn [concat]. rewrite forallb_app, Hx. now apply IH.
Qed.

Lemma weight_settling : forall s, weight s <= settling s.
Proof.
  intros s. unfold weight, settling.
  assert (H1 : forall l : list (consumer T), count cweight l <= 6 * length l).
  { induction l as [|c l IH]; [cbn; lia|]. change (cweight c + count cweight l <= 6 * S (length l)). assert (cweight c <= 6) by (destruct c; cbn; lia). lia. }
  assert (H2 : forall l : list task, count tweight l <= 10 * length l).
  { induction l as [|c l IH]; [cbn; lia|]. change (tweight c + count tweight l <= 10 * S (length l)). assert (tweight c <= 10) by (destruct c; cbn; lia). lia. }
  specialize (H1 (rc_consumers s)). specialize (H2 (rc_tasks s)). lia.
Qed.

(** At rest, a waiting caller means that (almost) nothing is queued. *)
Lemma rest_woken : forall k s, rinv k s -> resting s -> waits s -> length (rc_data s) <= k.
Proof.
  intros k s H (Hc & Ht) Hw. rewrite Forall_forall in Hc, Ht. destruct Hw as (c & Hin & Hwt).
  pose proof (Hc c Hin) as Hx. destruct c as [| |v| |b|b|v|]; cbn in Hwt; try discriminate Hwt; try contradiction.
  assert (Hb : In b (offered s)) by (apply (ri_sub _ _ H); apply holds_in; now right).
  assert (Hnt : forall b', ~ In (TParked b') (rc_tasks s)).
  { intros b' Hy. destruct (ri_tp _ _ H b' Hy) as [Hz _]. exact (Hc _ Hz). }
  assert (Hbq : In b (rc_barriers s)).
  { unfold offered in Hb. apply in_app_or in Hb as [Hb|Hb]; [exact Hb|]. apply tholds_in in Hb as [Hb|Hb]; [contradiction (Ht _ Hb)|contradiction (Hnt b Hb)]. }
  assert (Hlive : count live (rc_tasks s) = 0).
  { destruct (count live (rc_tasks s)) as [|n] eqn:E; [reflexivity|]. assert (Hp : 0 < count live (rc_tasks s)) by lia.
    apply count_ex in Hp as (t & Hti & Hlt). pose proof (Ht t Hti) as Hq. destruct t as [| |b'|b'|]; cbn in Hlt; try lia.
    - destruct Hq as [Hq _]. rewrite Hq in Hbq. destruct Hbq.
    - destruct Hq as [Hq _]. rewrite Hq in Hbq. destruct Hbq.
    - contradiction (Hnt b' Hti). }
  assert (Hawake : count awake (rc_consumers s) = 0).
  { destruct (count awake (rc_consumers s)) as [|n] eqn:E; [reflexivity|]. assert (Hp : 0 < count awake (rc_consumers s)) by lia.
    apply count_ex in Hp as (c' & Hci & Hlt). pose proof (Hc c' Hci) as Hq. destruct c'; cbn in Hlt, Hq; try lia; contradiction. }
  assert (Hpos : 0 < count wait1 (rc_consumers s)) by (apply count_wait_waits; exists (CParked b); auto).
  pose proof (ri_wake _ _ H Hpos) as Hwk.
  assert (Hle : length (callers s) <= length (offered s)) by (apply NoDup_incl_length; [apply (ri_callers _ _ H)|apply (ri_sub _ _ H)]).
  lia.
Qed.

Lemma receiver_woken : forall evs rounds more, let s := rcv_run (rcv_new T) evs in
  Forall (fair_round s) rounds -> settling s < length rounds -> forallb internal more = true ->
  let s' := rcv_run s (concat rounds ++ more) in
  resting s' /\ (waits s' -> length (rc_data s') <= cancels evs).
Proof.
  intros evs rounds more s Hf Hl Hm s'. destruct (rinv_run evs 0 _ rinv_new) as (k & Hk & Hle). fold s in Hk.
  pose proof (weight_settling s) as Hw. pose proof (settles rounds k s Hk Hf ltac:(lia)) as Hr.
  assert (Hint : forallb internal (concat rounds) = true).
  { clear - Hf. induction rounds as [|x r IH]; [reflexivity|]. inversion Hf as [|? ? (Hx & _) Hr]; subst. cbn [concat]. rewrite forallb_app, Hx. now apply IH. }
  assert (Hs : resting s') by (unfold s'; rewrite run_app; now apply resting_run).
  split; [exact Hs|]. intros Hwt. assert (Hk' : rinv k s') by (unfold s'; apply rinv_internal; [exact Hk|rewrite forallb_app, Hint; exact Hm]).
  pose proof (rest_woken k s' Hk' Hs Hwt). lia.
Qed.
End Receiver.

(** ** A cancelled wait. *)

Lemma one_round_fair : fair_round (rcv_run (rcv_new nat) abandoned) one_round.
Proof.
  split; [reflexivity|]. split; intros i Hi; cbn in Hi.
  - destruct i as [|[|i]]; [cbn; lia|cbn; lia|lia].
  - destruct i as [|i]; [cbn; lia|lia].
Qed.

Lemma abandoned_starves : ~ (forall evs rounds more, let s := rcv_run (rcv_new nat) evs in
  Forall (fair_round s) rounds -> settling s < length rounds -> forallb internal more = true ->
  let s' := rcv_run s (concat rounds ++ more) in waits s' -> rc_data s' = []).
Proof.
  intros H. specialize (H abandoned (repeat one_round 23) []). cbv zeta in H.
  assert (Hx : rc_data (rcv_run (rcv_run (rcv_new nat) abandoned) (concat (repeat one_round 23) ++ [])) = []).
  { apply H.
    - apply Forall_forall. intros l Hl. apply repeat_spec in Hl. subst. apply one_round_fair.
    - cbn. lia.
    - reflexivity.
    - exists (CParked 1). split; [vm_compute; auto|reflexivity]. }
  vm_compute in Hx. discriminate Hx.
Qed.

(** After a cancelled wait the task of a push with nobody waiting looks for a barrier for ever. *)

Lemma abandoned_spins : forall l, forallb internal l = true ->
  let s := rcv_run (rcv_run (rcv_new nat) spun) l in
  ~ waits s /\ exists t, nth_error (rc_tasks s) 1 = Some t /\ (t = TCheck \/ t = TTry).
Proof.
  intros l Hl s. set (s0 := rcv_run (rcv_new nat) spun) in *.
  assert (Hr : resting s0).
  { split; vm_compute; repeat constructor; discriminate. }
  destruct (resting_run l s0 Hr Hl) as (_ & _ & Hc & Ht). split.
  - intros (c & Hin & Hw). unfold s in Hin. rewrite Hc in Hin. vm_compute in Hin. destruct Hin as [<-|[]]. discriminate Hw.
  - apply (Ht 1 TCheck); [reflexivity|now left].
Qed.

Lemma receiver_woken_uncancelled : forall (T : Type) (evs : list (rcv_event T)) rounds more, let s := rcv_run (rcv_new T) evs in
  cancels evs = 0 -> Forall (fair_round s) rounds -> settling s < length rounds -> forallb internal more = true ->
  let s' := rcv_run s (concat rounds ++ more) in
  resting s' /\ (waits s' -> rc_data s' = []).
Proof.
  intros T evs rounds more s H0 Hf Hl Hm s'. destruct (receiver_woken evs rounds more Hf Hl Hm) as [H1 H2]. split; [exact H1|].
  intros Hw. specialize (H2 Hw). rewrite H0 in H2. fold s s' in H2. destruct (rc_data s'); [reflexivity|cbn in H2; lia].
Qed.

Lemma woken_case : let s := rcv_run (rcv_new nat) [RPop; RConsumer 0; RPop; RConsumer 1; RConsumer 1; RConsumer 1; RConsumer 0; RConsumer 0; RPush 5] in
  let s' := rcv_run s (concat (repeat one_round 23)) in
  Forall (fair_round s) (repeat one_round 23) /\ settling s < 23 /\ waits s /\ rc_data s = [5]
  /\ waits s' /\ rc_data s' = [] /\ returned s' 1 5.
Proof.
  split; [apply Forall_forall; intros l Hl; apply repeat_spec in Hl; subst; exact one_round_fair|]. split; [cbn; lia|].
  split; [exists (CArrive 0); split; [vm_compute; auto|reflexivity]|]. split; [reflexivity|].
  split; [exists (CParked 1); split; [vm_compute; auto|reflexivity]|]. split; reflexivity.
Qed.

Lemma abandoned_case : let s := rcv_run (rcv_new nat) abandoned in
  let s' := rcv_run s (concat (repeat one_round 23)) in
  Forall (fair_round s) (repeat one_round 23) /\ settling s < 23 /\ waits s' /\ rc_data s' = [7] /\ cancels abandoned = 1.
Proof.
  split; [apply Forall_forall; intros l Hl; apply repeat_spec in Hl; subst; exact one_round_fair|]. split; [cbn; lia|].
  split; [exists (CParked 1); split; [vm_compute; auto|reflexivity]|]. split; reflexivity.
Qed.
