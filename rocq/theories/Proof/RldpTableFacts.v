(** The transfer table and the query limit. *)
From Coq Require Import List NArith Arith Bool Lia.
From Coq Require Import ZifyBool ZifyNat ZifyN.
From Verif.Base Require Import Bytes BytesFacts.
From Verif.Model Require Import RldpQuery RldpTable RldpLimit.
From Verif.Spec Require Import RldpSpec.
From Verif.Proof Require Import RldpQueryFacts.
Import ListNotations.
Local Open Scope nat_scope.

(** ** Interleavings *)

Definition touches (k : bytes) (a : action) : bool :=
  match a with AInsert i _ => bytes_eqb i k | ARemove i => bytes_eqb i k end.

Lemma stored_filter_from : forall k trace old,
  fold_left (fun o a => act a k o) trace old
  = fold_left (fun o a => act a k o) (filter (touches k) trace) old.
Proof.
  intros k trace. induction trace as [|a trace IH]; intros old; [reflexivity|].
  cbn [fold_left filter]. destruct (touches k a) eqn:E.
  - cbn [fold_left]. apply IH.
  - rewrite IH. f_equal. destruct a; cbn [touches act] in *; now rewrite E.
Qed.

Lemma stored_filter : forall k trace, stored trace k = stored (filter (touches k) trace) k.
Proof. intros. apply stored_filter_from. Qed.

Lemma interleaving_filter : forall f tasks trace,
  interleaving tasks trace -> interleaving (map (filter f) tasks) (filter f trace).
Proof.
  intros f tasks trace H. induction H as [tasks H|before a rest after trace H IH].
  - constructor. induction H; cbn [map]; constructor; [now subst|assumption].
  - rewrite map_app in *. cbn [map filter] in *. destruct (f a).
    + now constructor.
    + exact IH.
Qed.

(** Empty tasks do not matter. *)
Definition nonempty (l : list action) : bool := match l with [] => false | _ => true end.
Lemma interleaving_nonempty : forall tasks trace,
  interleaving tasks trace -> interleaving (filter nonempty tasks) trace.
Proof.
  intros tasks trace H. induction H as [tasks H|before a rest after trace H IH].
  - constructor. induction H; cbn [filter]; [constructor|]. subst x. exact IHForall.
  - rewrite filter_app in *. cbn [filter nonempty] in *. destruct rest as [|b rest].
    + cbn [nonempty] in IH. 
      assert (Hc : interleaving (filter nonempty before ++ [] :: filter nonempty after) trace).
      { clear -IH. revert IH. generalize (filter nonempty before) as l1, (filter nonempty after) as l2.
        intros l1 l2 H. remember (l1 ++ l2) as l. revert l1 l2 Heql.
        induction H as [tasks H|b a r af tr H IH]; intros l1 l2 He.
        - subst tasks. constructor. apply Forall_app in H as [Ha Hb]. apply Forall_app. split; [exact Ha|].
          constructor; [reflexivity|exact Hb].
        - assert (Hcase : (exists u, b = l1 ++ u /\ l2 = u ++ (a :: r) :: af)
                          \/ (exists v, l1 = b ++ (a :: r) :: v /\ af = v ++ l2)).
          { clear -He. revert b He. induction l1 as [|x l1 IHl]; intros b He.
            - left. exists b. split; [reflexivity|]. now cbn [app] in He.
            - destruct b as [|y b]; cbn [app] in He.
              + injection He as <- He. right. exists l1. split; [reflexivity|exact He].
              + injection He as <- He. destruct (IHl b He) as [[u [-> Hu]]|[v [-> Hv]]].
                * left. exists u. split; [reflexivity|exact Hu].
                * right. exists v. split; [reflexivity|exact Hv]. }
          destruct Hcase as [[u [-> ->]]|[v [-> ->]]].
          + specialize (IH l1 (u ++ r :: af)). rewrite <- app_assoc in IH. specialize (IH eq_refl).
            change (l1 ++ [] :: u ++ (a :: r) :: af) with (l1 ++ ([] :: u) ++ (a :: r) :: af).
            rewrite app_assoc. constructor. rewrite <- app_assoc. exact IH.
          + specialize (IH (b ++ r :: v) l2). rewrite <- app_assoc in IH. specialize (IH eq_refl).
            rewrite <- app_assoc in *. cbn [app] in *. now constructor. }
      now constructor.
    + now constructor.
Qed.

Lemma interleaving_nil : forall trace, interleaving [] trace -> trace = [].
Proof. intros trace H. inversion H as [|? ? ? ? ? ? He]; [reflexivity|]. destruct before; discriminate. Qed.

Lemma interleaving_single : forall l trace, interleaving [l] trace -> trace = l.
Proof.
  intros l. induction l as [|a l IH]; intros trace H; inversion H as [tasks Hf|b x r af tr H' He]; subst.
  - reflexivity.
  - destruct b as [|y b]; [discriminate|]. destruct b; discriminate.
  - inversion Hf as [|? ? He _]. discriminate.
  - destruct b as [|y b]; [|destruct b; discriminate]. cbn [app] in *. injection He as ? ? ?; subst.
    f_equal. now apply IH.
Qed.

(** Two tasks. *)
Lemma interleaving_two : forall a b l1 l2 trace,
  interleaving [a :: l1; b :: l2] trace ->
  (exists tr, trace = a :: tr /\ interleaving [l1; b :: l2] tr)
  \/ (exists tr, trace = b :: tr /\ interleaving [a :: l1; l2] tr).
Proof.
  intros a b l1 l2 trace H. inversion H as [tasks Hf|bf x r af tr H' He]; subst.
  - inversion Hf as [|? ? He _]. discriminate.
  - destruct bf as [|y bf]; cbn [app] in *.
    + injection He as ? ? ?; subst. left. eexists. split; [reflexivity|exact H'].
    + injection He as <- He. destruct bf as [|y2 bf]; [|destruct bf; discriminate]. cbn [app] in *.
      injection He as ? ? ?; subst. right. eexists. split; [reflexivity|exact H'].
Qed.

Lemma touch_insert : forall k i e, touches k (AInsert i e) = bytes_eqb i k.
Proof. reflexivity. Qed.
Lemma touch_remove : forall k i, touches k (ARemove i) = bytes_eqb i k.
Proof. reflexivity. Qed.

(** A transfer with other ids does not touch [k]. *)
Lemma tasks_untouched : forall t k, ~ In k (ids_of t) ->
  Forall (eq []) (map (filter (touches k)) (tasks_of t)).
Proof.
  intros t k H. unfold ids_of in H.
  assert (H1 : bytes_eqb (transfer_id t) k = false)
    by (apply bytes_eqb_neq; intros He; apply H; left; exact He).
  assert (H2 : bytes_eqb (negate_id (transfer_id t)) k = false)
    by (apply bytes_eqb_neq; intros He; apply H; right; left; exact He).
  destruct t as [id o|id o]; cbn [transfer_id] in *;
    cbn [tasks_of map]; unfold query_task, answer_task, timer_task;
    destruct o; cbn [app filter touches]; rewrite ?H1, ?H2; repeat constructor.
Qed.

Lemma others_untouched : forall ts k, Forall (fun t => ~ In k (ids_of t)) ts ->
  filter nonempty (map (filter (touches k)) (flat_map tasks_of ts)) = [].
Proof.
  intros ts k H. induction H as [|t ts Ht _ IH]; [reflexivity|].
  cbn [flat_map]. rewrite map_app, filter_app, IH, app_nil_r.
  pose proof (tasks_untouched t k Ht) as Hf. clear -Hf.
  induction Hf as [|x l Hx _ IH]; [reflexivity|]. subst x. exact IH.
Qed.

(** Only the tasks of [t] matter for its ids. *)
Lemma project : forall ts1 t ts2 trace k,
  interleaving (flat_map tasks_of (ts1 ++ t :: ts2)) trace ->
  Forall (fun t' => ~ In k (ids_of t')) (ts1 ++ ts2) ->
  interleaving (filter nonempty (map (filter (touches k)) (tasks_of t))) (filter (touches k) trace).
Proof.
  intros ts1 t ts2 trace k H Ho. apply Forall_app in Ho as [Ho1 Ho2].
  apply (interleaving_filter (touches k)) in H. apply interleaving_nonempty in H.
  rewrite flat_map_app in H. cbn [flat_map] in H. rewrite !map_app, !filter_app in H.
  rewrite (others_untouched ts1 k Ho1), (others_untouched ts2 k Ho2), app_nil_r in H. exact H.
Qed.

Lemma own_forall : forall t others k, own_ids t others -> In k (ids_of t) ->
  Forall (fun t' => ~ In k (ids_of t')) others.
Proof. intros t others k H Hk. apply Forall_forall. intros t' Ht'. exact (H t' k Ht' Hk). Qed.

Lemma negate_eqb : forall id, id <> [] -> bytes_eqb (negate_id id) id = false /\ bytes_eqb id (negate_id id) = false.
Proof.
  intros id H. pose proof (negate_differs id H) as Hn. split; apply bytes_eqb_neq; congruence.
Qed.

Lemma query_removed : forall ts1 ts2 id o trace, id <> [] ->
  interleaving (flat_map tasks_of (ts1 ++ TQuery id o :: ts2)) trace ->
  own_ids (TQuery id o) (ts1 ++ ts2) ->
  stored trace id = None /\ stored trace (negate_id id) = None.
Proof.
  intros ts1 ts2 id o trace Hid H Hown. destruct (negate_eqb id Hid) as [N1 N2].
  split; rewrite stored_filter.
  - pose proof (project _ _ _ _ id H (own_forall _ _ _ Hown (or_introl eq_refl))) as P.
    cbn [tasks_of map] in P. unfold query_task in P. destruct o; cbn [app filter] in P;
      rewrite !touch_insert, !touch_remove in P; rewrite !N1, !bytes_eqb_refl in P; cbn [filter nonempty] in P;
      apply interleaving_single in P; rewrite P; cbn [stored fold_left act];
      rewrite !bytes_eqb_refl; reflexivity.
  - pose proof (project _ _ _ _ (negate_id id) H (own_forall _ _ _ Hown (or_intror (or_introl eq_refl)))) as P.
    cbn [tasks_of map] in P. unfold query_task in P. destruct o; cbn [app filter] in P;
      rewrite !touch_insert, !touch_remove in P; rewrite !N2, !bytes_eqb_refl in P; cbn [filter nonempty] in P;
      apply interleaving_single in P; rewrite P; cbn [stored fold_left act];
      rewrite !bytes_eqb_refl; reflexivity.
Qed.

(** The answer entry of a failed transmission stays. *)
Lemma answer_leaked : forall ts1 ts2 id trace, id <> [] ->
  interleaving (flat_map tasks_of (ts1 ++ TAnswer id ASendError :: ts2)) trace ->
  own_ids (TAnswer id ASendError) (ts1 ++ ts2) ->
  stored trace (negate_id id) = Some EOutgoing.
Proof.
  intros ts1 ts2 id trace Hid H Hown. destruct (negate_eqb id Hid) as [N1 N2]. rewrite stored_filter.
  pose proof (project _ _ _ _ (negate_id id) H (own_forall _ _ _ Hown (or_intror (or_introl eq_refl)))) as P.
  cbn [tasks_of map] in P. unfold answer_task, timer_task in P. cbn [app filter] in P.
  rewrite !touch_insert, !touch_remove in P; rewrite !N2, !bytes_eqb_refl in P; cbn [filter nonempty] in P.
  apply interleaving_single in P. rewrite P. cbn [stored fold_left act].
  rewrite !bytes_eqb_refl. reflexivity.
Qed.

(** Otherwise the answer entry is removed, and the query entry too unless the timer fires after the removal. *)
Lemma answer_removed : forall ts1 ts2 id o trace, id <> [] -> o <> ASendError ->
  interleaving (flat_map tasks_of (ts1 ++ TAnswer id o :: ts2)) trace ->
  own_ids (TAnswer id o) (ts1 ++ ts2) ->
  stored trace (negate_id id) = None
  /\ forall t1 t2, trace = t1 ++ ARemove id :: t2 -> ~ In (AInsert id EDone) t2 -> stored trace id = None.
Proof.
  intros ts1 ts2 id o trace Hid Ho H Hown. destruct (negate_eqb id Hid) as [N1 N2]. split.
  - rewrite stored_filter.
    pose proof (project _ _ _ _ (negate_id id) H (own_forall _ _ _ Hown (or_intror (or_introl eq_refl)))) as P.
    cbn [tasks_of map] in P. unfold answer_task, timer_task in P.
    destruct o; [| |congruence]; cbn [app filter] in P;
      rewrite !touch_insert, !touch_remove in P; rewrite ?N2, ?bytes_eqb_refl in P; cbn [filter nonempty] in P.
    + apply interleaving_nil in P. rewrite P. reflexivity.
    + apply interleaving_single in P. rewrite P. cbn [stored fold_left act]. rewrite !bytes_eqb_refl. reflexivity.
  - intros t1 t2 Ht Hn.
    pose proof (project _ _ _ _ id H (own_forall _ _ _ Hown (or_introl eq_refl))) as P.
    assert (Hcases : exists u, (u = [] \/ u = [AInsert id EDone])
              /\ filter (touches id) trace
                 = filter (touches id) t1 ++ ARemove id :: u /\ filter (touches id) t2 = u).
    { assert (Hf : filter (touches id) trace = filter (touches id) t1 ++ ARemove id :: filter (touches id) t2).
      { rewrite Ht, filter_app. cbn [filter touches]. now rewrite bytes_eqb_refl. }
      cbn [tasks_of map] in P. unfold answer_task, timer_task in P.
      assert (P' : interleaving [[AInsert id EIncoming; AInsert id EDone; ARemove id]; [AInsert id EDone]]
                     (filter (touches id) trace)).
      { destruct o; [| |congruence]; cbn [app filter] in P;
          rewrite !touch_insert, !touch_remove in P; rewrite ?N1, ?bytes_eqb_refl in P; cbn [filter nonempty] in P;
          exact P. }
      rewrite Hf in P'. exists (filter (touches id) t2). split; [|split; [exact Hf|reflexivity]].
      clear -P'. generalize dependent (filter (touches id) t2). generalize (filter (touches id) t1) as x.
      intros x y P.
      assert (Hend : forall w, interleaving [[ARemove id]; [AInsert id EDone]] w ->
                 w = [ARemove id; AInsert id EDone] \/ w = [AInsert id EDone; ARemove id]).
      { intros w Hw. apply interleaving_two in Hw as [[tr [-> Hw]]|[tr [-> Hw]]];
          apply interleaving_nonempty in Hw; cbn [filter nonempty] in Hw; apply interleaving_single in Hw; subst tr;
          [left|right]; reflexivity. }
      assert (Hall : forall w, interleaving [[AInsert id EIncoming; AInsert id EDone; ARemove id]; [AInsert id EDone]] w ->
                 w = [AInsert id EIncoming; AInsert id EDone; ARemove id; AInsert id EDone]
                 \/ exists v, w = v ++ [ARemove id] /\ ~ In (ARemove id) v).
      { intros w Hw. apply interleaving_two in Hw as [[tr [-> Hw]]|[tr [-> Hw]]].
        - apply interleaving_two in Hw as [[tr2 [-> Hw]]|[tr2 [-> Hw]]].
          + destruct (Hend _ Hw) as [->| ->]; [left; reflexivity|right].
            exists [AInsert id EIncoming; AInsert id EDone; AInsert id EDone].
            split; [reflexivity|cbn; intuition discriminate].
          + apply interleaving_nonempty in Hw; cbn [filter nonempty] in Hw; apply interleaving_single in Hw; subst tr2.
            right. exists [AInsert id EIncoming; AInsert id EDone; AInsert id EDone].
            split; [reflexivity|cbn; intuition discriminate].
        - apply interleaving_nonempty in Hw; cbn [filter nonempty] in Hw; apply interleaving_single in Hw; subst tr.
          right. exists [AInsert id EDone; AInsert id EIncoming; AInsert id EDone].
          split; [reflexivity|cbn; intuition discriminate]. }
      destruct (Hall _ P) as [He|(v & He & Hv)].
      - right. do 3 (destruct x as [|? x]; [discriminate He || (injection He as He; subst; reflexivity)|injection He as -> He]).
        destruct x as [|? x]; [now injection He|]. injection He as -> He. destruct x; discriminate.
      - left. destruct y as [|z y]; [reflexivity|exfalso].
        destruct (@exists_last _ (z :: y) ltac:(discriminate)) as [y' [l Hy]].
        rewrite Hy in He. change (ARemove id :: y' ++ [l]) with ((ARemove id :: y') ++ [l]) in He.
        rewrite app_assoc in He. apply app_inj_tail in He as [He _]. apply Hv. rewrite <- He.
        apply in_or_app. right. left. reflexivity. }
    destruct Hcases as (u & [->|Hu] & Hf & H2).
    + rewrite stored_filter, Hf. unfold stored. rewrite fold_left_app. cbn [fold_left act].
      now rewrite bytes_eqb_refl.
    + exfalso. apply Hn. rewrite Hu in H2.
      assert (Hin : In (AInsert id EDone) (filter (touches id) t2)) by (rewrite H2; left; reflexivity).
      now apply filter_In in Hin.
Qed.

(** The late timer. *)
Lemma timer_leaks : forall id, id <> [] ->
  exists trace, interleaving (flat_map tasks_of [TAnswer id ANothing]) trace
    /\ stored trace id = Some EDone.
Proof.
  intros id Hid. exists [AInsert id EIncoming; AInsert id EDone; ARemove id; AInsert id EDone]. split.
  - cbn [flat_map tasks_of app answer_task timer_task].
    apply (interleaving_step []). apply (interleaving_step []). apply (interleaving_step []). cbn [app].
    apply (interleaving_step [[]]). cbn [app]. constructor. repeat constructor.
  - cbn [stored fold_left act]. now rewrite !bytes_eqb_refl.
Qed.

(** ** The query limit *)

Lemma limit_run_app : forall max l a b, limit_run max l (a ++ b) = limit_run max (limit_run max l a) b.
Proof. intros. apply fold_left_app. Qed.

(** Looking the semaphore up, losing it to the collector, then taking the permit. *)
Definition slip (q : nat) : list limit_event := [LAsk; LGc; LAcquire q].

Lemma filter_snoc_running : forall l s, filter is_running (l ++ [Running s]) = filter is_running l ++ [Running s].
Proof. intros. rewrite filter_app. reflexivity. Qed.

Lemma set_nth_snoc : forall A (l : list A) x y, set_nth (length l) y (l ++ [x]) = l ++ [y].
Proof. intros A l x y. induction l as [|z l IH]; [reflexivity|]. cbn [length app set_nth]. now rewrite IH. Qed.

Lemma slip_step : forall max l, 0 < max -> li_table l = None ->
  let l' := limit_run max l (slip (length (li_queries l))) in
  li_table l' = None /\ length (li_queries l') = S (length (li_queries l)) /\ in_flight l' = S (in_flight l).
Proof.
  intros max l Hm Ht. destruct l as [tb fr qs]. cbn [li_table] in Ht. subst tb. cbn [li_queries].
  assert (E : limit_run max (mk_limiter None fr qs) (slip (length qs))
              = mk_limiter None (set_nth (length fr) (pred max) (fr ++ [max])) (qs ++ [Running (length fr)])).
  { unfold slip, limit_run. cbn [fold_left].
    assert (E1 : limit_step max (mk_limiter None fr qs) LAsk
                 = mk_limiter (Some (length fr)) (fr ++ [max]) (qs ++ [Waiting (length fr)])) by reflexivity.
    rewrite E1.
    assert (E2 : limit_step max (mk_limiter (Some (length fr)) (fr ++ [max]) (qs ++ [Waiting (length fr)])) LGc
                 = mk_limiter None (fr ++ [max]) (qs ++ [Waiting (length fr)])).
    { cbn [limit_step li_table li_free li_queries]. rewrite nth_error_app2 by lia. rewrite Nat.sub_diag.
      cbn [nth_error]. now rewrite Nat.ltb_irrefl. }
    rewrite E2. cbn [limit_step li_table li_free li_queries]. rewrite nth_error_app2 by lia.
    rewrite Nat.sub_diag. cbn [nth_error]. rewrite nth_error_app2 by lia. rewrite Nat.sub_diag. cbn [nth_error].
    destruct max as [|max]; [lia|]. cbn [pred]. now rewrite !set_nth_snoc. }
  cbv zeta. rewrite E. cbn [li_table li_queries].
  split; [reflexivity|]. split; [rewrite app_length; cbn [length]; lia|].
  unfold in_flight. cbn [li_queries]. rewrite filter_snoc_running, app_length. cbn [length]. lia.
Qed.

Lemma limit_exceeded : forall max n, 0 < max ->
  exists evs, in_flight (limit_run max limiter_new evs) = n.
Proof.
  intros max n Hm.
  enough (H : exists evs, let l := limit_run max limiter_new evs in
            li_table l = None /\ length (li_queries l) = n /\ in_flight l = n)
    by (destruct H as [evs H]; exists evs; apply H).
  induction n as [|n IH].
  - exists []. cbn. tauto.
  - destruct IH as [evs (H1 & H2 & H3)]. exists (evs ++ slip n). rewrite limit_run_app.
    pose proof (slip_step max (limit_run max limiter_new evs) Hm H1) as H. rewrite H2 in H.
    cbv zeta in *. rewrite H3 in H. exact H.
Qed.

(** Without a collection in that gap: all queries that wait or run use the stored semaphore. *)
Definition sem_of (q : query_at) : option nat :=
  match q with Waiting s | Running s => Some s | Finished => None end.

Definition running_of (s : nat) (q : query_at) : bool :=
  match q with Running s' => Nat.eqb s' s | _ => false end.

Definition limit_inv (max : nat) (l : limiter) : Prop :=
  (forall s, li_table l = Some s ->
     exists free, nth_error (li_free l) s = Some free
       /\ free + length (filter (running_of s) (li_queries l)) = max)
  /\ Forall (fun q => sem_of q = None \/ sem_of q = li_table l) (li_queries l).

Lemma Forall_set_nth : forall A (P : A -> Prop) l i x, Forall P l -> P x -> Forall P (set_nth i x l).
Proof.
  intros A P l. induction l as [|y l IH]; intros i x Hl Hx; [destruct i; constructor|].
  inversion Hl; subst. destruct i; cbn [set_nth]; constructor; auto.
Qed.

Lemma filter_set_nth : forall A (f : A -> bool) l i x y, nth_error l i = Some y ->
  length (filter f (set_nth i x l)) + (if f y then 1 else 0)
  = length (filter f l) + (if f x then 1 else 0).
Proof.
  intros A f l. induction l as [|z l IH]; intros i x y H; [destruct i; discriminate|].
  destruct i as [|i]; cbn [nth_error set_nth filter] in *.
  - injection H as ->. destruct (f x), (f y); cbn [length]; lia.
  - specialize (IH i x y H). destruct (f z); cbn [length]; lia.
Qed.

Lemma filter_none : forall A (f : A -> bool) l, Forall (fun x => f x = false) l -> filter f l = [].
Proof. intros A f l H. induction H as [|x l Hx _ IH]; [reflexivity|]. cbn [filter]. now rewrite Hx. Qed.

Lemma limit_step_inv : forall max l ev, limit_inv max l -> (ev = LGc -> none_waiting l) ->
  limit_inv max (limit_step max l ev).
Proof.
  intros max l ev [I1 I2] Hg. destruct ev as [|q|q|]; cbn [limit_step].
  - destruct (li_table l) as [s|] eqn:Et.
    + split; cbn [li_table li_free li_queries].
      * intros s' Hs'. injection Hs' as <-. destruct (I1 s eq_refl) as [f [Hf1 Hf2]].
        exists f. split; [exact Hf1|]. rewrite filter_app. cbn [filter running_of]. now rewrite app_nil_r.
      * apply Forall_app. split; [exact I2|]. constructor; [right; reflexivity|constructor].
    + split; cbn [li_table li_free li_queries].
      * intros s' Hs'. injection Hs' as <-. exists max. split.
        -- rewrite nth_error_app2 by lia. now rewrite Nat.sub_diag.
        -- rewrite filter_app. cbn [filter running_of]. rewrite app_nil_r, filter_none; [cbn; lia|].
           eapply Forall_impl; [|exact I2]. intros q [Hq|Hq]; destruct q; cbn [sem_of running_of] in *; congruence.
      * apply Forall_app. split; [|constructor; [right; reflexivity|constructor]].
        eapply Forall_impl; [|exact I2]. intros q [Hq|Hq]; left; congruence.
  - destruct (nth_error (li_queries l) q) as [[s|s|]|] eqn:Eq; try (split; assumption).
    destruct (nth_error (li_free l) s) as [[|n]|] eqn:Ef; try (split; assumption).
    assert (Hst : li_table l = Some s).
    { rewrite Forall_forall in I2. destruct (I2 _ (nth_error_In _ _ Eq)) as [Hx|Hx]; cbn [sem_of] in Hx; congruence. }
    split; cbn [li_table li_free li_queries].
    + intros s' Hs'. rewrite Hst in Hs'. injection Hs' as <-. destruct (I1 s Hst) as [f [Hf1 Hf2]].
      rewrite Ef in Hf1. injection Hf1 as <-. exists n. split.
      * apply nth_error_set_nth_eq. apply nth_error_Some. congruence.
      * pose proof (filter_set_nth _ (running_of s) (li_queries l) q (Running s) (Waiting s) Eq) as Hc.
        cbn [running_of] in Hc. rewrite Nat.eqb_refl in Hc. lia.
    + apply Forall_set_nth; [exact I2|]. right. cbn [sem_of]. congruence.
  - destruct (nth_error (li_queries l) q) as [[s|s|]|] eqn:Eq; try (split; assumption).
    destruct (nth_error (li_free l) s) as [n|] eqn:Ef; try (split; assumption).
    assert (Hst : li_table l = Some s).
    { rewrite Forall_forall in I2. destruct (I2 _ (nth_error_In _ _ Eq)) as [Hx|Hx]; cbn [sem_of] in Hx; congruence. }
    split; cbn [li_table li_free li_queries].
    + intros s' Hs'. rewrite Hst in Hs'. injection Hs' as <-. destruct (I1 s Hst) as [f [Hf1 Hf2]].
      rewrite Ef in Hf1. injection Hf1 as <-. exists (S n). split.
      * apply nth_error_set_nth_eq. apply nth_error_Some. congruence.
      * pose proof (filter_set_nth _ (running_of s) (li_queries l) q Finished (Running s) Eq) as Hc.
        cbn [running_of] in Hc. rewrite Nat.eqb_refl in Hc. lia.
    + apply Forall_set_nth; [exact I2|]. left. reflexivity.
  - destruct (li_table l) as [s|] eqn:Et; [|split; [rewrite Et; exact I1|rewrite Et; exact I2]].
    destruct (I1 s eq_refl) as [f [Hf1 Hf2]]. rewrite Hf1.
    destruct (Nat.ltb_spec f max); [split; [rewrite Et; exact I1|rewrite Et; exact I2]|].
    split; cbn [li_table li_free li_queries]; [discriminate|].
    assert (Hz : filter (running_of s) (li_queries l) = []).
    { destruct (filter (running_of s) (li_queries l)); [reflexivity|cbn [length] in Hf2; lia]. }
    specialize (Hg eq_refl). unfold none_waiting in Hg. rewrite Forall_forall in *.
    intros q Hq. left. specialize (I2 q Hq). specialize (Hg q Hq). destruct q as [s'|s'|]; [contradiction| |reflexivity].
    cbn [sem_of] in I2. destruct I2 as [I2|I2]; [discriminate|]. injection I2 as ->.
    exfalso. assert (Hin : In (Running s) (filter (running_of s) (li_queries l)))
      by (apply filter_In; split; [exact Hq|cbn [running_of]; apply Nat.eqb_refl]).
    rewrite Hz in Hin. destruct Hin.
Qed.

Lemma limit_inv_bound : forall max l, limit_inv max l -> in_flight l <= max.
Proof.
  intros max l [I1 I2]. unfold in_flight. destruct (li_table l) as [s|] eqn:Et.
  - destruct (I1 s eq_refl) as [f [_ Hf]].
    assert (He : filter is_running (li_queries l) = filter (running_of s) (li_queries l)).
    { apply filter_ext_in. intros q Hq. rewrite Forall_forall in I2. specialize (I2 q Hq).
      destruct q as [s'|s'|]; cbn [is_running running_of sem_of] in *; try reflexivity.
      destruct I2 as [I2|I2]; [discriminate|]. injection I2 as ->. symmetry. apply Nat.eqb_refl. }
    rewrite He. lia.
  - rewrite filter_none; [cbn; lia|]. eapply Forall_impl; [|exact I2].
    intros q [Hq|Hq]; destruct q; cbn [sem_of is_running] in *; congruence.
Qed.

Lemma limit_run_inv : forall max evs l, limit_inv max l -> gc_in_peace max l evs -> limit_inv max (limit_run max l evs).
Proof.
  intros max evs. induction evs as [|ev evs IH]; intros l Hi Hg; [exact Hi|].
  cbn [gc_in_peace] in Hg. destruct Hg as [Hg1 Hg2]. cbn [limit_run fold_left]. apply IH; [|exact Hg2].
  now apply limit_step_inv.
Qed.

Lemma limit_kept : forall max evs, gc_in_peace max limiter_new evs ->
  in_flight (limit_run max limiter_new evs) <= max.
Proof.
  intros max evs H. apply limit_inv_bound. apply limit_run_inv; [|exact H].
  split; [discriminate|constructor].
Qed.
