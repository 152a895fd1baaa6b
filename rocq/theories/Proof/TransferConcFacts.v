(** Concurrent reassembly of multipart messages. *)
From stdpp Require Import gmap.
From Coq Require Import NArith ZArith Lia.
From Coq Require Import ZifyBool ZifyNat ZifyN.
From Verif.Base Require Import Bytes BytesFacts.
From Verif.Model Require Import Crypto Tl ProtoAdnl Transfer TransferConc.
From Verif.Spec Require Import TransferSpec TransferConcSpec.
From Verif.Proof Require Import TransferFacts.
Open Scope N_scope.

(** ** Sums over lists *)
Fixpoint sum {A} (f : A -> N) (l : list A) : N :=
  match l with [] => 0 | a :: r => f a + sum f r end.

Lemma sum_insert {A} (f : A -> N) (l : list A) k t t' :
  l !! k = Some t -> sum f (<[k := t']> l) + f t = sum f l + f t'.
Proof.
  revert k. induction l as [|a l IH]; intros [|k] H; try discriminate H.
  - cbn in H. injection H as ->. cbn [insert list_insert sum]. lia.
  - cbn in H. apply IH in H. change (<[S k:=t']> (a :: l)) with (a :: <[k:=t']> l). cbn [sum]. lia.
Qed.
Lemma sum_app {A} (f : A -> N) (l r : list A) : sum f (l ++ r) = sum f l + sum f r.
Proof. induction l as [|a l IH]; [reflexivity|]. cbn [app sum]. rewrite IH. lia. Qed.
Lemma sum_in {A} (f : A -> N) (l : list A) t : In t l -> f t <= sum f l.
Proof. induction l as [|a l IH]; intros []; cbn [sum]; [subst; lia|]. specialize (IH H). lia. Qed.
Lemma sum_zero {A} (f : A -> N) (l : list A) : (forall t, In t l -> f t = 0) -> sum f l = 0.
Proof.
  induction l as [|a l IH]; intros H; [reflexivity|]. cbn [sum].
  rewrite (H a (or_introl eq_refl)), IH; [reflexivity|]. intros t Ht. apply H. now right.
Qed.
Lemma sum_nonzero {A} (f : A -> N) (l : list A) : 0 < sum f l -> exists t, In t l /\ 0 < f t.
Proof.
  induction l as [|a l IH]; cbn [sum]; intros H; [lia|]. destruct (N.eq_dec (f a) 0) as [E|E].
  - destruct IH as (t & H1 & H2); [lia|]. exists t. split; [now right|exact H2].
  - exists a. split; [now left|lia].
Qed.
Lemma sum_le {A} (f g : A -> N) (l : list A) : (forall t, In t l -> f t <= g t) -> sum f l <= sum g l.
Proof.
  induction l as [|a l IH]; intros H; [cbn; lia|]. cbn [sum]. specialize (H a (or_introl eq_refl)) as Ha.
  assert (sum f l <= sum g l) by (apply IH; intros t Ht; apply H; now right). lia.
Qed.
Lemma sum_alter {A} (g : A -> N) (f : A -> A) (l : list A) h x :
  l !! h = Some x -> sum g (alter f h l) + g x = sum g l + g (f x).
Proof.
  intros H. rewrite <- (sum_insert g l h x (f x) H). f_equal. f_equal. apply list_eq. intros i.
  destruct (decide (i = h)) as [->|Hne].
  - rewrite list_lookup_alter, list_lookup_insert by (apply lookup_lt_Some with x; exact H). now rewrite H.
  - now rewrite list_lookup_alter_ne, list_lookup_insert_ne by congruence.
Qed.
Lemma In_insert {A} (l : list A) k t' u : In u (<[k := t']> l) -> u = t' \/ In u l.
Proof.
  intros H. apply elem_of_list_In, elem_of_list_lookup in H as [i H]. destruct (decide (i = k)) as [->|Hne].
  - apply lookup_lt_Some in H as Hl. rewrite insert_length in Hl.
    rewrite list_lookup_insert in H by exact Hl. left. congruence.
  - rewrite list_lookup_insert_ne in H by congruence. right. apply elem_of_list_In. eapply elem_of_list_lookup_2, H.
Qed.
Lemma In_insert_new {A} (l : list A) k t t' : l !! k = Some t -> In t' (<[k := t']> l).
Proof.
  intros H. apply elem_of_list_In. apply elem_of_list_lookup_2 with k. apply list_lookup_insert.
  eapply lookup_lt_Some, H.
Qed.
Lemma In_insert_old {A} (l : list A) k t t' u : l !! k = Some t -> In u l -> u <> t -> In u (<[k := t']> l).
Proof.
  intros H Hu Hne. apply elem_of_list_In, elem_of_list_lookup in Hu as [i Hi]. apply elem_of_list_In.
  apply elem_of_list_lookup_2 with i. rewrite list_lookup_insert_ne; [exact Hi|]. intros ->. congruence.
Qed.
Lemma lookup_In {A} (l : list A) k t : l !! k = Some t -> In t l.
Proof. intros H. apply elem_of_list_In. eapply elem_of_list_lookup_2, H. Qed.

(** ** What holds in every run *)

Definition task_handle (t : task) : option nat :=
  match t with
  | AtEntry _ _ _ _ => None
  | AtRefresh h _ _ _ | AtInsert h _ _ _ | AtAdd h _ _ _ | AtExchange h _ _
  | AtCombine h _ _ _ | AtRemove h _ _ | Ended h _ _ => Some h
  end.
(** Tasks that won the exchange. *)
Definition winning (o : part_outcome) : bool :=
  match o with Whole _ | Failed PartMissing | Failed InvalidHash => true | _ => false end.
Definition won_by (t : task) : bool :=
  match t with AtCombine _ _ _ _ => true | AtRemove _ _ o | Ended _ _ o => winning o | _ => false end.
Definition wins (h : nat) (t : task) : N :=
  if won_by t && bool_decide (task_handle t = Some h) then 1 else 0.

Record sane (P : prims) (table : gmap bytes nat) (heap : list shared_transfer) (tasks : list task) : Prop := mk_sane
  { sn_tasks : forall t h, In t tasks -> task_handle t = Some h -> exists x, heap !! h = Some x /\ x_hash x = task_id t;
    sn_table : forall (i : bytes) (h : nat), table !! i = Some h -> exists x, heap !! h = Some x /\ x_hash x = i;
    sn_wins : forall h x, heap !! h = Some x -> 0 < x_total x ->
      sum (wins h) tasks <= 1 /\ (0 < sum (wins h) tasks -> x_total x < x_received x);
    sn_whole : forall t, In t tasks ->
      match t with AtRemove _ i (Whole m) | Ended _ i (Whole m) => sha256 P m = i | _ => True end }.

Definition sane_state (P : prims) (s : receiving_state) : Prop := sane P (c_table s) (c_heap s) (c_tasks s).

(** How one step may change the heap, as far as this is concerned. *)
Definition heap_later (heap heap' : list shared_transfer) : Prop :=
  forall h x, heap !! h = Some x -> exists x', heap' !! h = Some x' /\ x_hash x' = x_hash x
    /\ x_total x' = x_total x /\ x_received x <= x_received x'.

Lemma heap_later_refl : forall heap, heap_later heap heap.
Proof. intros heap h x H. exists x. repeat split; [exact H|lia]. Qed.
Lemma heap_later_app : forall heap l, heap_later heap (heap ++ l).
Proof. intros heap l h x H. exists x. repeat split; [apply lookup_app_l_Some; exact H|lia]. Qed.
Lemma heap_later_alter : forall heap h f,
  (forall x, heap !! h = Some x -> x_hash (f x) = x_hash x /\ x_total (f x) = x_total x /\ x_received x <= x_received (f x)) ->
  heap_later heap (alter f h heap).
Proof.
  intros heap h f Hf h' x H. destruct (decide (h' = h)) as [->|Hne].
  - exists (f x). rewrite list_lookup_alter, H. destruct (Hf x H) as (H1 & H2 & H3). repeat split; assumption.
  - exists x. rewrite list_lookup_alter_ne by congruence. repeat split; [exact H|lia].
Qed.

(** The change of one task that does not win. *)
Lemma sane_move : forall P table heap tasks table' heap' k t t',
  sane P table heap tasks -> tasks !! k = Some t ->
  heap_later heap heap' ->
  (forall (i : bytes) (h : nat), table' !! i = Some h -> table !! i = Some h \/ exists x, heap' !! h = Some x /\ x_hash x = i) ->
  (forall h x, heap' !! h = Some x -> is_Some (heap !! h) \/ (sum (wins h) tasks = 0 /\ wins h t' = 0)) ->
  (forall h, task_handle t' = Some h -> exists x, heap' !! h = Some x /\ x_hash x = task_id t') ->
  (forall h, wins h t' <= wins h t) ->
  match t' with AtRemove _ i (Whole m) | Ended _ i (Whole m) => sha256 P m = i | _ => True end ->
  sane P table' heap' (<[k := t']> tasks).
Proof.
  intros P table heap tasks table' heap' k t t' HS Hk Hheap Htab Hnew Hh Hw Hm.
  assert (Hsum : forall h, sum (wins h) (<[k := t']> tasks) <= sum (wins h) tasks).
  { intros h. pose proof (sum_insert (wins h) tasks k t t' Hk). specialize (Hw h). lia. }
  split.
  - intros u h Hu E. apply In_insert in Hu as [->|Hu]; [exact (Hh h E)|].
    destruct (sn_tasks _ _ _ _ HS u h Hu E) as (x & H1 & H2). destruct (Hheap h x H1) as (x' & H3 & H4 & _).
    exists x'. split; [exact H3|congruence].
  - intros i h E. destruct (Htab i h E) as [H|H]; [|exact H].
    destruct (sn_table _ _ _ _ HS i h H) as (x & H1 & H2). destruct (Hheap h x H1) as (x' & H3 & H4 & _).
    exists x'. split; [exact H3|congruence].
  - intros h x Hx Ht. destruct (Hnew h x Hx) as [[x0 H0]|[Hz1 Hz2]].
    + destruct (Hheap h x0 H0) as (x' & H3 & _ & H5 & H6). rewrite Hx in H3. injection H3 as <-.
      destruct (sn_wins _ _ _ _ HS h x0 H0) as [H7 H8]; [lia|]. specialize (Hsum h). split; [lia|].
      intros Hp. assert (x_total x0 < x_received x0) by (apply H8; lia). lia.
    + specialize (Hsum h). split; [lia|]. intros Hp. lia.
  - intros u Hu. apply In_insert in Hu as [->|Hu]; [exact Hm|exact (sn_whole _ _ _ _ HS u Hu)].
Qed.

Lemma wins_none : forall h t, won_by t = false -> wins h t = 0.
Proof. intros h t H. unfold wins. now rewrite H. Qed.

Lemma no_wins_beyond : forall P table heap tasks h, sane P table heap tasks -> heap !! h = None -> sum (wins h) tasks = 0.
Proof.
  intros P table heap tasks h HS Hn. apply sum_zero. intros t Ht. unfold wins.
  destruct (won_by t); [|reflexivity]. destruct (decide (task_handle t = Some h)) as [E|E].
  - destruct (sn_tasks _ _ _ _ HS t h Ht E) as (x & Hx & _). congruence.
  - rewrite bool_decide_false by exact E. reflexivity.
Qed.

Lemma sane_step : forall P timeout s e, sane_state P s -> sane_state P (receiving_step P timeout s e).
Proof.
  intros P timeout s e HS. unfold sane_state in *. destruct e as [hash total offset data|k|h|ms]; cbn [receiving_step].
  - (* a part comes in *)
    cbn [c_table c_heap c_tasks]. split.
    + intros t h Ht E. apply in_app_iff in Ht as [Ht|[<-|[]]]; [exact (sn_tasks _ _ _ _ HS t h Ht E)|discriminate E].
    + exact (sn_table _ _ _ _ HS).
    + intros h x Hx Ht. rewrite sum_app. cbn [sum]. rewrite (wins_none h (AtEntry hash total offset data)) by reflexivity.
      rewrite !N.add_0_r. exact (sn_wins _ _ _ _ HS h x Hx Ht).
    + intros t Ht. apply in_app_iff in Ht as [Ht|[<-|[]]]; [exact (sn_whole _ _ _ _ HS t Ht)|exact I].
  - (* a task *)
    destruct (c_tasks s !! k) as [t|] eqn:Hk; [|exact HS].
    assert (Hold : forall h, task_handle t = Some h -> exists x, c_heap s !! h = Some x /\ x_hash x = task_id t).
    { intros h E. exact (sn_tasks _ _ _ _ HS t h (lookup_In _ _ _ Hk) E). }
    assert (Hsame : forall h x, c_heap s !! h = Some x -> is_Some (c_heap s !! h) \/ (sum (wins h) (c_tasks s) = 0 /\ wins h t = 0)).
    { intros h x Hx. left. rewrite Hx. eexists; reflexivity. }
    destruct t as [hash total offset data|h hash offset data|h hash offset data|h hash offset size|h hash offset|h hash received buffer|h hash o|h hash o];
      cbn [task_step].
    + destruct (c_table s !! hash) as [h|] eqn:Et; cbn [c_table c_heap c_tasks].
      * apply (sane_move _ _ _ _ _ _ _ _ _ HS Hk); [apply heap_later_refl|tauto| | | |exact I].
        -- intros h0 x Hx. left. rewrite Hx. eexists; reflexivity.
        -- intros h0 [= <-]. exact (sn_table _ _ _ _ HS _ _ Et).
        -- intros h0. rewrite !wins_none by reflexivity. lia.
      * apply (sane_move _ _ _ _ _ _ _ _ _ HS Hk); [apply heap_later_app| | | | |exact I].
        -- intros i h0 E. destruct (decide (i = hash)) as [->|Hne].
           ++ rewrite lookup_insert in E. injection E as <-. right. eexists. split; [apply list_lookup_middle; reflexivity|reflexivity].
           ++ rewrite lookup_insert_ne in E by congruence. left. exact E.
        -- intros h0 x Hx. destruct (c_heap s !! h0) as [x0|] eqn:E0; [left; eexists; reflexivity|].
           right. split; [exact (no_wins_beyond _ _ _ _ _ HS E0)|reflexivity].
        -- intros h0 [= <-]. eexists. split; [apply list_lookup_middle; reflexivity|reflexivity].
        -- intros h0. rewrite !wins_none by reflexivity. lia.
    + destruct (Hold h eq_refl) as (x & Hx & Hxh). rewrite Hx. cbn [with_transfer c_table c_heap c_tasks].
      assert (HL : heap_later (c_heap s) (alter (fun x => set_updated x (elapsed_secs s x)) h (c_heap s))).
      { apply heap_later_alter. intros y _. cbn. repeat split; lia. }
      apply (sane_move _ _ _ _ _ _ _ _ _ HS Hk); [exact HL|tauto| | | |exact I].
      * intros h0 y Hy. left. destruct (c_heap s !! h0) eqn:E0; [eexists; reflexivity|].
        destruct (decide (h0 = h)) as [->|Hne]; [congruence|]. rewrite list_lookup_alter_ne in Hy by congruence. congruence.
      * intros h0 [= <-]. destruct (HL _ _ Hx) as (x' & H1 & H2 & _). exists x'. split; [exact H1|]. cbn [task_id] in *. congruence.
      * intros h0. rewrite !wins_none by reflexivity. lia.
    + destruct (Hold h eq_refl) as (x & Hx & Hxh). rewrite Hx. cbn [with_transfer c_table c_heap c_tasks].
      assert (HL : heap_later (c_heap s) (alter (fun x => set_parts x (<[offset:=data]> (x_parts x))) h (c_heap s))).
      { apply heap_later_alter. intros y _. cbn. repeat split; lia. }
      assert (HN : forall h0 y, alter (fun x => set_parts x (<[offset:=data]> (x_parts x))) h (c_heap s) !! h0 = Some y -> is_Some (c_heap s !! h0)).
      { intros h0 y Hy. destruct (c_heap s !! h0) eqn:E0; [eexists; reflexivity|].
        destruct (decide (h0 = h)) as [->|Hne]; [congruence|]. rewrite list_lookup_alter_ne in Hy by congruence. congruence. }
      apply (sane_move _ _ _ _ _ _ _ _ _ HS Hk); [exact HL|tauto| | | |].
      * intros h0 y Hy. left. exact (HN h0 y Hy).
      * intros h0 E0. assert (h0 = h) as ->.
        { destruct (x_parts x !! offset); cbn in E0; congruence. }
        destruct (HL _ _ Hx) as (x' & H1 & H2 & _). exists x'. split; [exact H1|].
        destruct (x_parts x !! offset); cbn [task_id] in *; congruence.
      * intros h0. rewrite !wins_none; [lia|reflexivity|]. destruct (x_parts x !! offset); reflexivity.
      * destruct (x_parts x !! offset); exact I.
    + destruct (Hold h eq_refl) as (x & Hx & Hxh). cbn [with_transfer c_table c_heap c_tasks].
      assert (HL : heap_later (c_heap s) (alter (fun x => set_received x (x_received x + size)) h (c_heap s))).
      { apply heap_later_alter. intros y _. cbn. repeat split; lia. }
      apply (sane_move _ _ _ _ _ _ _ _ _ HS Hk); [exact HL|tauto| | | |exact I].
      * intros h0 y Hy. left. destruct (c_heap s !! h0) eqn:E0; [eexists; reflexivity|].
        destruct (decide (h0 = h)) as [->|Hne]; [congruence|]. rewrite list_lookup_alter_ne in Hy by congruence. congruence.
      * intros h0 [= <-]. destruct (HL _ _ Hx) as (x' & H1 & H2 & _). exists x'. split; [exact H1|]. cbn [task_id] in *. congruence.
      * intros h0. rewrite !wins_none by reflexivity. lia.
    + destruct (Hold h eq_refl) as (x & Hx & Hxh). rewrite Hx. destruct (N.compare_spec (x_received x) (x_total x)) as [E|E|E].
      * cbn [with_transfer c_table c_heap c_tasks].
        assert (HL : heap_later (c_heap s) (alter (fun x => set_received x (x_total x * 2)) h (c_heap s))).
        { apply heap_later_alter. intros y Hy. assert (y = x) by congruence. subst y. cbn. repeat split; lia. }
        split.
        -- intros u h0 Hu E0. apply In_insert in Hu as [->|Hu].
           ++ injection E0 as <-. destruct (HL _ _ Hx) as (x' & H1 & H2 & _). exists x'. split; [exact H1|]. cbn [task_id] in *. congruence.
           ++ destruct (sn_tasks _ _ _ _ HS u h0 Hu E0) as (y & H1 & H2). destruct (HL _ _ H1) as (x' & H3 & H4 & _).
              exists x'. split; [exact H3|congruence].
        -- intros i h0 E0. destruct (sn_table _ _ _ _ HS i h0 E0) as (y & H1 & H2). destruct (HL _ _ H1) as (x' & H3 & H4 & _).
           exists x'. split; [exact H3|congruence].
        -- intros h0 y Hy Ht.
           pose proof (sum_insert (wins h0) (c_tasks s) k _ (AtCombine h hash 0 []) Hk) as Hs.
           rewrite (wins_none h0 (AtExchange h hash offset)) in Hs by reflexivity.
           destruct (decide (h0 = h)) as [->|Hne].
           ++ rewrite list_lookup_alter, Hx in Hy. injection Hy as <-. cbn [set_received x_total x_received] in *.
              destruct (sn_wins _ _ _ _ HS h x Hx Ht) as [H7 H8].
              assert (Hz : sum (wins h) (c_tasks s) = 0) by (destruct (N.eq_dec (sum (wins h) (c_tasks s)) 0); [assumption|lia]).
              assert (Hw1 : wins h (AtCombine h hash 0 []) <= 1) by (unfold wins; destruct (_ && _); lia). lia.
           ++ rewrite list_lookup_alter_ne in Hy by congruence.
              assert (Hw0 : wins h0 (AtCombine h hash 0 []) = 0).
              { unfold wins. cbn [won_by task_handle andb]. rewrite bool_decide_false by congruence. reflexivity. }
              destruct (sn_wins _ _ _ _ HS h0 y Hy Ht) as [H7 H8]. split; [lia|]. intros Hp. apply H8. lia.
        -- intros u Hu. apply In_insert in Hu as [->|Hu]; [exact I|exact (sn_whole _ _ _ _ HS u Hu)].
      * cbn [c_table c_heap c_tasks].
        apply (sane_move _ _ _ _ _ _ _ _ _ HS Hk); [apply heap_later_refl|tauto| | | |exact I].
        -- intros h0 y Hy. left. rewrite Hy. eexists; reflexivity.
        -- intros h0 [= <-]. exists x. split; [exact Hx|]. cbn [task_id] in *. exact Hxh.
        -- intros h0. rewrite !wins_none by reflexivity. lia.
      * cbn [c_table c_heap c_tasks].
        apply (sane_move _ _ _ _ _ _ _ _ _ HS Hk); [apply heap_later_refl|tauto| | | |exact I].
        -- intros h0 y Hy. left. rewrite Hy. eexists; reflexivity.
        -- intros h0 [= <-]. exists x. split; [exact Hx|]. cbn [task_id] in *. exact Hxh.
        -- intros h0. rewrite !wins_none by reflexivity. lia.
    + destruct (Hold h eq_refl) as (x & Hx & Hxh). rewrite Hx. cbn [c_table c_heap c_tasks].
      apply (sane_move _ _ _ _ _ _ _ _ _ HS Hk); [apply heap_later_refl|tauto| | | |].
      * intros h0 y Hy. left. rewrite Hy. eexists; reflexivity.
      * intros h0 E0. exists x. cbn [task_id] in *.
        destruct (received <? x_total x); [destruct (x_parts x !! received)|destruct (bytes_eqb _ _)];
          cbn [task_handle task_id] in *; injection E0 as <-; split; assumption.
      * intros h0. unfold wins.
        destruct (received <? x_total x); [destruct (x_parts x !! received)|destruct (bytes_eqb _ _)];
          cbn [won_by task_handle winning]; lia.
      * destruct (received <? x_total x); [destruct (x_parts x !! received); exact I|].
        destruct (bytes_eqb (sha256 P buffer) hash) eqn:E; [apply bytes_eqb_eq in E; exact E|exact I].
    + cbn [without c_table c_heap c_tasks].
      apply (sane_move _ _ _ _ _ _ _ _ _ HS Hk); [apply heap_later_refl| | | | |].
      * intros i h0 E0. left. apply lookup_delete_Some in E0 as [_ E0]. exact E0.
      * intros h0 y Hy. left. rewrite Hy. eexists; reflexivity.
      * intros h0 [= <-]. exact (Hold h eq_refl).
      * intros h0. unfold wins. cbn [won_by task_handle]. lia.
      * pose proof (sn_whole _ _ _ _ HS _ (lookup_In _ _ _ Hk)) as Hm. exact Hm.
    + cbn [c_table c_heap c_tasks].
      apply (sane_move _ _ _ _ _ _ _ _ _ HS Hk); [apply heap_later_refl|tauto| | | |].
      * intros h0 y Hy. left. rewrite Hy. eexists; reflexivity.
      * intros h0 E0. exact (Hold h0 E0).
      * intros h0. lia.
      * exact (sn_whole _ _ _ _ HS _ (lookup_In _ _ _ Hk)).
  - (* a timer *)
    destruct (c_heap s !! h) as [x|] eqn:Hx; [|exact HS]. destruct (c_timers s !! h) as [[due| |]|]; try exact HS.
    + cbn [timer_step]. destruct (c_clock s <? due); exact HS.
    + cbn [timer_step c_table c_heap c_tasks]. destruct HS as [H1 H2 H3 H4]. split; try assumption.
      intros i h0 E. apply lookup_delete_Some in E as [_ E]. exact (H2 i h0 E).
  - exact HS.
Qed.

Lemma sane_new : forall P clock, sane_state P (receiving_new clock).
Proof.
  intros P clock. split; cbn [receiving_new c_table c_heap c_tasks].
  - intros t h [].
  - intros i h E. rewrite lookup_empty in E. discriminate E.
  - intros h x E. discriminate E.
  - intros t [].
Qed.

Lemma run_app : forall P timeout l1 l2 s,
  receiving_run P timeout s (l1 ++ l2) = receiving_run P timeout (receiving_run P timeout s l1) l2.
Proof. intros. unfold receiving_run. apply fold_left_app. Qed.

Lemma sane_run : forall P timeout l s, sane_state P s -> sane_state P (receiving_run P timeout s l).
Proof.
  intros P timeout l. induction l as [|e l IH]; intros s H; [exact H|].
  change (receiving_run P timeout s (e :: l)) with (receiving_run P timeout (receiving_step P timeout s e) l).
  apply IH. now apply sane_step.
Qed.

Lemma result_task : forall i o s, In o (results i s) -> exists h, In (Ended h i o) (c_tasks s).
Proof.
  intros i o s H. unfold results in H. apply in_flat_map in H as (t & Ht & H).
  destruct t as [| | | | | | |h j o']; try destruct H. destruct (bytes_eqb j i) eqn:E; [|destruct H].
  apply bytes_eqb_eq in E. subst j. destruct H as [->|[]]. exists h. exact Ht.
Qed.

Lemma message_task : forall i m s, In m (messages i s) -> exists h, In (Ended h i (Whole m)) (c_tasks s).
Proof.
  intros i m s H. unfold messages in H. apply in_flat_map in H as (o & Ho & H).
  destruct o as [|m'|e|]; [destruct H| |destruct H|destruct H].
  destruct H as [->|[]]. now apply result_task.
Qed.

Lemma messages_authentic : forall P timeout clock l i m,
  In m (messages i (receiving_run P timeout (receiving_new clock) l)) -> sha256 P m = i.
Proof.
  intros P timeout clock l i m H. apply message_task in H as [h H].
  exact (sn_whole _ _ _ _ (sane_run P timeout l _ (sane_new P clock)) _ H).
Qed.

(** Two tasks with the same transfer. *)
Lemma sum_two {A} (f : A -> N) (l : list A) k1 k2 a b :
  l !! k1 = Some a -> l !! k2 = Some b -> k1 <> k2 -> f a + f b <= sum f l.
Proof.
  revert k1 k2. induction l as [|x l IH]; intros [|k1] [|k2] H1 H2 Hne; cbn in H1, H2; try discriminate; try congruence; cbn [sum].
  - injection H1 as ->. apply lookup_In in H2. apply (sum_in f) in H2. lia.
  - injection H2 as ->. apply lookup_In in H1. apply (sum_in f) in H1. lia.
  - assert (f a + f b <= sum f l) by (apply (IH k1 k2); [assumption..|congruence]). lia.
Qed.

Lemma message_once : forall P timeout clock l h x i1 i2 m1 m2 k1 k2,
  let s := receiving_run P timeout (receiving_new clock) l in
  c_heap s !! h = Some x -> 0 < x_total x ->
  c_tasks s !! k1 = Some (Ended h i1 (Whole m1)) -> c_tasks s !! k2 = Some (Ended h i2 (Whole m2)) -> k1 = k2.
Proof.
  intros P timeout clock l h x i1 i2 m1 m2 k1 k2 s Hx Ht H1 H2.
  destruct (Nat.eq_dec k1 k2) as [E|E]; [exact E|]. exfalso.
  pose proof (sane_run P timeout l _ (sane_new P clock)) as HS. fold s in HS.
  destruct (sn_wins _ _ _ _ HS h x Hx Ht) as [H3 _].
  pose proof (sum_two (wins h) _ _ _ _ _ H1 H2 E) as H4. unfold wins in H4 at 1 2.
  cbn [won_by task_handle winning andb] in H4. rewrite bool_decide_true in H4 by reflexivity. lia.
Qed.
