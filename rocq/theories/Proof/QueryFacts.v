From stdpp Require Import gmap.
From Coq Require Import NArith Lia.
From Verif.Base Require Import Bytes BytesFacts.
From Verif.Model Require Import Queries.
From Verif.Spec Require Import QueriesSpec.
Local Open Scope nat_scope.

Lemma nth_error_at : forall A (l : list A) i, l !! i = nth_error l i.
Proof. intros A l. induction l as [|x l IH]; intros [|i]; cbn; try reflexivity. apply IH. Qed.

Lemma set_phase_lookup : forall l q p i,
  set_phase l q p !! i = (fun e => if (i =? q)%nat then (fst e, p) else e) <$> l !! i.
Proof. intros. unfold set_phase. now rewrite list_lookup_imap. Qed.

Lemma set_phase_ids : forall l q p, map fst (set_phase l q p) = map fst l.
Proof.
  intros l q p. apply list_eq. intros i. change (fst <$> set_phase l q p) with (fst <$> set_phase l q p).
  rewrite !list_lookup_fmap, set_phase_lookup. destruct (l !! i) as [e|]; [|reflexivity]. cbn.
  now destruct (i =? q)%nat.
Qed.

Definition note1 (id answer : bytes) (x : bytes * option bytes) : bytes * option bytes :=
  match x with
  | (i, None) => if bytes_eqb i id then (i, Some answer) else (i, None)
  | x => x
  end.

Lemma note_lookup : forall l id answer q, note l (EAnswer id answer) !! q = note1 id answer <$> l !! q.
Proof. intros. cbn [note]. rewrite <- list_lookup_fmap. reflexivity. Qed.

Lemma note_fst : forall l id answer, map fst (note l (EAnswer id answer)) = map fst l.
Proof.
  intros. cbn [note]. rewrite map_map. apply map_ext. intros [i [a|]]; [reflexivity|].
  now destruct (bytes_eqb i id).
Qed.

Lemma first_answers_snoc : forall evs e, first_answers (evs ++ [e]) = note (first_answers evs) e.
Proof. intros. unfold first_answers. now rewrite fold_left_app. Qed.

Lemma asked_ids_app : forall a b, asked_ids (a ++ b) = asked_ids a ++ asked_ids b.
Proof. induction a as [|e a IH]; intros b; [reflexivity|]. destruct e; cbn; rewrite IH; reflexivity. Qed.

Lemma asked_first : forall evs, map fst (first_answers evs) = asked_ids evs.
Proof.
  induction evs as [|e evs IH] using rev_ind; [reflexivity|].
  rewrite first_answers_snoc, asked_ids_app. destruct e; cbn [asked_ids]; rewrite ?app_nil_r.
  - cbn [note]. rewrite map_app, IH. reflexivity.
  - now rewrite note_fst.
  - exact IH.
  - exact IH.
  - exact IH.
  - exact IH.
Qed.

Definition phase_ok (evs : list query_event) (A : list (bytes * option bytes)) (s : queries) (q : nat)
    (id : bytes) (ph : phase) : Prop :=
  match ph with
  | Waiting => (A !! q = Some (id, None) /\ q_table s !! id = Some q)
               \/ (exists d, A !! q = Some (id, Some d) /\ In (q, d) (q_sent s))
  | Filled d => A !! q = Some (id, Some d)
  | Closed => False
  | Leaving => In (EGiveUp q) evs
  | Done (Some d) => A !! q = Some (id, Some d)
  | Done None => In (EGiveUp q) evs
  end.

Record qinv (evs : list query_event) (A : list (bytes * option bytes)) (s : queries) : Prop :=
  { qi_ids : map fst (q_list s) = map fst A;
    qi_nodup : List.NoDup (map fst A);
    qi_table : forall (id : bytes) q, q_table s !! id = Some q ->
      A !! q = Some (id, None) /\ (q_list s !! q = Some (id, Waiting) \/ q_list s !! q = Some (id, Leaving));
    qi_sent : forall q d, In (q, d) (q_sent s) -> exists id, A !! q = Some (id, Some d);
    qi_once : List.NoDup (map fst (q_sent s));
    qi_phase : forall q id ph, q_list s !! q = Some (id, ph) -> phase_ok evs A s q id ph }.

Lemma phase_ok_more : forall evs e A s q id ph, phase_ok evs A s q id ph -> phase_ok (evs ++ [e]) A s q id ph.
Proof.
  intros evs e A s q id ph H. destruct ph as [| | | |[d|]]; cbn in *; try exact H; apply in_or_app; now left.
Qed.

Lemma qinv_more : forall evs e A s, qinv evs A s -> qinv (evs ++ [e]) A s.
Proof.
  intros evs e A s H. destruct H. split; try assumption.
  intros q id ph Hq. apply phase_ok_more. now apply qi_phase0.
Qed.

Lemma ids_unique : forall (A : list (bytes * option bytes)) i j id a b, List.NoDup (map fst A) ->
  A !! i = Some (id, a) -> A !! j = Some (id, b) -> i = j.
Proof.
  intros A i j id a b Hnd Hi Hj. apply NoDup_ListNoDup in Hnd.
  apply (NoDup_lookup (fst <$> A) i j id Hnd); rewrite list_lookup_fmap; [now rewrite Hi|now rewrite Hj].
Qed.

Lemma same_id : forall evs A s q id ph, qinv evs A s -> q_list s !! q = Some (id, ph) -> exists a, A !! q = Some (id, a).
Proof.
  intros evs A s q id ph H Hq. pose proof (qi_ids _ _ _ H) as He.
  assert (Hf : (fst <$> q_list s) !! q = (fst <$> A) !! q).
  { f_equal. exact He. }
  rewrite !list_lookup_fmap, Hq in Hf. cbn in Hf. destruct (A !! q) as [[i a]|]; [|discriminate].
  cbn in Hf. injection Hf as <-. now exists a.
Qed.

(** Changing the phase of one query. *)
Lemma set_phase_cases : forall l q p i id ph,
  set_phase l q p !! i = Some (id, ph) ->
  (i = q /\ ph = p /\ exists ph0, l !! q = Some (id, ph0)) \/ (i <> q /\ l !! i = Some (id, ph)).
Proof.
  intros l q p i id ph H. rewrite set_phase_lookup in H. destruct (l !! i) as [[id0 ph0]|] eqn:Hl; [|discriminate].
  cbn in H. destruct (Nat.eqb_spec i q) as [->|Hne].
  - injection H as <- <-. left. split; [reflexivity|split; [reflexivity|]]. exists ph0. exact Hl.
  - right. split; [exact Hne|]. now injection H as <- <-.
Qed.

Lemma step_qinv : forall evs A s e, qinv evs A s ->
  (forall id, e = EAsk id -> ~ In id (map fst A)) ->
  qinv (evs ++ [e]) (note A e) (query_step s e).
Proof.
  intros evs A s e H Hnew. destruct e as [id|id answer|i|q|q|q].
  - (* ask *)
    specialize (Hnew id eq_refl). cbn [query_step note].
    assert (Hno : q_table s !! id = None).
    { destruct (q_table s !! id) as [q|] eqn:Hq; [|reflexivity]. exfalso. apply (qi_table _ _ _ H) in Hq as [Hq _].
      apply Hnew. apply elem_of_list_lookup_2 in Hq. apply elem_of_list_In in Hq.
      apply (in_map fst) in Hq. exact Hq. }
    rewrite Hno. cbn [close].
    assert (Hlen : length (q_list s) = length A).
    { pose proof (f_equal length (qi_ids _ _ _ H)) as E. now rewrite !map_length in E. }
    split; cbn [q_table q_list q_sent].
    + rewrite !map_app, (qi_ids _ _ _ H). reflexivity.
    + rewrite map_app. cbn. apply NoDup_ListNoDup, NoDup_app. split; [apply NoDup_ListNoDup, (qi_nodup _ _ _ H)|].
      split; [|apply NoDup_singleton]. intros x Hx Hx'. apply elem_of_list_singleton in Hx'. subst x.
      apply Hnew. now apply elem_of_list_In.
    + intros id' q Hq. destruct (decide (id' = id)) as [->|Hne].
      * rewrite lookup_insert in Hq. injection Hq as <-. split.
        -- rewrite Hlen. apply list_lookup_middle. reflexivity.
        -- left. now apply list_lookup_middle.
      * rewrite lookup_insert_ne in Hq by congruence. apply (qi_table _ _ _ H) in Hq as [Ha Hl]. split.
        -- rewrite lookup_app_l by (eapply lookup_lt_Some; exact Ha). exact Ha.
        -- rewrite lookup_app_l; [exact Hl|]. destruct Hl as [Hl|Hl]; eapply lookup_lt_Some; exact Hl.
    + intros q d Hin. apply (qi_sent _ _ _ H) in Hin as [id' Ha]. exists id'.
      rewrite lookup_app_l by (eapply lookup_lt_Some; exact Ha). exact Ha.
    + apply (qi_once _ _ _ H).
    + intros q id' ph Hq. apply lookup_app_Some in Hq as [Hq|[Hge Hq]].
      * assert (Hup : forall a, A !! q = Some (id', a) -> (A ++ [(id, None)]) !! q = Some (id', a)).
        { intros a Ha. rewrite lookup_app_l by (eapply lookup_lt_Some; exact Ha). exact Ha. }
        apply (phase_ok_more evs (EAsk id)). pose proof (qi_phase _ _ _ H _ _ _ Hq) as Hp.
        destruct ph as [| | | |[d|]]; cbn in Hp |- *; try exact Hp; try (apply Hup; exact Hp).
        destruct Hp as [[Ha Ht]|(d & Ha & Hs)].
        -- left. split; [now apply Hup|]. destruct (decide (id' = id)) as [->|Hne]; [congruence|].
           rewrite lookup_insert_ne by congruence. exact Ht.
        -- right. exists d. split; [now apply Hup|exact Hs].
      * destruct (q - length (q_list s)) as [|k] eqn:Hk; [|destruct k; discriminate].
        cbn in Hq. injection Hq as <- <-. cbn. left.
        assert (q = length (q_list s)) as -> by lia. split.
        -- rewrite Hlen. now apply list_lookup_middle.
        -- now rewrite lookup_insert.
  - (* answer *)
    cbn [query_step]. destruct (q_table s !! id) as [q|] eqn:Hq.
    + destruct (qi_table _ _ _ H _ _ Hq) as [Ha Hl].
      assert (Hother : forall q' id' a, A !! q' = Some (id', a) -> q' <> q -> id' <> id).
      { intros q' id' a Ha' Hne ->. apply Hne. eapply ids_unique; [apply (qi_nodup _ _ _ H)|exact Ha'|exact Ha]. }
      assert (Hkeep : forall q' id' a, A !! q' = Some (id', a) -> q' <> q -> note A (EAnswer id answer) !! q' = Some (id', a)).
      { intros q' id' a Ha' Hne. rewrite note_lookup, Ha'. cbn. pose proof (Hother _ _ _ Ha' Hne) as Hid.
        destruct a; [reflexivity|]. destruct (bytes_eqb id' id) eqn:He; [apply bytes_eqb_eq in He; congruence|reflexivity]. }
      assert (Hkeep2 : forall q' id' d, A !! q' = Some (id', Some d) -> note A (EAnswer id answer) !! q' = Some (id', Some d)).
      { intros q' id' d Ha'. rewrite note_lookup, Ha'. reflexivity. }
      assert (Hq' : note A (EAnswer id answer) !! q = Some (id, Some answer)).
      { rewrite note_lookup, Ha. cbn. now rewrite bytes_eqb_refl. }
      split; cbn [q_table q_list q_sent].
      * rewrite note_fst. apply (qi_ids _ _ _ H).
      * rewrite note_fst. apply (qi_nodup _ _ _ H).
      * intros id' q' Ht. apply lookup_delete_Some in Ht as [Hne Ht]. destruct (qi_table _ _ _ H _ _ Ht) as [Ha' Hl'].
        split; [|exact Hl']. apply Hkeep; [exact Ha'|]. intros ->. congruence.
      * intros q' d Hin. apply in_app_or in Hin as [Hin|[[= <- <-]|[]]].
        -- apply (qi_sent _ _ _ H) in Hin as [id' Ha']. exists id'. now apply Hkeep2.
        -- exists id. exact Hq'.
      * rewrite map_app. cbn. apply NoDup_ListNoDup, NoDup_app. split; [apply NoDup_ListNoDup, (qi_once _ _ _ H)|].
        split; [|apply NoDup_singleton]. intros x Hx Hx'. apply elem_of_list_singleton in Hx'. subst x.
        apply elem_of_list_In, in_map_iff in Hx as ([q' d] & Heq & Hin). cbn in Heq. subst q'.
        apply (qi_sent _ _ _ H) in Hin as [id' Ha']. congruence.
      * intros q' id' ph Hl'. apply (phase_ok_more evs (EAnswer id answer)).
        pose proof (qi_phase _ _ _ H _ _ _ Hl') as Hp.
        destruct ph as [| | | |[d|]]; cbn in Hp |- *; try exact Hp; try (apply Hkeep2; exact Hp).
        destruct Hp as [[Ha' Ht]|(d & Ha' & Hs)].
        -- destruct (decide (q' = q)) as [->|Hne].
           ++ right. exists answer. assert (id' = id) as -> by congruence. split; [exact Hq'|].
              apply in_or_app. right. now left.
           ++ left. split; [now apply Hkeep|]. rewrite lookup_delete_ne; [exact Ht|]. intros <-. congruence.
        -- right. exists d. split; [now apply Hkeep2|]. apply in_or_app. now left.
    + assert (Hkeep2 : forall q' id' d, A !! q' = Some (id', Some d) -> note A (EAnswer id answer) !! q' = Some (id', Some d)).
      { intros q' id' d Ha'. rewrite note_lookup, Ha'. reflexivity. }
      assert (Hkeep : forall q' id' a, A !! q' = Some (id', a) -> id' <> id -> note A (EAnswer id answer) !! q' = Some (id', a)).
      { intros q' id' a Ha' Hid. rewrite note_lookup, Ha'. cbn.
        destruct a; [reflexivity|]. destruct (bytes_eqb id' id) eqn:He; [apply bytes_eqb_eq in He; congruence|reflexivity]. }
      split.
      * rewrite note_fst. apply (qi_ids _ _ _ H).
      * rewrite note_fst. apply (qi_nodup _ _ _ H).
      * intros id' q' Ht. destruct (qi_table _ _ _ H _ _ Ht) as [Ha' Hl']. split; [|exact Hl'].
        apply Hkeep; [exact Ha'|]. intros ->. congruence.
      * intros q' d Hin. apply (qi_sent _ _ _ H) in Hin as [id' Ha']. exists id'. now apply Hkeep2.
      * apply (qi_once _ _ _ H).
      * intros q' id' ph Hl'. apply (phase_ok_more evs (EAnswer id answer)).
        pose proof (qi_phase _ _ _ H _ _ _ Hl') as Hp.
        destruct ph as [| | | |[d|]]; cbn in Hp |- *; try exact Hp; try (apply Hkeep2; exact Hp).
        destruct Hp as [[Ha' Ht]|(d & Ha' & Hs)].
        -- left. split; [|exact Ht]. apply Hkeep; [exact Ha'|]. intros ->. congruence.
        -- right. exists d. split; [now apply Hkeep2|exact Hs].
  - (* send *)
    cbn [note]. apply (qinv_more _ (ESend i)) in H. set (evs' := evs ++ [ESend i]) in *. clearbody evs'. clear evs Hnew.
    cbn [query_step]. destruct (q_sent s !! i) as [[q d]|] eqn:Hi; [|exact H].
    assert (Hin : In (q, d) (q_sent s)) by (apply elem_of_list_In; eapply elem_of_list_lookup_2; exact Hi).
    destruct (qi_sent _ _ _ H _ _ Hin) as [id0 Ha].
    assert (Hsub : forall x, In x (delete i (q_sent s)) -> In x (q_sent s)).
    { intros x Hx. apply elem_of_list_In. apply elem_of_list_In in Hx. eapply elem_of_submseteq; [exact Hx|].
      apply submseteq_delete. }
    assert (Hrest : forall q' d', In (q', d') (q_sent s) -> q' <> q -> In (q', d') (delete i (q_sent s))).
    { intros q' d' Hx Hne. apply elem_of_list_In, elem_of_list_lookup in Hx as [k Hk].
      apply elem_of_list_In, elem_of_list_lookup.
      destruct (decide (k < i)) as [Hlt|Hge].
      - exists k. rewrite lookup_delete_lt by exact Hlt. exact Hk.
      - assert (k <> i) by (intros ->; congruence). exists (k - 1). rewrite lookup_delete_ge by lia.
        now replace (S (k - 1)) with k by lia. }
    assert (Honce : List.NoDup (map fst (delete i (q_sent s)))).
    { pose proof (qi_once _ _ _ H) as Hn. rewrite <- (take_drop_middle _ _ _ Hi) in Hn.
      rewrite delete_take_drop. rewrite map_app in Hn |- *. cbn in Hn. now apply NoDup_remove_1 in Hn. }
    assert (Hleft : forall q' d', In (q', d') (delete i (q_sent s)) -> q' <> q).
    { intros q' d' Hx ->. pose proof (qi_once _ _ _ H) as Hn. rewrite <- (take_drop_middle _ _ _ Hi) in Hn.
      rewrite delete_take_drop in Hx. rewrite map_app in Hn. cbn in Hn. apply NoDup_remove_2 in Hn. apply Hn.
      rewrite <- map_app. apply (in_map fst) in Hx. exact Hx. }
    destruct (q_list s !! q) as [[id ph]|] eqn:Hl.
    2:{ split; cbn [q_table q_list q_sent]; try apply H; try exact Honce.
        - intros q' d' Hx. apply (qi_sent _ _ _ H). now apply Hsub.
        - intros q' id' ph Hl'. pose proof (qi_phase _ _ _ H _ _ _ Hl') as Hp.
          destruct ph as [| | | |[d'|]]; cbn in Hp |- *; try exact Hp.
          destruct Hp as [Hp|(d' & Ha' & Hs)]; [left; exact Hp|]. right. exists d'. split; [exact Ha'|].
          apply Hrest; [exact Hs|]. intros ->. congruence. }
    assert (id = id0) as <-.
    { destruct (same_id _ _ _ _ _ _ H Hl) as [a Ha2]. congruence. }
    destruct ph as [|a| | |a].
    + split; cbn [q_table q_list q_sent]; try apply H; try exact Honce.
      * rewrite set_phase_ids. apply (qi_ids _ _ _ H).
      * intros id' q' Ht. destruct (qi_table _ _ _ H _ _ Ht) as [Ha' Hl']. split; [exact Ha'|].
        assert (q' <> q) by (intros ->; congruence).
        destruct Hl' as [Hl'|Hl']; [left|right]; rewrite set_phase_lookup, Hl'; cbn;
          now rewrite (proj2 (Nat.eqb_neq q' q)).
      * intros q' d' Hx. apply (qi_sent _ _ _ H). now apply Hsub.
      * intros q' id' ph Hl'. apply set_phase_cases in Hl' as [(-> & -> & ph0 & Hl0)|(Hne & Hl')].
        -- cbn. congruence.
        -- pose proof (qi_phase _ _ _ H _ _ _ Hl') as Hp.
           destruct ph as [| | | |[d'|]]; cbn in Hp |- *; try exact Hp.
           destruct Hp as [Hp|(d' & Ha' & Hs)]; [left; exact Hp|]. right. exists d'. split; [exact Ha'|].
           now apply Hrest.
    + split; cbn [q_table q_list q_sent]; try apply H; try exact Honce.
      * intros q' d' Hx. apply (qi_sent _ _ _ H). now apply Hsub.
      * intros q' id' ph Hl'. pose proof (qi_phase _ _ _ H _ _ _ Hl') as Hp.
        destruct ph as [| | | |[d'|]]; cbn in Hp |- *; try exact Hp.
        destruct Hp as [Hp|(d' & Ha' & Hs)]; [left; exact Hp|]. right. exists d'. split; [exact Ha'|].
        apply Hrest; [exact Hs|]. intros ->. congruence.
    + split; cbn [q_table q_list q_sent]; try apply H; try exact Honce.
      * intros q' d' Hx. apply (qi_sent _ _ _ H). now apply Hsub.
      * intros q' id' ph Hl'. pose proof (qi_phase _ _ _ H _ _ _ Hl') as Hp.
        destruct ph as [| | | |[d'|]]; cbn in Hp |- *; try exact Hp.
        destruct Hp as [Hp|(d' & Ha' & Hs)]; [left; exact Hp|]. right. exists d'. split; [exact Ha'|].
        apply Hrest; [exact Hs|]. intros ->. congruence.
    + split; cbn [q_table q_list q_sent]; try apply H; try exact Honce.
      * intros q' d' Hx. apply (qi_sent _ _ _ H). now apply Hsub.
      * intros q' id' ph Hl'. pose proof (qi_phase _ _ _ H _ _ _ Hl') as Hp.
        destruct ph as [| | | |[d'|]]; cbn in Hp |- *; try exact Hp.
        destruct Hp as [Hp|(d' & Ha' & Hs)]; [left; exact Hp|]. right. exists d'. split; [exact Ha'|].
        apply Hrest; [exact Hs|]. intros ->. congruence.
    + split; cbn [q_table q_list q_sent]; try apply H; try exact Honce.
      * intros q' d' Hx. apply (qi_sent _ _ _ H). now apply Hsub.
      * intros q' id' ph Hl'. pose proof (qi_phase _ _ _ H _ _ _ Hl') as Hp.
        destruct ph as [| | | |[d'|]]; cbn in Hp |- *; try exact Hp.
        destruct Hp as [Hp|(d' & Ha' & Hs)]; [left; exact Hp|]. right. exists d'. split; [exact Ha'|].
        apply Hrest; [exact Hs|]. intros ->. congruence.
  - (* read *)
    cbn [note]. apply (qinv_more _ (ERead q)) in H. set (evs' := evs ++ [ERead q]) in *. clearbody evs'. clear evs Hnew.
    cbn [query_step]. destruct (q_list s !! q) as [[id ph]|] eqn:Hl; [|exact H].
    destruct ph as [|a| | |a]; try exact H.
    + pose proof (qi_phase _ _ _ H _ _ _ Hl) as Hp0. cbn in Hp0.
      split; cbn [q_table q_list q_sent]; try apply H.
      * rewrite set_phase_ids. apply (qi_ids _ _ _ H).
      * intros id' q' Ht. destruct (qi_table _ _ _ H _ _ Ht) as [Ha' Hl']. split; [exact Ha'|].
        assert (q' <> q) by (intros ->; destruct Hl'; congruence).
        destruct Hl' as [Hl'|Hl']; [left|right]; rewrite set_phase_lookup, Hl'; cbn;
          now rewrite (proj2 (Nat.eqb_neq q' q)).
      * intros q' id' ph Hl'. apply set_phase_cases in Hl' as [(-> & -> & ph0 & Hl0)|(Hne & Hl')].
        -- cbn. congruence.
        -- exact (qi_phase _ _ _ H _ _ _ Hl').
    + destruct (qi_phase _ _ _ H _ _ _ Hl).
  - (* give up *)
    cbn [note]. apply (qinv_more _ (EGiveUp q)) in H.
    assert (Hg : In (EGiveUp q) (evs ++ [EGiveUp q])) by (apply in_or_app; right; now left).
    set (evs' := evs ++ [EGiveUp q]) in *. clearbody evs'. clear evs Hnew.
    cbn [query_step]. destruct (q_list s !! q) as [[id ph]|] eqn:Hl; [|exact H].
    assert (Hgoal : ph <> Leaving -> qinv evs' A (mk_queries (q_table s) (set_phase (q_list s) q Leaving) (q_sent s))).
    { intros Hnl. split; cbn [q_table q_list q_sent]; try apply H.
      * rewrite set_phase_ids. apply (qi_ids _ _ _ H).
      * intros id' q' Ht. destruct (qi_table _ _ _ H _ _ Ht) as [Ha' Hl']. split; [exact Ha'|].
        destruct (decide (q' = q)) as [->|Hne].
        -- right. rewrite set_phase_lookup, Hl. cbn. rewrite Nat.eqb_refl. destruct Hl'; congruence.
        -- destruct Hl' as [Hl'|Hl']; [left|right]; rewrite set_phase_lookup, Hl'; cbn;
             now rewrite (proj2 (Nat.eqb_neq q' q)).
      * intros q' id' ph' Hl'. apply set_phase_cases in Hl' as [(-> & -> & ph0 & Hl0)|(Hne & Hl')].
        -- cbn. exact Hg.
        -- exact (qi_phase _ _ _ H _ _ _ Hl'). }
    destruct ph as [|a| | |a]; try exact H; apply Hgoal; discriminate.
  - (* drop *)
    cbn [note]. apply (qinv_more _ (EDrop q)) in H. set (evs' := evs ++ [EDrop q]) in *. clearbody evs'. clear evs Hnew.
    cbn [query_step]. destruct (q_list s !! q) as [[id ph]|] eqn:Hl; [|exact H].
    destruct ph as [|a| | |a]; try exact H.
    pose proof (qi_phase _ _ _ H _ _ _ Hl) as Hp0. cbn in Hp0.
    destruct (same_id _ _ _ _ _ _ H Hl) as [a Ha].
    assert (Hc : close (q_list s) (q_table s !! id) = q_list s).
    { destruct (q_table s !! id) as [q0|] eqn:Ht; [|reflexivity]. destruct (qi_table _ _ _ H _ _ Ht) as [Ha0 _].
      assert (q0 = q) as -> by (eapply ids_unique; [apply (qi_nodup _ _ _ H)|exact Ha0|exact Ha]).
      cbn. now rewrite Hl. }
    rewrite Hc.
    split; cbn [q_table q_list q_sent]; try apply H.
    * rewrite set_phase_ids. apply (qi_ids _ _ _ H).
    * intros id' q' Ht. apply lookup_delete_Some in Ht as [Hne Ht]. destruct (qi_table _ _ _ H _ _ Ht) as [Ha' Hl'].
      split; [exact Ha'|].
      assert (q' <> q) by (intros ->; congruence).
      destruct Hl' as [Hl'|Hl']; [left|right]; rewrite set_phase_lookup, Hl'; cbn;
        now rewrite (proj2 (Nat.eqb_neq q' q)).
    * intros q' id' ph Hl'. apply set_phase_cases in Hl' as [(-> & -> & ph0 & Hl0)|(Hne & Hl')].
      -- cbn. exact Hp0.
      -- pose proof (qi_phase _ _ _ H _ _ _ Hl') as Hp.
         destruct ph as [| | | |[d'|]]; cbn in Hp |- *; try exact Hp.
         destruct Hp as [[Ha' Ht]|Hp]; [|right; exact Hp]. left. split; [exact Ha'|].
         rewrite lookup_delete_ne; [exact Ht|]. intros <-. apply Hne.
         eapply ids_unique; [apply (qi_nodup _ _ _ H)|exact Ha'|exact Ha].
Qed.

Lemma run_qinv : forall evs, List.NoDup (asked_ids evs) ->
  qinv evs (first_answers evs) (query_run queries_new evs).
Proof.
  induction evs as [|e evs IH] using rev_ind; intros Hnd.
  - split; cbn; try constructor; try discriminate; try tauto; intros *; rewrite ?lookup_empty; try discriminate.
  - rewrite asked_ids_app in Hnd. rewrite first_answers_snoc. unfold query_run. rewrite fold_left_app. cbn [fold_left].
    assert (Hnd' : List.NoDup (asked_ids evs)).
    { apply NoDup_ListNoDup in Hnd. apply NoDup_app in Hnd as [Hnd _]. now apply NoDup_ListNoDup. }
    apply step_qinv; [now apply IH|]. intros id ->. cbn in Hnd. rewrite asked_first.
    apply NoDup_remove_2 in Hnd. now rewrite app_nil_r in Hnd.
Qed.

(** ** C17 *)
Lemma answers_matched : forall evs q d, List.NoDup (asked_ids evs) ->
  query_result (query_run queries_new evs) q = Some (Some d) ->
  exists id, nth_error (first_answers evs) q = Some (id, Some d).
Proof.
  intros evs q d Hnd H. pose proof (run_qinv evs Hnd) as Hi. unfold query_result in H.
  destruct (q_list (query_run queries_new evs) !! q) as [[id ph]|] eqn:Hl; [|discriminate].
  destruct ph as [| | | |r]; try discriminate. injection H as ->.
  exists id. rewrite <- nth_error_at. exact (qi_phase _ _ _ Hi _ _ _ Hl).
Qed.

Lemma answers_arrive : forall evs q id d, List.NoDup (asked_ids evs) ->
  nth_error (first_answers evs) q = Some (id, Some d) ->
  ~ In (EGiveUp q) evs -> q_sent (query_run queries_new evs) = [] ->
  query_result (query_run queries_new (evs ++ [ERead q])) q = Some (Some d).
Proof.
  intros evs q id d Hnd Ha Hg Hs. pose proof (run_qinv evs Hnd) as Hi. rewrite <- nth_error_at in Ha.
  unfold query_run. rewrite fold_left_app. cbn [fold_left]. fold (query_run queries_new evs).
  set (s := query_run queries_new evs) in *.
  assert (Hl : exists ph, q_list s !! q = Some (id, ph)).
  { assert (Hf : (fst <$> q_list s) !! q = (fst <$> first_answers evs) !! q).
    { f_equal. exact (qi_ids _ _ _ Hi). }
    rewrite !list_lookup_fmap, Ha in Hf. cbn in Hf. destruct (q_list s !! q) as [[i ph]|]; [|discriminate].
    cbn in Hf. injection Hf as ->. now exists ph. }
  destruct Hl as [ph Hl]. pose proof (qi_phase _ _ _ Hi _ _ _ Hl) as Hp. unfold query_result. cbn [query_step].
  rewrite Hl. destruct ph as [|a| | |[r|]]; cbn in Hp.
  - destruct Hp as [[Hp _]|(d' & _ & Hp)]; [congruence|]. rewrite Hs in Hp. destruct Hp.
  - cbn [q_list]. rewrite set_phase_lookup, Hl. cbn. rewrite Nat.eqb_refl. congruence.
  - destruct Hp.
  - contradiction.
  - rewrite Hl. congruence.
  - contradiction.
Qed.

Lemma table_emptied : forall evs, List.NoDup (asked_ids evs) ->
  (forall q, (q < length (asked_ids evs))%nat -> query_result (query_run queries_new evs) q <> None) ->
  q_table (query_run queries_new evs) = ∅.
Proof.
  intros evs Hnd H. pose proof (run_qinv evs Hnd) as Hi. set (s := query_run queries_new evs) in *.
  apply map_eq. intros id. rewrite lookup_empty. destruct (q_table s !! id) as [q|] eqn:Ht; [|reflexivity].
  exfalso. destruct (qi_table _ _ _ Hi _ _ Ht) as [Ha Hl].
  apply (H q).
  - rewrite <- asked_first, map_length. eapply lookup_lt_Some. exact Ha.
  - unfold query_result. now destruct Hl as [-> | ->].
Qed.

Lemma result_final : forall s e q r, query_result s q = Some r -> query_result (query_step s e) q = Some r.
Proof.
  intros s e q r H. unfold query_result in *.
  destruct (q_list s !! q) as [[id ph]|] eqn:Hl; [|discriminate]. destruct ph as [| | | |r0]; try discriminate.
  injection H as ->.
  assert (Hset : forall l q' p, l !! q = Some (id, Done r) -> q' <> q -> set_phase l q' p !! q = Some (id, Done r)).
  { intros l q' p Hl' Hne. rewrite set_phase_lookup, Hl'. cbn. now rewrite (proj2 (Nat.eqb_neq q q')) by congruence. }
  assert (Hclose : forall o, close (q_list s) o !! q = Some (id, Done r)).
  { intros [q'|]; [|exact Hl]. cbn. destruct (q_list s !! q') as [[id' [| | | |]]|] eqn:Hq'; try exact Hl.
    apply Hset; [exact Hl|]. intros ->. congruence. }
  destruct e as [i|i a|i|q'|q'|q']; cbn [query_step].
  - cbn [q_list]. now rewrite (lookup_app_l_Some _ _ _ _ (Hclose _)).
  - destruct (q_table s !! i); cbn [q_list]; now rewrite Hl.
  - destruct (q_sent s !! i) as [[q' a]|]; cbn [q_list]; [|now rewrite Hl].
    destruct (q_list s !! q') as [[id' [| | | |]]|] eqn:Hq'; try now rewrite Hl.
    rewrite Hset; [reflexivity|exact Hl|]. intros ->. congruence.
  - destruct (q_list s !! q') as [[id' [| | | |]]|] eqn:Hq'; try (now rewrite Hl); cbn [q_list];
      (rewrite Hset; [reflexivity|exact Hl|]; intros ->; congruence).
  - destruct (q_list s !! q') as [[id' [| | | |]]|] eqn:Hq'; try (now rewrite Hl); cbn [q_list];
      (rewrite Hset; [reflexivity|exact Hl|]; intros ->; congruence).
  - destruct (q_list s !! q') as [[id' [| | | |]]|] eqn:Hq'; try (now rewrite Hl); cbn [q_list];
      (rewrite Hset; [reflexivity|apply Hclose|]; intros ->; congruence).
Qed.
