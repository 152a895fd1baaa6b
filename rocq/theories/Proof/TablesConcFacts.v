(** C93: the tables of channels, changed by several tasks at once. *)
From Coq Require Import List NArith Arith Lia Bool.
From Coq Require Import ZifyBool ZifyNat ZifyN.
From stdpp Require Import gmap.
From Verif.Base Require Import Bytes.
From Verif.Model Require Import TablesConc.
From Verif.Spec Require Import TablesConcSpec.
From Verif.Proof Require Import PeerConcFacts.
Import ListNotations.
Open Scope N_scope.

Section Tables.
  Variable ids : N -> N -> N -> bool -> N.
  Hypothesis two : two_ids ids.
  Variable l0 : N.

  Definition fill (c : chan) : id_table := fold_left apply_change (puts ids c) ∅.
  Definition wanted (o : option chan) : id_table := match o with Some c => fill c | None => ∅ end.
  Lemma fill_spec : forall c i kind c', fill c !! i = Some (kind, c') <->
    c = c' /\ i = ids (cc_local c') (cc_key c') (cc_remote c') kind.
  Proof.
    intros c i kind c'. unfold fill. cbn [puts fold_left apply_change].
    pose proof (two (cc_local c) (cc_key c) (cc_remote c)) as H2.
    destruct (N.eq_dec i (ids (cc_local c) (cc_key c) (cc_remote c) true)) as [->|H].
    - rewrite lookup_insert. split; [intros [= <- <-]; now split|]. intros [<- H]. destruct kind; [reflexivity|now symmetry in H].
    - rewrite lookup_insert_ne by congruence.
      destruct (N.eq_dec i (ids (cc_local c) (cc_key c) (cc_remote c) false)) as [->|H'].
      + rewrite lookup_insert. split; [intros [= <- <-]; now split|]. intros [<- E]. destruct kind; [now rewrite E in H|reflexivity].
      + rewrite lookup_insert_ne by congruence. rewrite lookup_empty. split; [discriminate|]. intros [<- E]. destruct kind; congruence.
  Qed.
  Lemma drop_fill : forall c, fold_left apply_change (drops ids c) (fill c) = ∅.
  Proof.
    intros c. apply map_eq. intros i. rewrite lookup_empty. unfold fill. cbn [drops puts fold_left apply_change].
    destruct (N.eq_dec i (ids (cc_local c) (cc_key c) (cc_remote c) true)) as [->|H]; [now rewrite lookup_delete|].
    rewrite lookup_delete_ne by congruence.
    destruct (N.eq_dec i (ids (cc_local c) (cc_key c) (cc_remote c) false)) as [->|H']; [now rewrite lookup_delete|].
    rewrite lookup_delete_ne by congruence. rewrite !lookup_insert_ne by congruence. apply lookup_empty.
  Qed.
  Lemma agree_wanted : forall s, agree ids s <->
    tb_by_id s = wanted (tb_channel s) /\ forall c, tb_channel s = Some c -> tb_peers s !! cc_local c = Some (cc_key c).
  Proof.
    intros s. unfold agree. split; intros [H1 H2]; (split; [|exact H2]).
    - apply map_eq. intros i. apply option_eq. intros [kind c]. rewrite H1. destruct (tb_channel s) as [c'|]; cbn [wanted].
      + rewrite fill_spec. split; intros [E1 E2]; (split; [congruence|exact E2]).
      + rewrite lookup_empty. split; [intros [E _]; discriminate|discriminate].
    - intros i kind c. rewrite H1. destruct (tb_channel s) as [c'|]; cbn [wanted].
      + rewrite fill_spec. split; intros [E1 E2]; (split; [congruence|exact E2]).
      + rewrite lookup_empty. split; [discriminate|intros [E _]; discriminate].
  Qed.

  Definition busy (t : ctask) : bool := match t with CreateIds _ _ | ResetTake _ _ | ResetIds _ _ _ => true | _ => false end.
  Definition mine (t : ctask) : Prop :=
    match t with
    | Create l _ _ | CreateEntry l _ _ | CreateIds l _ | Reset l _ | ResetTake l _ | ResetIds l _ _ | Add l _ => l = l0
    | Remove _ | RemoveIds _ _ => False
    | Over _ => True
    end.
  Definition sound (s : tables) (t : ctask) : Prop :=
    match t with
    | CreateEntry _ _ _ => tb_peers s !! l0 <> None
    | CreateIds _ todo => tb_peers s !! l0 <> None /\ tb_channel s <> None
      /\ fold_left apply_change todo (tb_by_id s) = wanted (tb_channel s)
    | ResetTake _ _ => tb_peers s !! l0 <> None /\ tb_by_id s = wanted (tb_channel s)
    | ResetIds _ todo _ => tb_peers s !! l0 <> None /\ tb_channel s = None /\ fold_left apply_change todo (tb_by_id s) = ∅
    | _ => True
    end.
  Record inv (s : tables) (ts : list ctask) : Prop := {
    i_mine : forall i t, nth_error ts i = Some t -> mine t;
    i_sound : forall i t, nth_error ts i = Some t -> sound s t;
    i_one : forall i j t u, nth_error ts i = Some t -> nth_error ts j = Some u -> busy t = true -> busy u = true -> i = j;
    i_write : forall i j t u, nth_error ts i = Some t -> nth_error ts j = Some u -> writes l0 t = true -> reads l0 u = true -> False;
    i_calm : (forall i t, nth_error ts i = Some t -> busy t = false) -> tb_by_id s = wanted (tb_channel s);
    i_keyed : forall c, tb_channel s = Some c -> cc_local c = l0 /\ tb_peers s !! l0 = Some (cc_key c) }.

  Lemma existsb_none : forall (f : ctask -> bool) ts, negb (existsb f ts) = true ->
    forall i t, nth_error ts i = Some t -> f t = false.
  Proof.
    intros f ts H i t Ht. apply nth_error_In in Ht. destruct (f t) eqn:E; [|reflexivity].
    assert (existsb f ts = true) by (apply existsb_exists; now exists t). now rewrite H0 in H.
  Qed.
  Lemma mine_locks : forall t, mine t -> busy t = true -> locks_entry t = true \/ writes l0 t = true.
  Proof. intros [] Hm Hb; cbn in *; try discriminate; subst; rewrite ?N.eqb_refl; auto. Qed.
  Lemma mine_held : forall t, mine t -> busy t = true -> (reads l0 t || writes l0 t)%bool = true.
  Proof. intros [] Hm Hb; cbn in *; try discriminate; subst; rewrite ?N.eqb_refl; auto. Qed.
  Lemma mine_writes_busy : forall t, writes l0 t = true -> busy t = true.
  Proof. intros [] H; cbn in *; congruence. Qed.

  Ltac look H Hn := match type of H with nth_error (set_nth ?i ?x ?l) ?j = Some _ =>
    rewrite (set_nth_nth _ l i j x _ Hn) in H; destruct (Nat.eqb_spec i j); [injection H as <-; subst j|] end.

  (** Nothing but the task changes, and it does not become busy. *)
  Lemma inv_quiet : forall s ts i t t', inv s ts -> nth_error ts i = Some t -> busy t = false ->
    mine t' -> sound s t' -> busy t' = false -> (reads l0 t' = true -> forall j u, nth_error ts j = Some u -> writes l0 u = false) ->
    inv s (set_nth i t' ts).
  Proof.
    intros s ts i t t' [H1 H2 H3 H4 H5 H6] Hn Hb Hm Hs Hb' Hr. split.
    - intros j u Hu. look Hu Hn; [exact Hm|now apply (H1 j)].
    - intros j u Hu. look Hu Hn; [exact Hs|now apply (H2 j)].
    - intros j k u v Hu Hv Bu Bv. look Hu Hn; [congruence|]. look Hv Hn; [congruence|]. now apply (H3 j k u v).
    - intros j k u v Hu Hv Wu Rv. look Hu Hn; [apply mine_writes_busy in Wu; congruence|].
      look Hv Hn; [specialize (Hr Rv j u Hu); congruence|]. now apply (H4 j k u v).
    - intros Hc. apply H5. intros j u Hu. destruct (Nat.eq_dec i j) as [->|Hne]; [now replace u with t by congruence|].
      apply (Hc j). rewrite (set_nth_nth _ ts i j t' t Hn). apply Nat.eqb_neq in Hne. now rewrite Hne.
    - exact H6.
  Qed.
  (** A task goes on while no other one is busy. *)
  Lemma inv_busy : forall s ts i t t' s', inv s ts -> nth_error ts i = Some t ->
    (forall j u, nth_error ts j = Some u -> j <> i -> busy u = false) ->
    mine t' -> sound s' t' -> (busy t' = false -> tb_by_id s' = wanted (tb_channel s')) ->
    (writes l0 t' = true -> writes l0 t = true \/ forall j u, nth_error ts j = Some u -> reads l0 u = false) ->
    (tb_peers s !! l0 <> None -> tb_peers s' !! l0 <> None) ->
    (forall c, tb_channel s' = Some c -> cc_local c = l0 /\ tb_peers s' !! l0 = Some (cc_key c)) ->
    inv s' (set_nth i t' ts).
  Proof.
    intros s ts i t t' s' [H1 H2 H3 H4 H5 H6] Hn Ho Hm Hs Hc' Hw Hp Hk. split.
    - intros j u Hu. look Hu Hn; [exact Hm|now apply (H1 j)].
    - intros j u Hu. look Hu Hn; [exact Hs|]. assert (busy u = false) by (apply (Ho j); congruence).
      specialize (H2 j u Hu). destruct u; try exact I; try discriminate. cbn in *. now apply Hp.
    - intros j k u v Hu Hv Bu Bv. look Hu Hn.
      + look Hv Hn; [reflexivity|]. rewrite (Ho k v) in Bv by congruence. discriminate.
      + rewrite (Ho j u) in Bu by congruence. discriminate.
    - intros j k u v Hu Hv Wu Rv. look Hu Hn.
      + look Hv Hn; [destruct t'; cbn in *; congruence|]. destruct (Hw Wu) as [Hw'|Hw']; [now apply (H4 i k t v)|].
        rewrite (Hw' k v) in Rv by congruence. discriminate.
      + apply mine_writes_busy in Wu. rewrite (Ho j u) in Wu by congruence. discriminate.
    - intros Hc. apply Hc'. apply (Hc i t'). rewrite (set_nth_nth _ ts i i t' t Hn). now rewrite Nat.eqb_refl.
    - exact Hk.
  Qed.

  Lemma only_one : forall s ts i t, inv s ts -> nth_error ts i = Some t -> busy t = true ->
    forall j u, nth_error ts j = Some u -> j <> i -> busy u = false.
  Proof.
    intros s ts i t H Hn Hb j u Hu Hj. destruct (busy u) eqn:E; [|reflexivity]. now destruct Hj; apply (i_one s ts H j i u t).
  Qed.
  Lemma inv_step : forall s ts i, inv s ts -> let x := tables_step ids (s, ts) i in inv (fst x) (snd x).
  Proof.
    intros s ts i H. cbv zeta. unfold tables_step. cbn [fst snd]. destruct (nth_error ts i) as [t|] eqn:Hn; [|exact H].
    pose proof (i_mine s ts H i t Hn) as Hm. pose proof (i_sound s ts H i t Hn) as Hs.
    destruct t as [l rk d|l rk d|l [|x todo]|l k|l k|l [|x todo] k|l|l todo|l k|known]; cbn [table_step mine sound] in *; try subst l; try contradiction.
    - destruct (free_to_read l0 ts) eqn:Hf; [|exact H]. cbn [fst snd].
      assert (Hr : forall j u, nth_error ts j = Some u -> writes l0 u = false) by (apply existsb_none; exact Hf).
      destruct (tb_peers s !! l0) eqn:Hp; apply (inv_quiet s ts i _ _ H Hn); try reflexivity; cbn; try congruence; auto.
    - destruct (entry_free ts) eqn:Hf; [|exact H]. destruct (tb_peers s !! l0) as [k|] eqn:Hp; [|congruence].
      assert (Hw : forall j u, nth_error ts j = Some u -> writes l0 u = false).
      { intros j u Hu. destruct (writes l0 u) eqn:E; [|reflexivity]. exfalso. apply (i_write s ts H j i u _ Hu Hn E). cbn. apply N.eqb_refl. }
      assert (Hq : forall j u, nth_error ts j = Some u -> busy u = false).
      { intros j u Hu. destruct (busy u) eqn:E; [|reflexivity]. destruct (mine_locks u (i_mine s ts H j u Hu) E) as [L|L].
        - pose proof (existsb_none _ _ Hf j u Hu). congruence.
        - specialize (Hw j u Hu). congruence. }
      pose proof (i_calm s ts H Hq) as Hc.
      destruct (tb_channel s) as [c|] eqn:Hch.
      + destruct (chan_valid c rk d); cbn [fst snd].
        * apply (inv_quiet s ts i _ _ H Hn); try reflexivity; cbn; congruence.
        * apply (inv_busy s ts i _ _ _ H Hn); [intros; now apply (Hq j)|reflexivity| |discriminate|discriminate|auto|].
          -- cbn [sound tb_peers tb_channel tb_by_id]. split; [congruence|]. split; [discriminate|].
             rewrite Hc, fold_left_app. cbn [wanted]. rewrite drop_fill. reflexivity.
          -- cbn [tb_channel tb_peers]. intros c' [= <-]. now split.
      + cbn [fst snd]. apply (inv_busy s ts i _ _ _ H Hn); [intros; now apply (Hq j)|reflexivity| |discriminate|discriminate|auto|].
        * cbn [sound tb_peers tb_channel tb_by_id]. split; [congruence|]. split; [discriminate|]. rewrite Hc. reflexivity.
        * cbn [tb_channel tb_peers]. intros c' [= <-]. now split.
    - cbn [fst snd]. destruct Hs as [Hs1 [Hs2 Hs3]].
      apply (inv_busy s ts i _ _ _ H Hn); [exact (only_one s ts i _ H Hn eq_refl)|exact I|exact I|intros _; exact Hs3|discriminate|auto|exact (i_keyed s ts H)].
    - cbn [fst snd]. apply (inv_busy s ts i _ _ _ H Hn); [exact (only_one s ts i _ H Hn eq_refl)|reflexivity|exact Hs|discriminate|discriminate|auto|exact (i_keyed s ts H)].
    - destruct (free_to_write l0 ts) eqn:Hf; [|exact H]. cbn [fst snd].
      assert (Hr : forall j u, nth_error ts j = Some u -> (reads l0 u || writes l0 u)%bool = false) by (apply existsb_none; exact Hf).
      assert (Hq : forall j u, nth_error ts j = Some u -> busy u = false).
      { intros j u Hu. destruct (busy u) eqn:E; [|reflexivity]. pose proof (mine_held u (i_mine s ts H j u Hu) E). specialize (Hr j u Hu). congruence. }
      destruct (tb_peers s !! l0) as [k'|] eqn:Hp.
      + apply (inv_busy s ts i _ _ _ H Hn); [intros; now apply (Hq j)|reflexivity| |discriminate| |auto|exact (i_keyed s ts H)].
        * cbn [sound]. split; [congruence|]. exact (i_calm s ts H Hq).
        * intros _. right. intros j u Hu. specialize (Hr j u Hu). now apply orb_false_elim in Hr.
      + apply (inv_quiet s ts i _ _ H Hn); try reflexivity; cbn; congruence.
    - destruct (entry_free ts) eqn:Hf; [|exact H]. cbn [fst snd]. destruct Hs as [Hs1 Hs2].
      apply (inv_busy s ts i _ _ _ H Hn); [exact (only_one s ts i _ H Hn eq_refl)|reflexivity| |discriminate| |auto|discriminate].
      + cbn [sound tb_peers tb_channel tb_by_id]. split; [exact Hs1|]. split; [reflexivity|]. rewrite Hs2. destruct (tb_channel s) as [c|]; [apply drop_fill|reflexivity].
      + intros _. left. cbn. apply N.eqb_refl.
    - cbn [fst snd]. destruct Hs as [Hs1 [Hs2 Hs3]].
      apply (inv_busy s ts i _ _ _ H Hn); [exact (only_one s ts i _ H Hn eq_refl)|exact I|exact I| |discriminate| |].
      + intros _. cbn [tb_by_id tb_channel]. rewrite Hs2. exact Hs3.
      + intros _. cbn [tb_peers]. rewrite lookup_insert. discriminate.
      + cbn [tb_channel]. rewrite Hs2. discriminate.
    - cbn [fst snd]. apply (inv_busy s ts i _ _ _ H Hn); [exact (only_one s ts i _ H Hn eq_refl)|reflexivity|exact Hs|discriminate| |auto|exact (i_keyed s ts H)].
      intros _. left. cbn. apply N.eqb_refl.
    - destruct (free_to_write l0 ts) eqn:Hf; [|exact H]. cbn [fst snd].
      assert (Hr : forall j u, nth_error ts j = Some u -> (reads l0 u || writes l0 u)%bool = false) by (apply existsb_none; exact Hf).
      assert (Hq : forall j u, nth_error ts j = Some u -> busy u = false).
      { intros j u Hu. destruct (busy u) eqn:E; [|reflexivity]. pose proof (mine_held u (i_mine s ts H j u Hu) E). specialize (Hr j u Hu). congruence. }
      destruct (tb_peers s !! l0) as [k'|] eqn:Hp.
      + apply (inv_quiet s ts i _ _ H Hn); try reflexivity; cbn; congruence.
      + apply (inv_busy s ts i _ _ _ H Hn); [intros; now apply (Hq j)|exact I|exact I| |discriminate| |].
        * intros _. exact (i_calm s ts H Hq).
        * intros _. cbn [tb_peers]. rewrite lookup_insert. discriminate.
        * cbn [tb_channel]. intros c Hc. destruct (i_keyed s ts H c Hc). congruence.
    - cbn [fst snd]. apply (inv_quiet s ts i _ _ H Hn); try reflexivity; cbn; congruence.
  Qed.

  Lemma inv_run : forall sched s ts, inv s ts -> let x := tables_run ids (s, ts) sched in inv (fst x) (snd x).
  Proof.
    unfold tables_run. induction sched as [|i sched IH]; intros s ts H; [exact H|]. cbn [fold_left].
    pose proof (inv_step s ts i H) as H'. cbv zeta in *. destruct (tables_step ids (s, ts) i) as [s' ts']. now apply IH.
  Qed.

  Lemma tables_agree : forall s ts sched, agree ids s -> (forall c, tb_channel s = Some c -> cc_local c = l0) ->
    Forall (keeps l0) ts -> let x := tables_run ids (s, ts) sched in Forall outside (snd x) -> agree ids (fst x).
  Proof.
    intros s ts sched Ha Hl Hk x Hx. subst x. apply agree_wanted in Ha. destruct Ha as [Ha Hb].
    assert (H : inv s ts).
    { split.
      - intros i t Ht. apply nth_error_In in Ht. rewrite Forall_forall in Hk. specialize (Hk t (proj2 (elem_of_list_In _ _) Ht)). destruct t; cbn in *; try exact I; try contradiction; exact Hk.
      - intros i t Ht. apply nth_error_In in Ht. rewrite Forall_forall in Hk. specialize (Hk t (proj2 (elem_of_list_In _ _) Ht)). destruct t; cbn in *; try exact I; contradiction.
      - intros i j t u Ht Hu Bt Bu. apply nth_error_In in Ht. rewrite Forall_forall in Hk. specialize (Hk t (proj2 (elem_of_list_In _ _) Ht)). destruct t; cbn in *; try discriminate; contradiction.
      - intros i j t u Ht Hu Bt Bu. apply nth_error_In in Ht. rewrite Forall_forall in Hk. specialize (Hk t (proj2 (elem_of_list_In _ _) Ht)). destruct t; cbn in *; try discriminate; contradiction.
      - intros _. exact Ha.
      - intros c Hc. pose proof (Hl c Hc) as E. split; [exact E|]. rewrite <- E. now apply Hb. }
    pose proof (inv_run sched s ts H) as H'. cbv zeta in H'. destruct (tables_run ids (s, ts) sched) as [s' ts'].
    cbn [fst snd] in *. apply agree_wanted. split.
    - apply (i_calm _ _ H'). intros i t Ht. apply nth_error_In in Ht. rewrite Forall_forall in Hx. specialize (Hx t (proj2 (elem_of_list_In _ _) Ht)). destruct t; cbn in *; try reflexivity; contradiction.
    - intros c Hc. destruct (i_keyed _ _ H' c Hc) as [E1 E2]. now rewrite E1.
  Qed.
End Tables.

(** ** A call alone *)
Lemma tables_run_cons : forall ids s t s' t' n, table_step ids [t] s t = Some (s', t') ->
  tables_run ids (s, [t]) (repeat 0%nat (S n)) = tables_run ids (s', [t']) (repeat 0%nat n).
Proof. intros ids s t s' t' n H. cbn [repeat]. unfold tables_run. cbn [fold_left]. unfold tables_step. cbn [fst snd nth_error]. rewrite H. reflexivity. Qed.
Lemma ids_alone : forall ids s l todo n,
  tables_run ids (s, [CreateIds l todo]) (repeat 0%nat (length todo + n))
  = tables_run ids (set_by_id s (fold_left apply_change todo (tb_by_id s)), [CreateIds l []]) (repeat 0%nat n).
Proof.
  intros ids s l todo n. revert s. induction todo as [|x todo IH]; intros s; [cbn; destruct s; reflexivity|].
  cbn [length Nat.add]. rewrite (tables_run_cons ids s _ (set_by_id s (apply_change (tb_by_id s) x)) (CreateIds l todo)) by reflexivity.
  rewrite IH. reflexivity.
Qed.
Lemma reset_ids_alone : forall ids s l todo k n,
  tables_run ids (s, [ResetIds l todo k]) (repeat 0%nat (length todo + n))
  = tables_run ids (set_by_id s (fold_left apply_change todo (tb_by_id s)), [ResetIds l [] k]) (repeat 0%nat n).
Proof.
  intros ids s l todo k n. revert s. induction todo as [|x todo IH]; intros s; [cbn; destruct s; reflexivity|].
  cbn [length Nat.add]. rewrite (tables_run_cons ids s _ (set_by_id s (apply_change (tb_by_id s) x)) (ResetIds l todo k)) by reflexivity.
  rewrite IH. reflexivity.
Qed.
Lemma remove_ids_alone : forall ids s l todo n,
  tables_run ids (s, [RemoveIds l todo]) (repeat 0%nat (length todo + n))
  = tables_run ids (set_by_id s (fold_left apply_change todo (tb_by_id s)), [RemoveIds l []]) (repeat 0%nat n).
Proof.
  intros ids s l todo n. revert s. induction todo as [|x todo IH]; intros s; [cbn; destruct s; reflexivity|].
  cbn [length Nat.add]. rewrite (tables_run_cons ids s _ (set_by_id s (apply_change (tb_by_id s) x)) (RemoveIds l todo)) by reflexivity.
  rewrite IH. reflexivity.
Qed.

Lemma call_alone : forall ids, two_ids ids -> forall s t, agree ids s -> call t ->
  exists n s' known, tables_run ids (s, [t]) (repeat 0%nat n) = (s', [Over known])
  /\ (tb_peers s', tb_channel s', known) = call_effect s t /\ agree ids s'.
Proof.
  intros ids two s t Ha Ht. pose proof (proj1 (agree_wanted ids two s) Ha) as [Hw Hk].
  destruct t as [l rk d|l rk d|l todo|l k|l k|l todo k|l|l todo|l k|known]; try contradiction; cbn [call_effect].
  - destruct (tb_peers s !! l) as [k|] eqn:Hp.
    + destruct (tb_channel s) as [c|] eqn:Hc.
      * destruct ((cc_remote c =? rk) || (d <=? cc_date c))%bool eqn:Hv.
        -- exists 2%nat, s, true. split; [|split; [congruence|exact Ha]].
           erewrite (tables_run_cons ids s); [|cbn; rewrite Hp; reflexivity].
           erewrite (tables_run_cons ids s); [|cbn; rewrite Hp, Hc; unfold chan_valid; rewrite Hv; reflexivity]. reflexivity.
        -- exists (S (S (length (drops ids c ++ puts ids (mk_chan l k rk d)) + 1))), (mk_tables (tb_peers s) (Some (mk_chan l k rk d)) (fill ids (mk_chan l k rk d))), true.
           split; [|split; [reflexivity|]].
           ++ erewrite (tables_run_cons ids s); [|cbn; rewrite Hp; reflexivity].
              erewrite (tables_run_cons ids s); [|cbn; rewrite Hp, Hc; unfold chan_valid; rewrite Hv; reflexivity].
              change (Drop _ :: Drop _ :: puts ids ?c') with (drops ids c ++ puts ids c').
              rewrite (ids_alone ids _ l (drops ids c ++ puts ids (mk_chan l k rk d)) 1). cbn [tb_by_id]. rewrite Hw, fold_left_app. cbn [wanted]. rewrite (drop_fill ids). reflexivity.
           ++ apply (agree_wanted ids two). split; [reflexivity|]. cbn [tb_channel tb_peers]. intros c' [= <-]. exact Hp.
      * exists (S (S (length (puts ids (mk_chan l k rk d)) + 1))), (mk_tables (tb_peers s) (Some (mk_chan l k rk d)) (fill ids (mk_chan l k rk d))), true.
        split; [|split; [reflexivity|]].
        -- erewrite (tables_run_cons ids s); [|cbn; rewrite Hp; reflexivity].
           erewrite (tables_run_cons ids s); [|cbn; rewrite Hp, Hc; reflexivity].
           rewrite (ids_alone ids _ l (puts ids (mk_chan l k rk d)) 1). cbn [tb_by_id]. rewrite Hw. reflexivity.
        -- apply (agree_wanted ids two). split; [reflexivity|]. cbn [tb_channel tb_peers]. intros c' [= <-]. exact Hp.
    + exists 1%nat, s, false. split; [|split; [reflexivity|exact Ha]].
      erewrite (tables_run_cons ids s); [|cbn; rewrite Hp; reflexivity]. reflexivity.
  - destruct (tb_peers s !! l) as [k'|] eqn:Hp.
    + set (todo := match tb_channel s with Some c => drops ids c | None => [] end).
      exists (S (S (length todo + 1))), (mk_tables (<[l := k]> (tb_peers s)) None ∅), true. split; [|split; [reflexivity|]].
      * erewrite (tables_run_cons ids s); [|cbn; rewrite Hp; reflexivity].
        erewrite (tables_run_cons ids s); [|cbn; reflexivity]. fold todo.
        rewrite (reset_ids_alone ids _ l todo k 1). cbn [tb_by_id].
        replace (fold_left apply_change todo (tb_by_id s)) with (∅ : id_table); [reflexivity|].
        symmetry. rewrite Hw. subst todo. destruct (tb_channel s); [apply drop_fill|reflexivity].
      * apply (agree_wanted ids two). split; [reflexivity|discriminate].
    + exists 1%nat, s, false. split; [|split; [reflexivity|exact Ha]].
      erewrite (tables_run_cons ids s); [|cbn; rewrite Hp; reflexivity]. reflexivity.
  - set (todo := match tb_channel s with Some c => drops ids c | None => [] end).
    exists (S (length todo + 1)), (mk_tables (delete l (tb_peers s)) None ∅), (match tb_peers s !! l with Some _ => true | None => false end).
    split; [|split; [reflexivity|]].
    + erewrite (tables_run_cons ids s); [|cbn; reflexivity]. fold todo.
      rewrite (remove_ids_alone ids _ l todo 1). cbn [tb_by_id].
      replace (fold_left apply_change todo (tb_by_id s)) with (∅ : id_table); [reflexivity|].
      symmetry. rewrite Hw. subst todo. destruct (tb_channel s); [apply drop_fill|reflexivity].
    + apply (agree_wanted ids two). split; [reflexivity|discriminate].
  - destruct (tb_peers s !! l) as [k'|] eqn:Hp.
    + exists 1%nat, s, true. split; [|split; [reflexivity|exact Ha]].
      erewrite (tables_run_cons ids s); [|cbn; rewrite Hp; reflexivity]. reflexivity.
    + exists 1%nat, (mk_tables (<[l := k]> (tb_peers s)) (tb_channel s) (tb_by_id s)), true. split; [|split; [reflexivity|]].
      * erewrite (tables_run_cons ids s); [|cbn; rewrite Hp; reflexivity]. reflexivity.
      * apply (agree_wanted ids two). split; [exact Hw|]. cbn [tb_channel tb_peers]. intros c Hc. specialize (Hk c Hc).
        rewrite lookup_insert_ne; [exact Hk|congruence].
Qed.

(** ** The cases in which the tables end up in disagreement *)
Lemma sample_two : two_ids sample_ids.
Proof. intros l k rk. unfold sample_ids. lia. Qed.
Lemma sample_agree : agree sample_ids sample_tables.
Proof.
  apply (agree_wanted sample_ids sample_two). split; [reflexivity|]. intros c [= <-]. reflexivity.
Qed.
Definition lonely_tables : tables := mk_tables (<[1 := 3]> ∅) None ∅.
Lemma lonely_agree : agree sample_ids lonely_tables.
Proof. apply (agree_wanted sample_ids sample_two). split; [reflexivity|]. discriminate. Qed.

Lemma removed_peer : exists ids s ts before after, two_ids ids /\ agree ids s /\ Forall call ts
  /\ ts = [Remove 1; Create 1 5 6; Add 1 7; Create 1 5 6]
  /\ (let x := fst (tables_run ids (s, ts) before) in tb_channel x <> None /\ tb_peers x !! 1 = None)
  /\ let x := tables_run ids (s, ts) (before ++ after) in
     Forall over (snd x) /\ tb_peers (fst x) !! 1 = Some 7 /\ tb_channel (fst x) = Some (mk_chan 1 3 5 6).
Proof.
  exists sample_ids, lonely_tables, [Remove 1; Create 1 5 6; Add 1 7; Create 1 5 6], [0; 1; 1; 1; 1; 1; 0]%nat, [2; 3; 3]%nat.
  split; [exact sample_two|]. split; [exact lonely_agree|]. split; [repeat constructor|]. split; [reflexivity|]. split.
  - cbv zeta. split; [vm_compute; discriminate|vm_compute; reflexivity].
  - cbv zeta. split; [vm_compute; repeat constructor|]. split; vm_compute; reflexivity.
Qed.

Lemma deaf_channel : exists ids s ts sched, two_ids ids /\ agree ids s /\ Forall call ts
  /\ ts = [Reset 2 8; Create 1 5 6; Create 1 5 6]
  /\ let x := tables_run ids (s, ts) sched in
     Forall over (snd x) /\ tb_peers (fst x) !! 1 = Some 3 /\ tb_channel (fst x) = Some (mk_chan 1 3 5 6)
     /\ forall i, tb_by_id (fst x) !! i = None.
Proof.
  exists sample_ids, sample_tables, [Reset 2 8; Create 1 5 6; Create 1 5 6], [0; 0; 1; 1; 1; 1; 1; 0; 0; 0; 2; 2]%nat.
  split; [exact sample_two|]. split; [exact sample_agree|]. split; [repeat constructor|]. split; [reflexivity|]. cbv zeta.
  split; [vm_compute; repeat constructor|]. split; [vm_compute; reflexivity|]. split; [vm_compute; reflexivity|].
  intros i. match goal with |- tb_by_id (fst ?r) !! i = None => assert (E : tb_by_id (fst r) = ∅) by (apply map_to_list_empty_iff; vm_compute; reflexivity); rewrite E end.
  apply lookup_empty.
Qed.
