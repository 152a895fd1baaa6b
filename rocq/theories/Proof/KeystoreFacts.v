From stdpp Require Import gmap.
From Coq Require Import NArith Lia.
From Verif.Base Require Import Bytes BytesFacts Res.
From Verif.Model Require Import Crypto AdnlNode Keystore.
From Verif.Spec Require Import KeystoreSpec.

Record ks_ok (P : prims) (s : keystore) : Prop :=
  { ko_own : forall i k : bytes, ks_keys s !! i = Some k -> id_of_secret P k = i;
    ko_tag : forall t (i : bytes), ks_tags s !! t = Some i -> is_Some (ks_keys s !! i) }.

Lemma add_key_ok : forall P s k t, ks_ok P s -> ks_ok P (snd (add_key P s k t)).
Proof.
  intros P s k t [Ho Ht]. unfold add_key.
  destruct (ks_tags s !! t) as [j|] eqn:Hj.
  { destruct (bytes_eqb j (id_of_secret P k)); split; assumption. }
  cbv zeta. destruct (ks_keys s !! id_of_secret P k) as [k0|] eqn:Hk; cbn [snd].
  - split; cbn [ks_keys ks_tags]; [exact Ho|]. intros t' i. destruct (decide (t' = t)) as [->|Hne].
    + rewrite lookup_insert. intros [= <-]. eexists; exact Hk.
    + rewrite lookup_insert_ne by congruence. apply Ht.
  - split; cbn [ks_keys ks_tags].
    + intros i k1. destruct (decide (i = id_of_secret P k)) as [->|Hne].
      * rewrite lookup_insert. now intros [= <-].
      * rewrite lookup_insert_ne by congruence. apply Ho.
    + intros t' i. destruct (decide (t' = t)) as [->|Hne].
      * rewrite lookup_insert. intros [= <-]. rewrite lookup_insert. eexists; reflexivity.
      * rewrite lookup_insert_ne by congruence. intros H. apply Ht in H as [k1 H].
        destruct (decide (i = id_of_secret P k)) as [->|Hni]; [congruence|].
        rewrite lookup_insert_ne by congruence. eexists; exact H.
Qed.

Lemma after_adds_snoc : forall P l k t, after_adds P (l ++ [(k, t)]) = snd (add_key P (after_adds P l) k t).
Proof. intros. unfold after_adds. now rewrite fold_left_app. Qed.

Lemma after_adds_ok : forall P l, ks_ok P (after_adds P l).
Proof.
  intros P l. induction l as [|[k t] l IH] using rev_ind.
  - split; cbn; intros *; rewrite lookup_empty; discriminate.
  - rewrite after_adds_snoc. now apply add_key_ok.
Qed.

Lemma add_key_tags : forall P s k t t',
  ks_tags (snd (add_key P s k t)) !! t' = None <-> ks_tags s !! t' = None /\ t' <> t.
Proof.
  intros P s k t t'. unfold add_key. destruct (ks_tags s !! t) as [j|] eqn:Hj.
  - assert (H : ks_tags s !! t' = None <-> ks_tags s !! t' = None /\ t' <> t).
    { split; [|tauto]. intros H. split; [exact H|]. intros ->. congruence. }
    destruct (bytes_eqb j (id_of_secret P k)); exact H.
  - cbv zeta. destruct (ks_keys s !! id_of_secret P k); cbn [snd ks_tags]; rewrite lookup_insert_None; intuition congruence.
Qed.

Lemma after_adds_tags : forall P l t, ks_tags (after_adds P l) !! t = None <-> ~ In t (map snd l).
Proof.
  intros P l t. induction l as [|[k t'] l IH] using rev_ind.
  - cbn. rewrite lookup_empty. tauto.
  - rewrite after_adds_snoc, add_key_tags, IH, map_app, in_app_iff. cbn. intuition congruence.
Qed.

Lemma lookups_consistent : forall P l,
  let s := after_adds P l in
  (forall i k, key_by_id s i = Ok k -> id_of_secret P k = i)
  /\ (forall t, In t (map snd l) -> exists k, key_by_tag s t = Ok k /\ key_by_id s (id_of_secret P k) = Ok k)
  /\ (forall t, ~ In t (map snd l) -> key_by_tag s t = Err (NoKeyTag t)).
Proof.
  intros P l s. pose proof (after_adds_ok P l) as [Ho Ht]. fold s in Ho, Ht. split; [|split].
  - intros i k H. unfold key_by_id in H. destruct (ks_keys s !! i) as [k0|] eqn:Hk; [|discriminate].
    injection H as <-. now apply Ho.
  - intros t Hin. unfold key_by_tag. destruct (ks_tags s !! t) as [i|] eqn:Hi.
    + destruct (Ht t i Hi) as [k Hk]. unfold key_by_id. rewrite Hk. exists k. split; [reflexivity|].
      rewrite (Ho i k Hk). now rewrite Hk.
    + exfalso. revert Hin. now apply (after_adds_tags P l).
  - intros t Hin. unfold key_by_tag. apply (after_adds_tags P l) in Hin. fold s in Hin. now rewrite Hin.
Qed.

Lemma add_key_keeps_ids : forall P s k t i k0,
  key_by_id s i = Ok k0 -> key_by_id (snd (add_key P s k t)) i = Ok k0.
Proof.
  intros P s k t i k0. unfold key_by_id, add_key.
  destruct (ks_tags s !! t) as [j|]; [now destruct (bytes_eqb j _)|]. cbv zeta.
  destruct (ks_keys s !! id_of_secret P k) as [k1|] eqn:Hk; cbn [snd ks_keys]; [auto|].
  destruct (decide (i = id_of_secret P k)) as [->|Hne]; [now rewrite Hk|].
  now rewrite lookup_insert_ne by congruence.
Qed.

Lemma add_key_keeps_tags : forall P s k t t' k0,
  key_by_tag s t' = Ok k0 -> key_by_tag (snd (add_key P s k t)) t' = Ok k0.
Proof.
  intros P s k t t' k0 H. unfold key_by_tag in *. destruct (ks_tags s !! t') as [i|] eqn:Hi; [|discriminate].
  assert (Hs : ks_tags (snd (add_key P s k t)) !! t' = Some i).
  { unfold add_key. destruct (ks_tags s !! t) as [j|] eqn:Hj; [now destruct (bytes_eqb j _)|]. cbv zeta.
    assert (t <> t') by congruence.
    destruct (ks_keys s !! id_of_secret P k); cbn [snd ks_tags]; now rewrite lookup_insert_ne. }
  rewrite Hs. now apply add_key_keeps_ids.
Qed.

Lemma add_key_success : forall P l k t i,
  let s := after_adds P l in
  fst (add_key P s k t) = Ok i ->
  let s' := snd (add_key P s k t) in
  i = id_of_secret P k
  /\ exists k', key_by_id s' i = Ok k' /\ key_by_tag s' t = Ok k' /\ id_of_secret P k' = i.
Proof.
  intros P l k t i s H s'. pose proof (after_adds_ok P l) as Hok. fold s in Hok.
  pose proof (add_key_ok P s k t Hok) as [Ho Ht]. fold s' in Ho, Ht.
  assert (Hi : i = id_of_secret P k /\ ks_tags s' !! t = Some i).
  { unfold s', add_key in *. destruct (ks_tags s !! t) as [j|] eqn:Hj.
    - destruct (bytes_eqb j (id_of_secret P k)) eqn:He; [|discriminate]. injection H as <-.
      apply bytes_eqb_eq in He. subst j. split; [reflexivity|exact Hj].
    - cbv zeta in *. destruct (ks_keys s !! id_of_secret P k); [discriminate|]. injection H as <-.
      cbn [snd ks_tags]. now rewrite lookup_insert. }
  destruct Hi as [-> Hi]. split; [reflexivity|]. destruct (Ht _ _ Hi) as [k' Hk']. exists k'.
  unfold key_by_tag, key_by_id. rewrite Hi, Hk'. split; [reflexivity|split; [reflexivity|now apply Ho]].
Qed.

Lemma failed_add : forall P s k t e, fst (add_key P s k t) = Err e ->
  let s' := snd (add_key P s k t) in
  (forall i, key_by_id s' i = key_by_id s i)
  /\ (forall t', t' <> t -> key_by_tag s' t' = key_by_tag s t')
  /\ (e = DuplicatedKeyTag t -> s' = s).
Proof.
  intros P s k t e H s'. unfold s', add_key in *. destruct (ks_tags s !! t) as [j|] eqn:Hj.
  - destruct (bytes_eqb j (id_of_secret P k)); [discriminate|]. cbn [snd]. auto.
  - cbv zeta in *. destruct (ks_keys s !! id_of_secret P k) eqn:Hk; [|discriminate]. injection H as <-.
    cbn [snd]. split; [reflexivity|split; [|discriminate]]. intros t' Hne. unfold key_by_tag.
    cbn [ks_tags]. now rewrite lookup_insert_ne by congruence.
Qed.

Lemma failed_add_leaves_tag : forall P s k t, fst (add_key P s k t) = Err (DuplicatedKey t) ->
  let s' := snd (add_key P s k t) in
  key_by_tag s t = Err (NoKeyTag t)
  /\ key_by_tag s' t = key_by_id s (id_of_secret P k)
  /\ fst (add_key P s' k t) = Ok (id_of_secret P k).
Proof.
  intros P s k t H s'. unfold s', add_key in *. destruct (ks_tags s !! t) as [j|] eqn:Hj.
  - destruct (bytes_eqb j (id_of_secret P k)); discriminate.
  - cbv zeta in *. destruct (ks_keys s !! id_of_secret P k) eqn:Hk; [|discriminate].
    cbn [snd]. unfold key_by_tag, key_by_id. rewrite Hj. cbn [ks_tags ks_keys]. rewrite lookup_insert.
    split; [reflexivity|split; [reflexivity|]]. now rewrite bytes_eqb_refl.
Qed.

(** What a keystore built from a list of keys holds. *)
Record ks_holds (P : prims) (s : keystore) (l : list (bytes * N)) : Prop :=
  { kh_tag : forall t (i : bytes), ks_tags s !! t = Some i <-> exists k, In (k, t) l /\ id_of_secret P k = i;
    kh_key : forall i : bytes, is_Some (ks_keys s !! i) <-> exists k t, In (k, t) l /\ id_of_secret P k = i;
    kh_val : forall i k : bytes, ks_keys s !! i = Some k -> id_of_secret P k = i }.

Lemma holds_tag_unique : forall P s l k t k' , ks_holds P s l -> In (k, t) l -> In (k', t) l ->
  id_of_secret P k = id_of_secret P k'.
Proof.
  intros P s l k t k' H H1 H2.
  assert (E1 : ks_tags s !! t = Some (id_of_secret P k)) by (apply (kh_tag _ _ _ H); eauto).
  assert (E2 : ks_tags s !! t = Some (id_of_secret P k')) by (apply (kh_tag _ _ _ H); eauto).
  congruence.
Qed.

Definition tags_match (P : prims) (l : list (bytes * N)) : Prop :=
  forall k t k' t', In (k, t) l -> In (k', t') l -> (t = t' <-> id_of_secret P k = id_of_secret P k').

Lemma with_tagged_keys_spec : forall P l s done, ks_holds P s done -> tags_match P done ->
  match with_tagged_keys P s l with
  | Ok s' => ks_holds P s' (done ++ l) /\ tags_match P (done ++ l)
  | Err _ => ~ tags_match P (done ++ l)
  end.
Proof.
  intros P l. induction l as [|[k t] l IH]; intros s done H Hm; cbn [with_tagged_keys].
  { rewrite app_nil_r. split; assumption. }
  unfold add_key. cbv zeta. destruct (ks_tags s !! t) as [j|] eqn:Ht.
  - apply (kh_tag _ _ _ H) in Ht as (k0 & Hin & Hj). destruct (bytes_eqb j (id_of_secret P k)) eqn:E.
    + apply bytes_eqb_eq in E.
      replace (done ++ (k, t) :: l) with ((done ++ [(k, t)]) ++ l) by (rewrite <- app_assoc; reflexivity).
      apply IH.
      * split.
        -- intros t' i. rewrite (kh_tag _ _ _ H). split.
           ++ intros (k1 & H1 & H2). exists k1. split; [apply in_app_iff; left; exact H1|exact H2].
           ++ intros (k1 & H1 & H2). apply in_app_iff in H1 as [H1|[H1|[]]]; [eauto|].
              inversion H1; subst k1 t'. exists k0. split; [exact Hin|congruence].
        -- intros i. rewrite (kh_key _ _ _ H). split.
           ++ intros (k1 & t1 & H1 & H2). exists k1, t1. split; [apply in_app_iff; left; exact H1|exact H2].
           ++ intros (k1 & t1 & H1 & H2). apply in_app_iff in H1 as [H1|[H1|[]]]; [eauto|].
              inversion H1; subst k1 t1. exists k0, t. split; [exact Hin|congruence].
        -- apply (kh_val _ _ _ H).
      * intros k1 t1 k2 t2 H1 H2. apply in_app_iff in H1, H2.
        destruct H1 as [H1|[H1|[]]]; destruct H2 as [H2|[H2|[]]].
        -- exact (Hm _ _ _ _ H1 H2).
        -- inversion H2; subst k2 t2. rewrite (Hm _ _ _ _ H1 Hin). split; congruence.
        -- inversion H1; subst k1 t1. rewrite (Hm _ _ _ _ Hin H2). split; congruence.
        -- inversion H1; inversion H2; subst. split; congruence.
    + apply bytes_eqb_neq in E. intros Hall.
      assert (C : t = t <-> id_of_secret P k0 = id_of_secret P k).
      { apply Hall; apply in_app_iff; [left; exact Hin|right; left; reflexivity]. }
      apply E. rewrite <- Hj. now apply C.
  - destruct (ks_keys s !! id_of_secret P k) as [k1|] eqn:Hk.
    + assert (Hs : is_Some (ks_keys s !! id_of_secret P k)) by (rewrite Hk; eexists; reflexivity).
      apply (kh_key _ _ _ H) in Hs as (k0 & t0 & Hin & Hi). intros Hall.
      assert (C : t0 = t <-> id_of_secret P k0 = id_of_secret P k).
      { apply Hall; apply in_app_iff; [left; exact Hin|right; left; reflexivity]. }
      apply C in Hi. subst t0.
      assert (X : ks_tags s !! t = Some (id_of_secret P k0)) by (apply (kh_tag _ _ _ H); eauto). congruence.
    + assert (Hnt : forall k0, ~ In (k0, t) done).
      { intros k0 Hin. assert (X : ks_tags s !! t = Some (id_of_secret P k0)) by (apply (kh_tag _ _ _ H); eauto). congruence. }
      assert (Hnk : forall k0 t0, In (k0, t0) done -> id_of_secret P k0 <> id_of_secret P k).
      { intros k0 t0 Hin Heq. assert (X : is_Some (ks_keys s !! id_of_secret P k)) by (apply (kh_key _ _ _ H); eauto).
        rewrite Hk in X. destruct X as [x X]. discriminate X. }
      replace (done ++ (k, t) :: l) with ((done ++ [(k, t)]) ++ l) by (rewrite <- app_assoc; reflexivity).
      apply IH.
      * split; cbn [ks_tags ks_keys].
        -- intros t' i. destruct (decide (t' = t)) as [->|Hne].
           ++ rewrite lookup_insert. split.
              ** intros [= <-]. exists k. split; [apply in_app_iff; right; left; reflexivity|reflexivity].
              ** intros (k1 & H1 & H2). apply in_app_iff in H1 as [H1|[H1|[]]].
                 { now apply Hnt in H1. } inversion H1; subst k1. now rewrite H2.
           ++ rewrite lookup_insert_ne by congruence. rewrite (kh_tag _ _ _ H). split.
              ** intros (k1 & H1 & H2). exists k1. split; [apply in_app_iff; left; exact H1|exact H2].
              ** intros (k1 & H1 & H2). apply in_app_iff in H1 as [H1|[H1|[]]]; [eauto|].
                 inversion H1; congruence.
        -- intros i. destruct (decide (i = id_of_secret P k)) as [->|Hne].
           ++ rewrite lookup_insert. split; [|intros _; eexists; reflexivity].
              intros _. exists k, t. split; [apply in_app_iff; right; left; reflexivity|reflexivity].
           ++ rewrite lookup_insert_ne by congruence. rewrite (kh_key _ _ _ H). split.
              ** intros (k1 & t1 & H1 & H2). exists k1, t1. split; [apply in_app_iff; left; exact H1|exact H2].
              ** intros (k1 & t1 & H1 & H2). apply in_app_iff in H1 as [H1|[H1|[]]]; [eauto|].
                 inversion H1; congruence.
        -- intros i k1. destruct (decide (i = id_of_secret P k)) as [->|Hne].
           ++ rewrite lookup_insert. now intros [= <-].
           ++ rewrite lookup_insert_ne by congruence. apply (kh_val _ _ _ H).
      * intros k1 t1 k2 t2 H1 H2. apply in_app_iff in H1, H2.
        destruct H1 as [H1|[H1|[]]]; destruct H2 as [H2|[H2|[]]].
        -- exact (Hm _ _ _ _ H1 H2).
        -- inversion H2; subst k2 t2. split; intros Heq; exfalso.
           ++ subst t1. exact (Hnt _ H1).
           ++ exact (Hnk _ _ H1 Heq).
        -- inversion H1; subst k1 t1. split; intros Heq; exfalso.
           ++ subst t2. exact (Hnt _ H2).
           ++ exact (Hnk _ _ H2 (eq_sym Heq)).
        -- inversion H1; inversion H2; subst. split; congruence.
Qed.

Lemma holds_nothing : forall P, ks_holds P keystore_new [].
Proof.
  intros P. split; cbn.
  - intros t i. rewrite lookup_empty. split; [discriminate|]. intros (k & [] & _).
  - intros i. rewrite lookup_empty. split; [intros [x X]; discriminate X|]. intros (k & t & [] & _).
  - intros i k. rewrite lookup_empty. discriminate.
Qed.

Lemma built_keystore : forall P l,
  match with_tagged_keys P keystore_new l with
  | Ok s =>
      (forall k t, In (k, t) l -> exists k', key_by_tag s t = Ok k' /\ id_of_secret P k' = id_of_secret P k
                                             /\ key_by_id s (id_of_secret P k) = Ok k')
      /\ (forall t, ~ In t (map snd l) -> key_by_tag s t = Err (NoKeyTag t))
      /\ forall k t k' t', In (k, t) l -> In (k', t') l -> (t = t' <-> id_of_secret P k = id_of_secret P k')
  | Err _ =>
      exists k t k' t', In (k, t) l /\ In (k', t') l /\ ~ (t = t' <-> id_of_secret P k = id_of_secret P k')
  end.
Proof.
  intros P l. assert (H0 : tags_match P []) by (intros k t k' t' []).
  pose proof (with_tagged_keys_spec P l keystore_new [] (holds_nothing P) H0) as H. cbn [app] in H.
  destruct (with_tagged_keys P keystore_new l) as [s|e] eqn:E.
  - destruct H as [H Hm]. split; [|split; [|exact Hm]].
    + intros k t Hin. unfold key_by_tag, key_by_id.
      assert (Ht : ks_tags s !! t = Some (id_of_secret P k)) by (apply (kh_tag _ _ _ H); eauto). rewrite Ht.
      assert (Hk : is_Some (ks_keys s !! id_of_secret P k)) by (apply (kh_key _ _ _ H); eauto).
      destruct Hk as [k' Hk]. rewrite Hk. exists k'. split; [reflexivity|]. split; [|reflexivity].
      exact (kh_val _ _ _ H _ _ Hk).
    + intros t Hn. unfold key_by_tag. destruct (ks_tags s !! t) as [i|] eqn:Ht; [|reflexivity].
      apply (kh_tag _ _ _ H) in Ht as (k & Hin & _). exfalso. apply Hn. apply in_map_iff. now exists (k, t).
  - (* a search for the two offending entries *)
    destruct (decide (Forall (fun x => Forall (fun y => snd x = snd y <-> id_of_secret P (fst x) = id_of_secret P (fst y)) l) l)) as [Ha|Ha].
    + exfalso. apply H. intros k t k' t' H1 H2. rewrite Forall_forall in Ha.
      pose proof (Ha (k, t) (proj2 (elem_of_list_In _ _) H1)) as Hb. rewrite Forall_forall in Hb.
      exact (Hb (k', t') (proj2 (elem_of_list_In _ _) H2)).
    + apply not_Forall_Exists in Ha; [|intros x; apply _]. apply Exists_exists in Ha as ([k t] & H1 & Ha).
      apply not_Forall_Exists in Ha; [|intros x; apply _]. apply Exists_exists in Ha as ([k' t'] & H2 & Ha).
      exists k, t, k', t'. split; [now apply elem_of_list_In|]. split; [now apply elem_of_list_In|exact Ha].
Qed.
