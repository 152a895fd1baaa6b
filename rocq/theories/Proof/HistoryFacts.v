(** The packet history behaves exactly like [spec_deliver]. *)
From Coq Require Import List NArith ZArith Lia Bool Arith.
From Coq Require Import ZifyBool ZifyNat ZifyN.
From Verif.Base Require Import Bytes BytesFacts.
From Verif.Model Require Import History.
From Verif.Spec Require Import HistorySpec.
Import ListNotations.
Open Scope N_scope.

Lemma masked_mod : forall s, masked s = s mod 256.
Proof. intros s. unfold masked, INDEX_MASK. change 255 with (N.ones 8). now rewrite N.land_ones. Qed.
Lemma normalize_div : forall s, normalize s = 256 * (s / 256).
Proof.
  intros s. unfold normalize, INDEX_MASK. change 255 with (N.ones 8).
  rewrite N.ldiff_ones_r, N.shiftl_mul_pow2, N.shiftr_div_pow2.
  change (2 ^ 8) with 256. lia.
Qed.

Lemma land_bit : forall w b, (N.land w (N.shiftl 1 b) =? 0) = negb (N.testbit w b).
Proof.
  intros w b. rewrite N.shiftl_1_l.
  destruct (N.testbit w b) eqn:E.
  - apply N.eqb_neq. intros H.
    assert (N.testbit (N.land w (2 ^ b)) b = true) by
      (rewrite N.land_spec, E, N.pow2_bits_true; reflexivity).
    rewrite H, N.bits_0 in H0. discriminate.
  - apply N.eqb_eq. apply N.bits_inj. intros n. rewrite N.land_spec, N.bits_0, N.pow2_bits_eqb.
    destruct (b =? n) eqn:Eb; [apply N.eqb_eq in Eb; subst; now rewrite E | apply andb_false_r].
Qed.

Lemma lor_bit : forall w b c, N.testbit (N.lor w (N.shiftl 1 b)) c = N.testbit w c || (b =? c).
Proof. intros. now rewrite N.lor_spec, N.shiftl_1_l, N.pow2_bits_eqb. Qed.

Lemma word_set_nth_eq : forall bits i v, (i < length bits)%nat -> word (set_nth i v bits) i = v.
Proof.
  intros bits i v H. unfold word. apply nth_error_nth. now apply nth_error_set_nth_eq.
Qed.
Lemma word_set_nth_neq : forall bits i j v, i <> j -> word (set_nth i v bits) j = word bits j.
Proof.
  intros bits i j v H. unfold word. revert i j H.
  induction bits as [|x bits IH]; intros [|i] [|j] H; cbn; try reflexivity; try congruence.
  apply IH. congruence.
Qed.

(** Bit of sequence number [k] in the current window. *)
Definition cur_bit (bits : list N) (k : N) : bool :=
  N.testbit (word bits (HALF + N.to_nat (k / 64))) (k mod 64).

Record inv (h : history) (known : remembered) : Prop := mk_inv
  { inv_index : h_index h = 0;
    inv_len : length (h_bits h) = HISTORY_SIZE;
    inv_bits : forall k, k < 256 -> cur_bit (h_bits h) k = existsb (N.eqb k) known }.

Lemma inv_new : inv history_new [].
Proof.
  split; try reflexivity. intros k Hk. unfold cur_bit, word. cbn [h_bits history_new existsb].
  rewrite nth_repeat. apply N.bits_0.
Qed.

Lemma word_lt : forall k, k < 256 -> (HALF + N.to_nat (k / 64) < HISTORY_SIZE)%nat.
Proof. intros k H. unfold HALF, HISTORY_SIZE. lia. Qed.

Lemma inv_reset : forall h, inv (history_reset h) [0].
Proof.
  intros h. split; try reflexivity. intros k Hk. unfold cur_bit, word. cbn [h_bits history_reset].
  assert (Hq : k / 64 = 0 \/ k / 64 = 1 \/ k / 64 = 2 \/ k / 64 = 3) by lia.
  cbn [existsb]. rewrite orb_false_r.
  destruct Hq as [Hq|[Hq|[Hq|Hq]]]; rewrite Hq; cbn [seq map HISTORY_SIZE Nat.eqb HALF].
  - change (nth (4 + N.to_nat 0) [0; 0; 0; 0; 1; 0; 0; 0] 0) with (2 ^ 0).
    change (nth _ _ _) with (2 ^ 0). rewrite N.pow2_bits_eqb.
    destruct (k =? 0) eqn:E; lia.
  - change (nth _ _ _) with 0. rewrite N.bits_0. lia.
  - change (nth _ _ _) with 0. rewrite N.bits_0. lia.
  - change (nth _ _ _) with 0. rewrite N.bits_0. lia.
Qed.

Definition bool_of (o : outcome) : bool := match o with Accepted => true | _ => false end.

Lemma finish_index : N.lor 0 (normalize (masked 0 + 1)) = 0.
Proof. reflexivity. Qed.

(** One delivery on the code and on the specification. *)
Lemma deliver_spec : forall checks h known s,
  inv h known -> s < 2 ^ 64 -> (checks = true -> s < 2 ^ 64 - 256) ->
  exists o h', deliver checks h s = (o, h') /\ o <> Panicked
    /\ bool_of o = fst (spec_deliver known s)
    /\ inv h' (snd (spec_deliver known s))
    /\ h_seqno h' = (if bool_of o then N.max (h_seqno h) s else h_seqno h).
Proof.
  intros checks h known s [Hi Hl Hb] Hs Hc.
  unfold deliver. rewrite Hi.
  assert (Hadd : exists l, add_u64 checks (normalize s) (INDEX_MASK + 1) = Some l).
  { unfold add_u64. rewrite normalize_div. change (INDEX_MASK + 1) with 256.
    destruct (_ <? _) eqn:E; [eauto|]. destruct checks; [|eauto].
    specialize (Hc eq_refl). apply N.ltb_ge in E. lia. }
  destruct Hadd as [l Hl']. rewrite Hl'.
  change (normalize 0) with 0. replace (l <? 0) with false by (symmetry; apply N.ltb_ge; lia).
  change (masked 0 + 1) with 1. change (normalize 1) with 0.
  assert (Hmax : forall a b, (if a <? b then b else a) = N.max a b)
    by (intros; destruct (a <? b) eqn:E; lia).
  unfold spec_deliver. destruct (256 <=? s) eqn:Es.
  - (* beyond the window: everything is forgotten *)
    apply N.leb_le in Es.
    assert (Hn : 0 ?= normalize s = Lt) by (apply N.compare_lt_iff; rewrite normalize_div; lia).
    rewrite Hn.
    change (add_u64 checks 0 (INDEX_MASK + 1)) with (Some 256). cbv beta iota zeta.
    destruct (256 =? normalize s); eexists _, _; (split; [reflexivity|]);
      (split; [discriminate|]); (split; [reflexivity|]); cbn [bool_of fst snd h_seqno];
      (split; [split|]); cbn [h_index h_bits]; try reflexivity; try apply Hmax.
    + rewrite app_length, repeat_length, skipn_length, Hl. reflexivity.
    + intros k Hk. unfold cur_bit, word. cbn [existsb].
      rewrite app_nth2; rewrite skipn_length, Hl; [|cbn [HALF HISTORY_SIZE]; unfold HALF, HISTORY_SIZE; lia].
      rewrite nth_repeat. apply N.bits_0.
    + intros k Hk. unfold cur_bit, word. rewrite nth_repeat. apply N.bits_0.
  - (* inside the window *)
    apply N.leb_gt in Es.
    assert (Hn : normalize s = 0) by (rewrite normalize_div; lia).
    assert (Hm : masked s = s) by (rewrite masked_mod; lia).
    rewrite Hn, Hm, N.compare_refl.
    rewrite land_bit. fold (word (h_bits h) (HALF + N.to_nat (s / 64))).
    pose proof (Hb s Es) as Hbs. unfold cur_bit in Hbs. rewrite Hbs, negb_involutive.
    destruct (existsb (N.eqb s) known) eqn:Ek.
    + eexists _, _. split; [reflexivity|]. split; [discriminate|]. split; [reflexivity|].
      split; [|reflexivity]. now split.
    + eexists _, _. split; [reflexivity|]. split; [discriminate|]. split; [reflexivity|].
      split; [|cbn [bool_of h_seqno]; apply Hmax].
      split; cbn [h_index h_bits]; [reflexivity | now rewrite set_nth_length |].
      intros k Hk. unfold cur_bit. cbn [snd existsb].
      destruct (N.eq_dec (k / 64) (s / 64)) as [E|E].
      * rewrite E. rewrite word_set_nth_eq by (rewrite Hl; apply word_lt; exact Es).
        rewrite lor_bit. rewrite <- E at 1. unfold cur_bit in Hb. rewrite Hb by exact Hk.
        rewrite orb_comm. f_equal. lia.
      * rewrite word_set_nth_neq by lia.
        unfold cur_bit in Hb. rewrite Hb by exact Hk.
        replace (k =? s) with false by (symmetry; apply N.eqb_neq; congruence).
        reflexivity.
Qed.

Lemma run_events_inv : forall checks l h known,
  inv h known -> Forall (legal_event checks) l -> inv (run_events checks h l) (spec_run known l).
Proof.
  intros checks l. induction l as [|e l IH]; intros h known Hi Hl; cbn; [exact Hi|].
  inversion Hl as [|? ? He Hl']; subst. destruct e as [s|]; cbn.
  - destruct He as [H1 H2].
    destruct (deliver_spec checks h known s Hi H1 H2) as (o & h' & E & _ & _ & Hi' & _).
    rewrite E. destruct (spec_deliver known s) as [b k]. cbn in *. now apply IH.
  - apply IH; [apply inv_reset | exact Hl'].
Qed.

Lemma history_exact : forall checks l s,
  Forall (legal_event checks) l -> legal checks s ->
  fst (deliver checks (run_events checks history_new l) s)
  = if fst (spec_deliver (spec_run [] l) s) then Accepted else Rejected.
Proof.
  intros checks l s Hl [H1 H2].
  pose proof (run_events_inv checks l _ _ inv_new Hl) as Hi.
  destruct (deliver_spec checks _ _ s Hi H1 H2) as (o & h' & E & Hp & Hb & _).
  rewrite E. cbn. destruct o; cbn in Hb; try (now rewrite <- Hb); congruence.
Qed.

(** Everything below 256: accepted exactly once. *)
Lemma accepted_small : forall checks l h known,
  inv h known -> Forall (fun s => s < 256) l ->
  NoDup (accepted checks h l)
  /\ (forall s, In s (accepted checks h l) <-> In s l /\ ~ In s known).
Proof.
  intros checks l. induction l as [|s l IH]; intros h known Hi Hl; cbn.
  - split; [constructor | intuition].
  - inversion Hl as [|? ? Hs Hl']; subst.
    destruct (deliver_spec checks h known s Hi) as (o & h' & E & Hp & Hb & Hi' & _); [lia | lia |].
    rewrite E. unfold spec_deliver in *.
    replace (256 <=? s) with false in * by (symmetry; apply N.leb_gt; exact Hs).
    destruct (existsb (N.eqb s) known) eqn:Ek; cbn in Hb, Hi'.
    + destruct o; cbn in Hb; try congruence.
      destruct (IH _ _ Hi' Hl') as [H1 H2]. split; [exact H1|].
      apply existsb_exists in Ek as (x & Hx & Ex). apply N.eqb_eq in Ex. subst x.
      intros x. rewrite H2. split; [intuition|]. intros [[<-|H] Hn]; [contradiction | auto].
    + destruct o; cbn in Hb; try congruence.
      destruct (IH _ _ Hi' Hl') as [H1 H2].
      assert (Hnk : ~ In s known).
      { intros H. assert (existsb (N.eqb s) known = true)
          by (apply existsb_exists; exists s; split; [exact H | apply N.eqb_refl]). congruence. }
      split.
      * constructor; [|exact H1]. intros H. apply H2 in H as [_ H]. apply H. now left.
      * intros x. cbn. rewrite H2. cbn. split.
        -- intros [<-|[H H']]; [auto|]. split; [auto|]. intros Hx. apply H'. now right.
        -- intros [[<-|H] Hx]; [auto|].
           destruct (N.eq_dec s x) as [->|Hne]; [auto|]. right. split; [exact H|].
           intros [Hsx|Hk]; [congruence | contradiction].
Qed.

Lemma no_replay_small : forall checks l, Forall (fun s => s < 256) l ->
  NoDup (accepted checks history_new l) /\ (forall s, In s (accepted checks history_new l) <-> In s l).
Proof.
  intros checks l Hl. destruct (accepted_small checks l _ _ inv_new Hl) as [H1 H2].
  split; [exact H1|]. intros s. rewrite H2. cbn. intuition.
Qed.

(** As long as no reset and no number from 256 on intervenes, an accepted number stays
    rejected. *)
Lemma spec_run_keeps : forall l known s, In s known -> Forall small_event l -> In s (spec_run known l).
Proof.
  induction l as [|e l IH]; intros known s Hin Hl; cbn; [exact Hin|].
  inversion Hl as [|? ? He Hl']; subst. apply IH; [|exact Hl'].
  destruct e as [k|]; cbn in *; [|contradiction].
  unfold spec_deliver. replace (256 <=? k) with false by (symmetry; apply N.leb_gt; exact He).
  destruct (existsb (N.eqb k) known); cbn; auto.
Qed.

Lemma remembered_until_wiped : forall checks before s between,
  Forall (legal_event checks) before -> s < 256 -> Forall small_event between ->
  fst (deliver checks (run_events checks history_new (before ++ Deliver s :: between)) s) = Rejected.
Proof.
  intros checks before s between Hb Hs Hm.
  assert (Hleg : forall k, k < 256 -> legal checks k) by (intros k Hk; split; intros; lia).
  assert (Hall : Forall (legal_event checks) (before ++ Deliver s :: between)).
  { apply Forall_app. split; [exact Hb|]. constructor; [now apply Hleg|].
    eapply Forall_impl; [|exact Hm]. intros [k|]; cbn; [apply Hleg | contradiction]. }
  rewrite history_exact by (try apply Hleg; assumption).
  assert (Hrun : forall l1 l2 known, spec_run known (l1 ++ l2) = spec_run (spec_run known l1) l2)
    by (induction l1; intros; cbn; auto).
  rewrite Hrun. cbn [spec_run spec_event].
  set (known := spec_run [] before).
  assert (Hin : In s (snd (let (b, k) := spec_deliver known s in (Some b, k)))).
  { unfold spec_deliver. replace (256 <=? s) with false by (symmetry; apply N.leb_gt; exact Hs).
    destruct (existsb (N.eqb s) known) eqn:Ek; cbn; [|auto].
    apply existsb_exists in Ek as (x & Hx & Ex). apply N.eqb_eq in Ex. now subst. }
  pose proof (spec_run_keeps between _ s Hin Hm) as Hk.
  unfold spec_deliver at 1. replace (256 <=? s) with false by (symmetry; apply N.leb_gt; exact Hs).
  replace (existsb (N.eqb s) _) with true; [reflexivity|].
  symmetry. apply existsb_exists. exists s. split; [exact Hk | apply N.eqb_refl].
Qed.

(** The reported sequence number is the largest one received since the last reset. *)
Lemma seqno_is_max : forall checks l, Forall (legal_event checks) l ->
  h_seqno (run_events checks history_new l) = spec_max 0 l.
Proof.
  intros checks l Hl.
  assert (G : forall l h known, inv h known -> (forall k, In k known -> k <= h_seqno h) ->
    Forall (legal_event checks) l ->
    h_seqno (run_events checks h l) = spec_max (h_seqno h) l).
  { clear l Hl. induction l as [|e l IH]; intros h known Hi Hk Hl; cbn; [reflexivity|].
    inversion Hl as [|? ? He Hl']; subst. destruct e as [s|]; cbn.
    - destruct He as [H1 H2].
      destruct (deliver_spec checks h known s Hi H1 H2) as (o & h' & E & _ & Hb & Hi' & Hm).
      rewrite E. cbn. unfold spec_deliver in *.
      destruct (256 <=? s) eqn:Es; [|destruct (existsb (N.eqb s) known) eqn:Ek]; cbn in Hb, Hi';
        rewrite Hb in Hm.
      + erewrite IH; [|exact Hi'|intros ? []|exact Hl']. now rewrite Hm.
      + erewrite IH; [|exact Hi'|rewrite Hm; exact Hk|exact Hl'].
        rewrite Hm. f_equal. apply existsb_exists in Ek as (x & Hx & Ex).
        apply N.eqb_eq in Ex. subst x. apply Hk in Hx. lia.
      + erewrite IH; [|exact Hi'| |exact Hl']; [now rewrite Hm|].
        intros k [<-|Hin]; rewrite Hm; [lia | apply Hk in Hin; lia].
    - erewrite IH; [reflexivity | apply inv_reset | | exact Hl'].
      intros k [<-|[]]. reflexivity. }
  apply (G l history_new []); [apply inv_new | intros ? [] | exact Hl].
Qed.

Lemma replay_accepted : exists l, Forall (fun s => s < 2 ^ 64) l
  /\ ~ NoDup (accepted true history_new l).
Proof.
  exists [256; 256]. split; [repeat constructor; reflexivity|].
  vm_compute. intros H. inversion H; subst. apply H2. now left.
Qed.

Lemma small_replay_accepted : exists a s b, Forall (fun s => s < 2 ^ 64) (a ++ s :: b ++ [s]) /\ s < 256
  /\ accepted true history_new (a ++ s :: b ++ [s]) = a ++ s :: b ++ [s].
Proof.
  exists [], 5, [300]. repeat split; try (repeat constructor; reflexivity); vm_compute; reflexivity.
Qed.

Lemma panics_at_top : forall h, h_index h = 0 -> fst (deliver true h (2 ^ 64 - 1)) = Panicked.
Proof. intros h H. unfold deliver. rewrite H. vm_compute. reflexivity. Qed.

(** ** Histories of packets that are sent *)
Lemma numbers_in_order : forall checks m last, last + N.of_nat m < 2 ^ 64 ->
  next_numbers checks last m = (map (fun k => Some (last + 1 + N.of_nat k)) (seq 0 m), last + N.of_nat m).
Proof.
  intros checks m. induction m as [|m IH]; intros last H; [cbn; f_equal; lia|].
  cbn [next_numbers]. unfold bump_seqno, add_u64.
  replace (last + 1 <? 2 ^ 64) with true by (symmetry; apply N.ltb_lt; lia).
  rewrite N.mod_small by lia. rewrite IH by lia. f_equal; [|lia].
  cbn [seq map]. f_equal; [f_equal; lia|]. rewrite <- seq_shift, map_map. apply map_ext. intros k. f_equal. lia.
Qed.
Lemma last_number : forall checks, 
  bump_seqno checks (2 ^ 64 - 1) = (if checks then None else Some 0, 0).
Proof. intros []; vm_compute; reflexivity. Qed.
Lemma unmasked_max : forall last s, deliver_unmasked last s = (true, N.max last s).
Proof. intros last s. unfold deliver_unmasked. f_equal. destruct (N.ltb_spec last s); lia. Qed.
