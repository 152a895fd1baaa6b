(** Facts about the choice of peers for a lookup (C45). *)
From stdpp Require Import gmap.
From Coq Require Import NArith Permutation Sorted Lia.
From Coq Require Import ZifyBool ZifyNat ZifyN.
From Verif.Base Require Import Bytes BytesFacts Res.
From Verif.Model Require Import Crypto PeersSet DhtStorage DhtBuckets DhtNode.
From Verif.Proof Require DhtNodeFacts PeersSetFacts.
From Verif.Spec Require Import PeersSetSpec DhtNodeSpec DhtSample.
Open Scope N_scope.

Lemma fill_peer_cases : forall key batch acc p,
  fill_peer key batch acc p = acc ++ [(get_affinity key p, p)]
  \/ (fill_peer key batch acc p = acc
      /\ exists top b, batch = Some b /\ In top acc /\ get_affinity key p < fst top /\ b <= N.of_nat (length acc)).
Proof.
  intros key batch acc p. unfold fill_peer. cbv zeta. destruct (rev acc) as [|[top q] r] eqn:E; [now left|].
  destruct batch as [b|]; [|now left]. destruct ((top <=? get_affinity key p) || (N.of_nat (length acc) <? b)) eqn:Eb; [now left|].
  right. split; [reflexivity|]. exists (top, q), b. apply orb_false_iff in Eb as [E1 E2]. split; [reflexivity|]. split; [|cbn; lia].
  apply in_rev. rewrite E. now left.
Qed.

(** The candidates after the good peers [l] were seen. *)
Definition candidates (key : bytes) (batch : option N) (l : list bytes) (acc : list (N * bytes)) : Prop :=
  (exists keep, map snd acc = List.filter keep l)
  /\ (forall a p, In (a, p) acc -> a = get_affinity key p)
  /\ (forall p, In p l -> (forall q, In q l -> get_affinity key q <= get_affinity key p) -> In p (map snd acc))
  /\ (batch = None -> map snd acc = l)
  /\ (forall b, batch = Some b -> N.min b (N.of_nat (length l)) <= N.of_nat (length acc)).

Lemma candidates_step : forall key batch l acc p, ~ In p l -> candidates key batch l acc ->
  candidates key batch (l ++ [p]) (fill_peer key batch acc p).
Proof.
  intros key batch l acc p Hp ((keep & C1) & C2 & C3 & C4 & C5).
  assert (Hfil : forall (f g : bytes -> bool) xs, (forall x, In x xs -> f x = g x) -> List.filter f xs = List.filter g xs) by (intros; now apply filter_ext_in).
  destruct (fill_peer_cases key batch acc p) as [E|[E (top & b & Eb & Ht & Hlt & Hlen)]]; rewrite E.
  - split; [|split; [|split; [|split]]].
    + exists (fun x => if bytes_eqb x p then true else keep x). rewrite map_app, List.filter_app, C1. f_equal.
      * apply Hfil. intros x Hx. destruct (bytes_eqb x p) eqn:Ex; [apply bytes_eqb_eq in Ex; subst; contradiction|reflexivity].
      * cbn. now rewrite bytes_eqb_refl.
    + intros a q H. apply in_app_or in H as [H|[H|[]]]; [now apply C2|]. now injection H as <- <-.
    + intros q Hq Hmax. rewrite map_app. apply in_or_app. apply in_app_or in Hq as [Hq|[<-|[]]]; [|right; now left].
      left. apply C3; [exact Hq|]. intros x Hx. apply Hmax. apply in_or_app. now left.
    + intros Hb. rewrite map_app, (C4 Hb). reflexivity.
    + intros b Hb. specialize (C5 b Hb). rewrite !app_length. cbn [length]. lia.
  - split; [|split; [exact C2|split; [|split]]].
    + exists (fun x => if bytes_eqb x p then false else keep x). rewrite List.filter_app, C1. cbn. rewrite bytes_eqb_refl, app_nil_r.
      apply Hfil. intros x Hx. destruct (bytes_eqb x p) eqn:Ex; [apply bytes_eqb_eq in Ex; subst; contradiction|reflexivity].
    + intros q Hq Hmax. apply in_app_or in Hq as [Hq|[<-|[]]].
      * apply C3; [exact Hq|]. intros x Hx. apply Hmax, in_or_app. now left.
      * exfalso. destruct top as [a t]. pose proof (C2 _ _ Ht) as Ha. cbn [fst] in Hlt. 
        assert (Hin : In t l). { assert (In t (map snd acc)) by (apply in_map_iff; exists (a, t); now split). rewrite C1 in H. now apply List.filter_In in H. }
        specialize (Hmax t). assert (In t (l ++ [p])) by (apply in_or_app; now left). specialize (Hmax H). lia.
    + intros Hb. congruence.
    + intros b' Hb. assert (b' = b) by congruence. subst b'. rewrite app_length. cbn [length]. lia.
Qed.
Lemma candidates_fold : forall key batch l, List.NoDup l -> candidates key batch l (fold_left (fill_peer key batch) l []).
Proof.
  intros key batch l. induction l as [|p l IH] using rev_ind; intros Hnd.
  - split; [now exists (fun _ => true)|]. split; [intros a p []|]. split; [intros p []|]. split; [reflexivity|]. intros b _. cbn. lia.
  - rewrite fold_left_app. cbn [fold_left]. apply NoDup_remove in Hnd as [H1 H2]. rewrite app_nil_r in *. now apply candidates_step; [|apply IH].
Qed.

Lemma retain_sub : forall l offset batch top x, In x (retain_from offset batch top l) -> In x l.
Proof.
  induction l as [|y l IH]; intros offset batch top x H; cbn [retain_from] in H; [destruct H|].
  destruct (_ || _); [destruct H as [<-|H]; [now left|]|]; right; eapply IH; exact H.
Qed.
Lemma retain_top : forall l offset batch top x, In x l -> top <= fst x -> In x (retain_from offset batch top l).
Proof.
  induction l as [|y l IH]; intros offset batch top x H Ht; [destruct H|]. cbn [retain_from]. destruct H as [<-|H].
  - destruct (N.leb_spec top (fst y)); [|lia]. rewrite orb_true_r. now left.
  - destruct (_ || _); [right|]; now apply IH.
Qed.
Lemma retain_nodup : forall l offset batch top, List.NoDup (map snd l) -> List.NoDup (map snd (retain_from offset batch top l)).
Proof.
  induction l as [|y l IH]; intros offset batch top H; cbn [retain_from]; [constructor|]. cbn [map] in H. apply List.NoDup_cons_iff in H as [H1 H2].
  destruct (_ || _); [|now apply IH]. cbn [map]. constructor; [|now apply IH]. intros Hin. apply H1.
  apply in_map_iff in Hin as (x & Hx & Hin). apply retain_sub in Hin. apply in_map_iff. eauto.
Qed.
Lemma retain_length : forall l offset batch top,
  N.min (batch - offset) (N.of_nat (length l)) <= N.of_nat (length (retain_from offset batch top l)).
Proof.
  induction l as [|y l IH]; intros offset batch top; cbn [retain_from length]; [lia|]. specialize (IH (offset + 1) batch top).
  destruct (N.ltb_spec offset batch) as [H|H]; cbn [orb length]; [lia|]. destruct (top <=? fst y); cbn [length]; lia.
Qed.
Lemma closest_exists : forall key (l : list bytes), l <> [] -> exists m, In m l /\ forall q, In q l -> get_affinity key q <= get_affinity key m.
Proof.
  intros key l. induction l as [|x l IH]; intros H; [congruence|]. destruct l as [|y l].
  - exists x. split; [now left|]. intros q [<-|[]]. lia.
  - destruct IH as (m & Hm & Hb); [discriminate|]. destruct (N.le_gt_cases (get_affinity key x) (get_affinity key m)) as [Hx|Hx].
    + exists m. split; [now right|]. intros q [<-|Hq]; [exact Hx|now apply Hb].
    + exists x. split; [now left|]. intros q [<-|Hq]; [lia|]. specialize (Hb q Hq). lia.
Qed.
Lemma retain_upper : forall l offset batch top, StronglySorted (fun x y => fst y <= fst x) l ->
  N.of_nat (length (retain_from offset batch top l)) <= batch - offset
  \/ forall x, In x (retain_from offset batch top l) -> top <= fst x.
Proof.
  induction l as [|y l IH]; intros offset batch top H; cbn [retain_from]; [right; intros x []|]. apply StronglySorted_inv in H as [H1 H2].
  destruct (IH (offset + 1) batch top H1) as [IH'|IH'].
  - destruct (N.ltb_spec offset batch) as [Ho|Ho]; cbn [orb]; [left; cbn [length]; lia|].
    right. intros x Hx. destruct (retain_from (offset + 1) batch top l) as [|z r]; [|cbn [length] in IH'; lia].
    destruct (N.leb_spec top (fst y)); [|destruct Hx]. destruct Hx as [<-|[]]. assumption.
  - destruct (N.ltb_spec offset batch) as [Ho|Ho]; cbn [orb].
    + destruct (retain_from (offset + 1) batch top l) as [|z r] eqn:Er; [left; cbn [length]; lia|].
      right. intros x [<-|Hx]; [|now apply IH'].
      assert (Hz : In z l) by (apply (retain_sub l (offset + 1) batch top); rewrite Er; now left).
      apply (proj1 (List.Forall_forall _ _) H2) in Hz. specialize (IH' z (or_introl eq_refl)). lia.
    + right. intros x Hx. destruct (N.leb_spec top (fst y)); [|now apply IH'].
      destruct Hx as [<-|Hx]; [assumption|now apply IH'].
Qed.
Lemma retain_sorted : forall l offset batch top, StronglySorted (fun x y => fst y <= fst x) l ->
  StronglySorted (fun x y : N * bytes => fst y <= fst x) (retain_from offset batch top l).
Proof.
  induction l as [|y l IH]; intros offset batch top H; cbn [retain_from]; [constructor|]. apply StronglySorted_inv in H as [H1 H2].
  destruct (_ || _); [|now apply IH]. constructor; [now apply IH|]. apply List.Forall_forall. intros x Hx. apply retain_sub in Hx.
  now apply (proj1 (List.Forall_forall _ _) H2).
Qed.

Section Select.
  Context (sort : list (N * bytes) -> list (N * bytes)) (Hsort : sorts sort).

  Lemma filled : forall d batch key, List.NoDup (ps_members (d_known d)) ->
    let l := pi_peers (iter_fill sort d batch (peers_iter_new key)) in
    exists acc, candidates key batch (good_peers d) acc
    /\ Permutation (sort acc) acc /\ StronglySorted (fun x y => fst y <= fst x) l
    /\ l = match batch, sort acc with Some b, (top, _) :: _ => retain_from 0 b top (sort acc) | _, _ => sort acc end.
  Proof.
    intros d batch key Hnd l. exists (fold_left (fill_peer key batch) (good_peers d) []).
    split; [apply candidates_fold; now apply List.NoDup_filter|]. split; [apply Hsort|].
    assert (Hl : l = match batch, sort (fold_left (fill_peer key batch) (good_peers d) []) with
      | Some b, (top, _) :: _ => retain_from 0 b top (sort (fold_left (fill_peer key batch) (good_peers d) []))
      | _, _ => sort (fold_left (fill_peer key batch) (good_peers d) []) end).
    { unfold l, iter_fill. cbn [pi_peers pi_index pi_key peers_iter_new]. reflexivity. }
    split; [|exact Hl]. rewrite Hl. destruct (Hsort (fold_left (fill_peer key batch) (good_peers d) [])) as [_ Hs].
    destruct batch as [b|]; [|exact Hs]. destruct (sort _) as [|[top q] r]; [constructor|now apply retain_sorted].
  Qed.

  Theorem selected_peers : forall d batch key, List.NoDup (ps_members (d_known d)) ->
    let r := map snd (pi_peers (iter_fill sort d batch (peers_iter_new key))) in
    List.NoDup r
    /\ (forall p, In p r -> In p (ps_members (d_known d)) /\ is_bad_peer d p = false)
    /\ (batch = None -> Permutation r (good_peers d))
    /\ (forall p, In p (good_peers d) -> (forall q, In q (good_peers d) -> get_affinity key q <= get_affinity key p) -> In p r)
    /\ (forall b, batch = Some b -> N.min b (N.of_nat (length (good_peers d))) <= N.of_nat (length r))
    /\ (forall b, batch = Some b -> N.of_nat (length r) <= b
        \/ forall p q, In p r -> In q (good_peers d) -> get_affinity key q <= get_affinity key p).
  Proof.
    intros d batch key Hnd r. destruct (filled d batch key Hnd) as (acc & ((keep & C1) & C2 & C3 & C4 & C5) & Hp & _ & Hl). unfold r. rewrite Hl.
    assert (Hpm : Permutation (map snd (sort acc)) (map snd acc)) by now apply Permutation_map.
    assert (Hgood : List.NoDup (good_peers d)) by now apply List.NoDup_filter.
    assert (Hnd' : List.NoDup (map snd (sort acc))) by (rewrite Hpm, C1; now apply List.NoDup_filter).
    assert (Hsub : forall p, In p (map snd (sort acc)) -> In p (ps_members (d_known d)) /\ is_bad_peer d p = false).
    { intros p H. rewrite Hpm, C1 in H. apply List.filter_In in H as [H _]. apply List.filter_In in H as [H1 H2]. split; [exact H1|].
      now destruct (is_bad_peer d p). }
    assert (Haff : forall x, In x (sort acc) -> fst x = get_affinity key (snd x)).
    { intros [a p] H. rewrite Hp in H. now apply C2. }
    assert (Hmax : forall p, In p (good_peers d) -> (forall q, In q (good_peers d) -> get_affinity key q <= get_affinity key p) -> In (get_affinity key p, p) (sort acc)).
    { intros p H1 H2. rewrite Hp. specialize (C3 p H1 H2). apply in_map_iff in C3 as ([a q] & H3 & H4). cbn in H3. subst q. now rewrite <- (C2 _ _ H4). }
    destruct batch as [b|].
    - destruct (sort acc) as [|[top q] rest] eqn:Es.
      + split; [constructor|]. split; [intros p []|]. split; [discriminate|]. split; [intros p H1 H2; now apply Hmax in H1|].
        split; [intros b' Hb; specialize (C5 b' Hb); apply Permutation_nil in Hp; subst acc; cbn in *; lia|].
        intros b' _. left. cbn. lia.
      + rewrite <- Es in *. split; [now apply retain_nodup|]. split.
        { intros p H. apply Hsub. apply in_map_iff in H as (x & Hx & H). apply retain_sub in H. apply in_map_iff. eauto. }
        split; [discriminate|]. split.
        * intros p H1 H2. apply in_map_iff. exists (get_affinity key p, p). split; [reflexivity|]. apply retain_top; [now apply Hmax|]. cbn [fst].
          assert (Hq : In (top, q) (sort acc)) by (rewrite Es; now left). rewrite (Haff _ Hq : top = _). cbn [snd]. apply H2.
          assert (In q (map snd (sort acc))) by (apply in_map_iff; exists (top, q); now split). rewrite Hpm, C1 in H. now apply List.filter_In in H.
        * split.
          { intros b' Hb. injection Hb as <-. specialize (C5 b eq_refl). rewrite map_length.
            pose proof (retain_length (sort acc) 0 b top) as H. rewrite (Permutation_length Hp) in H. lia. }
          intros b' Hb. injection Hb as <-. rewrite map_length.
          destruct (retain_upper (sort acc) 0 b top (proj2 (Hsort acc))) as [Hu|Hu]; [left; lia|]. right. intros p q' Hin Hq'.
          destruct (closest_exists key (good_peers d)) as (m & Hm & Hb); [intros E; rewrite E in Hq'; destruct Hq'|].
          pose proof (Hmax m Hm Hb) as Htop. apply in_map_iff in Hin as (x & <- & Hin). pose proof (Hu x Hin) as Hx.
          rewrite (Haff x (retain_sub _ _ _ _ _ Hin)) in Hx.
          assert (Hs : get_affinity key m <= top).
          { pose proof (proj2 (Hsort acc)) as Hss. rewrite Es in Hss, Htop. destruct Htop as [Ht|Ht]; [injection Ht as -> _; lia|].
            apply StronglySorted_inv in Hss as [_ Hss]. exact (proj1 (List.Forall_forall _ _) Hss _ Ht). }
          specialize (Hb q' Hq'). lia.
    - split; [exact Hnd'|]. split; [exact Hsub|]. split; [intros _; rewrite Hpm; now rewrite C4|]. split; [|split; discriminate].
      intros p H1 H2. apply in_map_iff. exists (get_affinity key p, p). split; [reflexivity|now apply Hmax].
  Qed.

  (** The peers are asked starting with the farthest. *)
  Theorem farthest_first : forall d batch key p it, List.NoDup (ps_members (d_known d)) ->
    let first := iter_fill sort d batch (peers_iter_new key) in
    iter_next first = (Some p, it) ->
    forall q, In q (map snd (pi_peers first)) -> get_affinity key p <= get_affinity key q.
  Proof.
    intros d batch key p it Hnd first H q Hq.
    destruct (filled d batch key Hnd) as (acc & (_ & C2 & _) & Hp & Hs & Hl). fold first in Hs, Hl.
    assert (Haff : forall x, In x (pi_peers first) -> fst x = get_affinity key (snd x)).
    { intros [a x] Hx. assert (Hx' : In (a, x) (sort acc)).
      { rewrite Hl in Hx. destruct batch; [|exact Hx]. destruct (sort acc) as [|[top t] rest]; [exact Hx|now apply retain_sub in Hx]. }
      rewrite Hp in Hx'. now apply C2. }
    unfold iter_next in H. destruct (rev (pi_peers first)) as [|[a x] r] eqn:Er; [discriminate|]. injection H as <- _.
    assert (Hlist : pi_peers first = rev r ++ [(a, x)]) by (rewrite <- (rev_involutive (pi_peers first)), Er; reflexivity).
    apply in_map_iff in Hq as ([aq q'] & Hq' & Hq). cbn in Hq'. subst q'. pose proof (Haff _ Hq) as Haq. cbn in Haq.
    assert (Ha : a = get_affinity key x) by (apply (Haff (a, x)); rewrite Hlist; apply in_or_app; right; now left).
    rewrite <- Haq, <- Ha. rewrite Hlist in Hq, Hs. clear - Hq Hs. revert Hs Hq. generalize (rev r). intros l. induction l as [|y l IH]; intros Hs Hq.
    - destruct Hq as [Hq|[]]. injection Hq as -> ->. lia.
    - cbn in Hs. apply StronglySorted_inv in Hs as [H1 H2]. destruct Hq as [->|Hq]; [|now apply IH].
      exact (proj1 (List.Forall_forall _ _) H2 (a, x) ltac:(apply in_or_app; right; now left)).
  Qed.

  Lemma taken_all : forall l n key index, (length l <= n)%nat ->
    taken n (mk_peers_iter key l index) = rev (map snd l).
  Proof.
    intros l. induction l as [|x l IH] using rev_ind; intros n key index Hn.
    - destruct n; reflexivity.
    - rewrite app_length in Hn. cbn [length] in Hn. destruct n as [|n]; [lia|]. cbn [taken]. unfold iter_next. cbn [pi_peers pi_key pi_index].
      rewrite rev_app_distr. cbn [rev app]. destruct x as [a p]. rewrite rev_involutive, IH by lia. now rewrite map_app, rev_app_distr.
  Qed.

  Lemma sorted_rev : forall (l : list (N * bytes)), StronglySorted (fun x y => fst y <= fst x) l ->
    StronglySorted (fun x y => fst x <= fst y) (rev l).
  Proof.
    induction l as [|x l IH]; intros H; [constructor|]. apply StronglySorted_inv in H as [H1 H2]. cbn [rev].
    assert (Happ : forall l1 : list (N * bytes), StronglySorted (fun x y => fst x <= fst y) l1 ->
      (forall y, In y l1 -> fst y <= fst x) -> StronglySorted (fun x y => fst x <= fst y) (l1 ++ [x])).
    { induction l1 as [|y l1 IH1]; intros Hs Hy; [constructor; constructor|]. apply StronglySorted_inv in Hs as [Hs1 Hs2]. cbn [app].
      constructor; [apply IH1; [exact Hs1|]; intros z Hz; apply Hy; now right|].
      apply List.Forall_app. split; [exact Hs2|]. constructor; [apply Hy; now left|constructor]. }
    apply Happ; [now apply IH|]. intros y Hy. apply in_rev in Hy. exact (proj1 (List.Forall_forall _ _) H2 y Hy).
  Qed.

  Lemma sorted_map : forall key (l : list (N * bytes)), (forall x, In x l -> fst x = get_affinity key (snd x)) ->
    StronglySorted (fun x y => fst x <= fst y) l ->
    StronglySorted (fun p q => get_affinity key p <= get_affinity key q) (map snd l).
  Proof.
    intros key l. induction l as [|x l IH]; intros Ha H; [constructor|]. apply StronglySorted_inv in H as [H1 H2]. cbn [map].
    constructor; [apply IH; [intros y Hy; apply Ha; now right|exact H1]|]. apply List.Forall_forall. intros p Hp.
    apply in_map_iff in Hp as (y & <- & Hy). rewrite <- (Ha x (or_introl eq_refl)), <- (Ha y (or_intror Hy)).
    exact (proj1 (List.Forall_forall _ _) H2 y Hy).
  Qed.

  (** Every selected peer is asked once, from the farthest to the closest. *)
  Theorem taken_in_order : forall d batch key n, List.NoDup (ps_members (d_known d)) ->
    let first := iter_fill sort d batch (peers_iter_new key) in
    (length (pi_peers first) <= n)%nat ->
    Permutation (taken n first) (map snd (pi_peers first))
    /\ StronglySorted (fun p q => get_affinity key p <= get_affinity key q) (taken n first).
  Proof.
    intros d batch key n Hnd first Hn.
    destruct (filled d batch key Hnd) as (acc & (_ & C2 & _) & Hp & Hs & Hl). fold first in Hs, Hl.
    assert (Haff : forall x, In x (pi_peers first) -> fst x = get_affinity key (snd x)).
    { intros [a x] Hx. assert (Hx' : In (a, x) (sort acc)).
      { rewrite Hl in Hx. destruct batch; [|exact Hx]. destruct (sort acc) as [|[top t] rest]; [exact Hx|now apply retain_sub in Hx]. }
      rewrite Hp in Hx'. now apply C2. }
    clearbody first. destruct first as [k l i]. cbn [pi_peers] in *. rewrite taken_all by exact Hn. split.
    - symmetry. apply Permutation_rev.
    - rewrite <- map_rev. apply sorted_map; [intros x Hx; apply Haff; now apply in_rev|]. now apply sorted_rev.
  Qed.

  (** The first peer that is added after a round is never asked. *)
  Theorem new_peer_skipped : forall d d' batch key p,
    ps_members (d_known d') = ps_members (d_known d) ++ [p] -> ~ In p (ps_members (d_known d)) ->
    ~ In p (map snd (pi_peers (iter_fill sort d' batch (iter_fill sort d batch (peers_iter_new key))))).
  Proof.
    intros d d' batch key p Hm Hp. set (it := iter_fill sort d batch (peers_iter_new key)).
    assert (Hsub : forall l (it : peers_iter) e x, In x (map snd (pi_peers (iter_fill sort e batch it))) ->
      l = List.filter (fun p => negb (is_bad_peer e p)) (skipn (pi_index it) (ps_members (d_known e))) ->
      In x (map snd (pi_peers it)) \/ In x l).
    { clear - Hsort. intros l it e x H ->. apply in_map_iff in H as (y & <- & H). unfold iter_fill in H. cbn [pi_peers] in H.
      set (l := List.filter _ _) in *. set (acc := fold_left (fill_peer (pi_key it) batch) l (pi_peers it)) in *.
      assert (Hy : In y (sort acc)). { destruct batch as [b|]; [|exact H]. destruct (sort acc) as [|[top t] rest]; [exact H|now apply retain_sub in H]. }
      rewrite (proj1 (Hsort acc)) in Hy. unfold acc in Hy. clear - Hy. revert Hy. generalize (pi_peers it). induction l as [|z l IH]; intros acc Hy.
      - left. apply in_map_iff. eauto.
      - cbn [fold_left] in Hy. destruct (IH _ Hy) as [H|H]; [|right; now right]. 
        destruct (fill_peer_cases (pi_key it) batch acc z) as [E|[E _]]; rewrite E in H; [|now left]. rewrite map_app in H. apply in_app_or in H as [H|[H|[]]]; [now left|].
        right. left. exact H. }
    intros H. destruct (Hsub _ it d' p H eq_refl) as [H1|H1].
    - destruct (Hsub _ (peers_iter_new key) d p H1 eq_refl) as [[]|H2]. apply List.filter_In in H2 as [H2 _]. cbn [pi_index peers_iter_new skipn] in H2. contradiction.
    - apply List.filter_In in H1 as [H1 _]. rewrite Hm in H1. change (pi_index it) with (S (Nat.max 0 (length (ps_members (d_known d))))) in H1.
      rewrite skipn_all2 in H1; [destruct H1|]. rewrite app_length. cbn [length]. lia.
  Qed.
End Select.

Lemma insertion_sort_sorts : sorts insertion_sort.
Proof.
  assert (Hp : forall x l, Permutation (insert_sorted x l) (x :: l)).
  { intros x l. induction l as [|y l IH]; cbn [insert_sorted]; [reflexivity|]. destruct (fst y <=? fst x); [reflexivity|].
    rewrite IH. apply perm_swap. }
  intros l. induction l as [|x l [IH1 IH2]]; cbn [insertion_sort fold_right]; [split; constructor|]. fold (insertion_sort l) in *.
  split; [now rewrite Hp, IH1|]. clear IH1. induction (insertion_sort l) as [|y r IH]; cbn [insert_sorted].
  - constructor; [constructor|constructor].
  - apply StronglySorted_inv in IH2 as [H1 H2]. destruct (N.leb_spec (fst y) (fst x)) as [H|H].
    + constructor; [now constructor|]. constructor; [exact H|]. eapply List.Forall_impl; [|exact H2]. cbn. intros a Ha. lia.
    + constructor; [now apply IH|]. apply List.Forall_forall. intros a Ha. rewrite Hp in Ha. destruct Ha as [<-|Ha]; [lia|].
      now apply (proj1 (List.Forall_forall _ _) H2).
Qed.

Lemma members_once : forall P adnl secret o ops,
  List.NoDup (ps_members (d_known (dht_run P (dht_new P adnl secret o) ops))).
Proof.
  intros P adnl secret o ops. destruct (DhtNodeFacts.life_set P adnl secret o ops) as [ids ->].
  pose proof (PeersSetFacts.set_is_queue (N.to_nat max_dht_peers) [] ids) as H. cbv zeta in H.
  destruct (ps_inserts _ ids) as [answers s]. cbn [snd]. destruct (PeersSetSpec.fifo_adds _ _ _). apply H.
Qed.

Lemma batch_not_best : exists d key sort, sorts sort /\ List.NoDup (ps_members (d_known d))
  /\ exists p q, In p (good_peers d) /\ In q (good_peers d) /\ get_affinity key q < get_affinity key p
     /\ let r := map snd (pi_peers (iter_fill sort d (Some 2) (peers_iter_new key))) in
        length r = 2%nat /\ In q r /\ ~ In p r.
Proof.
  set (id := fun x : N => x :: repeat 0 31).
  set (known := ps_extend (peers_set_new 10) [id 64; id 1; id 4]).
  exists (mk_dht [] t_opts known ∅ (new_buckets (id 9)) ∅ (t_adnl 3)), (id 0), insertion_sort.
  split; [exact insertion_sort_sorts|].
  assert (Hm : ps_members known = [id 64; id 1; id 4]) by (vm_compute; reflexivity).
  split; [cbn [d_known]; rewrite Hm; repeat constructor; cbn; intros H; repeat destruct H as [H|H]; discriminate || contradiction|].
  assert (Hg : good_peers (mk_dht [] t_opts known ∅ (new_buckets (id 9)) ∅ (t_adnl 3)) = [id 64; id 1; id 4]) by (unfold good_peers; cbn [d_known]; rewrite Hm; reflexivity).
  exists (id 4), (id 64). rewrite Hg. split; [right; right; now left|]. split; [now left|]. split; [vm_compute; reflexivity|]. cbv zeta.
  replace (map snd _) with [id 1; id 64] by (vm_compute; reflexivity).
  split; [reflexivity|]. split; [right; now left|]. intros [H|[H|[]]]; vm_compute in H; discriminate.
Qed.
