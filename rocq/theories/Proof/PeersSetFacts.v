From stdpp Require Import gmap.
From Coq Require Import NArith Lia Permutation.
From Verif.Base Require Import Bytes BytesFacts.
From Verif.Model Require Import PeersSet.
From Verif.Spec Require Import PeersSetSpec.
From Verif.Proof Require PeersSetLists.
Module L := PeersSetLists.
Local Open Scope nat_scope.

Ltac pos_case i n := destruct (Nat.eqb_spec i n) as [?Hil|?Hil]; [subst i|].

(** The set represents a queue. *)
Record reps (c : nat) (s : peers_set) (q : list bytes) : Prop :=
  { rep_cap : ps_capacity s = c;
    rep_pos : 0 < c;
    rep_cache : forall (x : bytes) i, ps_cache s !! x = Some i <-> nth_error (ps_index s) i = Some x;
    rep_queue : (length (ps_index s) < c /\ ps_upper s = length (ps_index s) /\ q = ps_index s)
                \/ (length (ps_index s) = c /\ ps_upper s < c /\ q = L.rotated (ps_upper s) (ps_index s)) }.

Lemma reps_perm : forall c s q, reps c s q -> Permutation (ps_index s) q.
Proof.
  intros c s q H. destruct (rep_queue _ _ _ H) as [(_ & _ & ->)|(_ & _ & ->)]; [reflexivity|].
  symmetry. apply L.rotated_perm.
Qed.

Lemma reps_index_nodup : forall c s q, reps c s q -> List.NoDup (ps_index s).
Proof.
  intros c s q H. apply NoDup_nth_error. intros i j Hi Heq.
  destruct (nth_error (ps_index s) i) as [x|] eqn:Hx.
  - apply (rep_cache _ _ _ H) in Hx. symmetry in Heq. apply (rep_cache _ _ _ H) in Heq. congruence.
  - apply nth_error_None in Hx. lia.
Qed.

Lemma reps_member : forall c s q (p : bytes), reps c s q -> ps_contains s p = member p q.
Proof.
  intros c s q p H. unfold ps_contains. pose proof (reps_perm _ _ _ H) as Hp.
  destruct (ps_cache s !! p) as [i|] eqn:Hc.
  - apply (rep_cache _ _ _ H) in Hc. apply nth_error_In in Hc. symmetry. apply L.member_In.
    now apply (Permutation_in p Hp).
  - symmetry. apply L.member_false. intros Hin. apply (Permutation_in p (Permutation_sym Hp)) in Hin.
    apply In_nth_error in Hin as [i Hi]. apply (rep_cache _ _ _ H) in Hi. congruence.
Qed.

Lemma replace_at_firstn : forall l i (x : bytes), i < length l ->
  replace_at l i x = firstn i l ++ x :: skipn (S i) l.
Proof.
  induction l as [|y r IH]; intros i x H; cbn in H; [lia|]. destruct i as [|i]; [reflexivity|].
  cbn [replace_at]. rewrite IH by lia. reflexivity.
Qed.

Lemma replace_at_nth : forall l i (x : bytes) j, i < length l ->
  nth_error (replace_at l i x) j = if Nat.eqb j i then Some x else nth_error l j.
Proof.
  induction l as [|y r IH]; intros i x j H; cbn in H; [lia|].
  destruct i as [|i], j as [|j]; cbn; try reflexivity. rewrite IH by lia. reflexivity.
Qed.

Lemma replace_at_length : forall l i (x : bytes), length (replace_at l i x) = length l.
Proof. induction l as [|y r IH]; intros [|i] x; cbn; try reflexivity. now rewrite IH. Qed.

Lemma nth_error_snoc : forall (l : list bytes) x j,
  nth_error (l ++ [x]) j = if Nat.eqb j (length l) then Some x else nth_error l j.
Proof.
  intros l x j. destruct (Nat.eqb_spec j (length l)) as [->|Hne].
  - rewrite nth_error_app2 by lia. now rewrite Nat.sub_diag.
  - destruct (Nat.lt_ge_cases j (length l)).
    + now rewrite nth_error_app1 by lia.
    + rewrite nth_error_app2 by lia. destruct (j - length l) as [|k] eqn:Hk; [lia|].
      cbn. rewrite (proj2 (nth_error_None l j)) by lia. now destruct k.
Qed.

Lemma insert_reps : forall c s q (p : bytes), reps c s q ->
  fst (ps_insert s p) = fst (fifo_add c q p) /\ reps c (snd (ps_insert s p)) (snd (fifo_add c q p))
  /\ ps_version (snd (ps_insert s p)) = (ps_version s + (if fst (ps_insert s p) then 1 else 0))%N.
Proof.
  intros c s q p H. pose proof (reps_member _ _ _ p H) as Hm. unfold ps_contains in Hm.
  unfold ps_insert, fifo_add. rewrite <- Hm.
  destruct (ps_cache s !! p) as [i|] eqn:Hc.
  { cbn [fst snd]. split; [reflexivity|split; [exact H|lia]]. }
  destruct H as [Hcap Hpos Hcache Hq].
  destruct Hq as [(Hlen & Hu & ->)|(Hlen & Hu & ->)].
  - assert (Hnone : nth_error (ps_index s) (ps_upper s) = None) by (apply nth_error_None; lia).
    cbv zeta. rewrite Hnone.
    cbn [fst snd ps_version]. split; [reflexivity|split; [|lia]].
    assert (Hl : last_n c (ps_index s ++ [p]) = ps_index s ++ [p]).
    { apply L.last_n_all. rewrite app_length. cbn. lia. }
    rewrite Hl. split; cbn [ps_capacity ps_cache ps_index ps_upper]; [exact Hcap|exact Hpos| |].
    + intros x i. rewrite nth_error_snoc. destruct (decide (x = p)) as [->|Hne].
      * rewrite lookup_insert. rewrite Hu. split.
        -- intros [= <-]. now rewrite Nat.eqb_refl.
        -- intros Hi. pos_case i (length (ps_index s)); [reflexivity|].
           apply Hcache in Hi. congruence.
      * rewrite lookup_insert_ne by congruence. rewrite Hcache. split.
        -- intros Hi. pos_case i (length (ps_index s)); [|exact Hi].
           rewrite (proj2 (nth_error_None _ _)) in Hi by lia. discriminate.
        -- intros Hi. pos_case i (length (ps_index s)); [congruence|exact Hi].
    + rewrite app_length. cbn [length]. rewrite Hcap, Hu.
      destruct (Nat.eq_dec (length (ps_index s) + 1) c) as [He|Hne].
      * right. rewrite He, Nat.mod_same by lia. split; [reflexivity|split; [exact Hpos|]].
        unfold L.rotated. cbn [skipn firstn]. now rewrite app_nil_r.
      * left. rewrite Nat.mod_small by lia. split; [lia|split; reflexivity].
  - destruct (nth_error (ps_index s) (ps_upper s)) as [old|] eqn:Hold.
    2:{ apply nth_error_None in Hold. lia. }
    cbv zeta. cbn [fst snd ps_version]. split; [reflexivity|split; [|lia]].
    rewrite L.last_n_snoc_full by (rewrite ?L.rotated_length; lia).
    rewrite (L.rotated_step _ _ p c) by lia. rewrite <- replace_at_firstn by lia.
    assert (Hop : p <> old). { intros ->. apply Hcache in Hold. congruence. }
    assert (Hlo : <[p:=ps_upper s]> (ps_cache s) !! old = Some (ps_upper s)).
    { rewrite lookup_insert_ne by exact Hop. now apply Hcache. }
    rewrite Hlo, Nat.eqb_refl.
    split; cbn [ps_capacity ps_cache ps_index ps_upper]; [exact Hcap|exact Hpos| |].
    + intros x i. rewrite replace_at_nth by lia. destruct (decide (x = old)) as [->|Hxo].
      * rewrite lookup_delete. split; [discriminate|]. intros Hi.
        pos_case i (ps_upper s); [congruence|].
        apply Hcache in Hi. apply Hcache in Hold. congruence.
      * rewrite lookup_delete_ne by congruence. destruct (decide (x = p)) as [->|Hxp].
        -- rewrite lookup_insert. split.
           ++ intros [= <-]. now rewrite Nat.eqb_refl.
           ++ intros Hi. pos_case i (ps_upper s); [reflexivity|].
              apply Hcache in Hi. congruence.
        -- rewrite lookup_insert_ne by congruence. rewrite Hcache. split; intros Hi.
           ++ pos_case i (ps_upper s); [congruence|exact Hi].
           ++ pos_case i (ps_upper s); [congruence|exact Hi].
    + right. rewrite replace_at_length, Hcap. split; [exact Hlen|split; [|reflexivity]].
      apply Nat.mod_upper_bound. lia.
Qed.

Lemma inserts_reps : forall l c s q, reps c s q ->
  fst (ps_inserts s l) = fst (fifo_adds c q l) /\ reps c (snd (ps_inserts s l)) (snd (fifo_adds c q l))
  /\ ps_version (snd (ps_inserts s l)) = (ps_version s + N.of_nat (length (accepted l (fst (ps_inserts s l)))))%N.
Proof.
  induction l as [|p r IH]; intros c s q H; cbn [ps_inserts fifo_adds].
  - cbn [fst snd accepted]. split; [reflexivity|split; [exact H|]]. cbn. lia.
  - destruct (insert_reps c s q p H) as (Ha & Hb & Hv).
    destruct (ps_insert s p) as [b s']. destruct (fifo_add c q p) as [b' q']. cbn [fst snd] in *. subst b'.
    destruct (IH c s' q' Hb) as (Ha' & Hb' & Hv').
    destruct (ps_inserts s' r) as [bs s'']. destruct (fifo_adds c q' r) as [bs' q'']. cbn [fst snd] in *.
    subst bs'. split; [reflexivity|split; [exact Hb'|]]. rewrite Hv', Hv. cbn [accepted].
    destruct b; cbn [length]; lia.
Qed.

(** ** Initial peers *)
Record filling (c : nat) (s : peers_set) : Prop :=
  { fl_cap : ps_capacity s = c;
    fl_cache : forall (x : bytes) i, ps_cache s !! x = Some i <-> nth_error (ps_index s) i = Some x;
    fl_upper : ps_upper s = length (ps_index s);
    fl_len : length (ps_index s) <= c;
    fl_version : ps_version s = 0%N }.

Lemma distinct_ext : forall l a b, (forall x, In x a <-> In x b) -> distinct a l = distinct b l.
Proof.
  induction l as [|p r IH]; intros a b H; [reflexivity|]. cbn [distinct].
  assert (Hm : member p a = member p b).
  { destruct (member p a) eqn:Ha, (member p b) eqn:Hb; try reflexivity.
    - apply L.member_In in Ha. apply L.member_false in Hb. exfalso. apply Hb, H, Ha.
    - apply L.member_In in Hb. apply L.member_false in Ha. exfalso. apply Ha, H, Hb. }
  rewrite Hm. destruct (member p b); [now apply IH|]. f_equal. apply IH.
  intros x. cbn. split; (intros [?|?]; [now left|right; now apply H]).
Qed.

Lemma fill_new_filling : forall l c s, filling c s ->
  filling c (fill_new s l)
  /\ ps_index (fill_new s l) = ps_index s ++ firstn (c - length (ps_index s)) (distinct (ps_index s) l).
Proof.
  induction l as [|p r IH]; intros c s H; cbn [fill_new distinct].
  - split; [exact H|]. now rewrite firstn_nil, app_nil_r.
  - rewrite (fl_cap _ _ H), (fl_upper _ _ H). destruct (Nat.leb_spec c (length (ps_index s))) as [Hfull|Hroom].
    { split; [exact H|]. replace (c - length (ps_index s)) with 0 by lia. cbn. now rewrite app_nil_r. }
    assert (Hm : forall x, In x (ps_index s) <-> is_Some (ps_cache s !! x)).
    { intros x. split.
      - intros Hin. apply In_nth_error in Hin as [i Hi]. apply (fl_cache _ _ H) in Hi. eexists; exact Hi.
      - intros [i Hi]. apply (fl_cache _ _ H) in Hi. now apply nth_error_In in Hi. }
    destruct (ps_cache s !! p) as [i|] eqn:Hc.
    + assert (Hin : member p (ps_index s) = true). { apply L.member_In, Hm. eexists; exact Hc. }
      rewrite Hin. now apply IH.
    + assert (Hin : member p (ps_index s) = false).
      { apply L.member_false. intros Hin. apply Hm in Hin as [i Hi]. congruence. }
      rewrite Hin.
      assert (H' : filling c (mk_peers_set (ps_version s) (<[p:=length (ps_index s)]> (ps_cache s))
                                (ps_index s ++ [p]) c (S (length (ps_index s))))).
      { split; cbn [ps_capacity ps_cache ps_index ps_upper ps_version].
        - reflexivity.
        - intros x i. rewrite nth_error_snoc. destruct (decide (x = p)) as [->|Hne].
          + rewrite lookup_insert. split.
            * intros [= <-]. now rewrite Nat.eqb_refl.
            * intros Hi. pos_case i (length (ps_index s)); [reflexivity|].
              apply (fl_cache _ _ H) in Hi. congruence.
          + rewrite lookup_insert_ne by congruence. rewrite (fl_cache _ _ H). split.
            * intros Hi. pos_case i (length (ps_index s)); [|exact Hi].
              rewrite (proj2 (nth_error_None _ _)) in Hi by lia. discriminate.
            * intros Hi. pos_case i (length (ps_index s)); [congruence|exact Hi].
        - rewrite app_length. cbn. lia.
        - rewrite app_length. cbn. lia.
        - apply (fl_version _ _ H). }
      destruct (IH c _ H') as [Hf Hi]. split; [exact Hf|]. rewrite Hi. cbn [ps_index].
      rewrite <- app_assoc. f_equal. rewrite app_length. cbn [length].
      replace (c - length (ps_index s)) with (S (c - (length (ps_index s) + 1))) by lia. cbn [firstn app].
      f_equal. f_equal. apply distinct_ext. intros x. rewrite in_app_iff. cbn. tauto.
Qed.

Lemma with_peers_reps : forall l c,
  reps (Nat.max 1 c) (with_peers_and_capacity l c) (firstn (Nat.max 1 c) (distinct [] l))
  /\ ps_version (with_peers_and_capacity l c) = 0%N.
Proof.
  intros l c.
  assert (H0 : filling (Nat.max 1 c) (peers_set_new c)).
  { split; cbn [peers_set_new ps_capacity ps_cache ps_index ps_upper ps_version make_capacity]; try reflexivity.
    - intros x i. rewrite lookup_empty. split; [discriminate|]. now destruct i.
    - cbn. lia. }
  destruct (fill_new_filling l _ _ H0) as [Hf Hi]. cbn [peers_set_new ps_index app length] in Hi.
  rewrite Nat.sub_0_r in Hi. unfold with_peers_and_capacity.
  set (s := fill_new (peers_set_new c) l) in *. split; [|apply (fl_version _ _ Hf)].
  split; cbn [ps_capacity ps_cache ps_index ps_upper].
  - apply (fl_cap _ _ Hf).
  - lia.
  - apply (fl_cache _ _ Hf).
  - rewrite (fl_cap _ _ Hf), (fl_upper _ _ Hf). pose proof (fl_len _ _ Hf) as Hl.
    destruct (Nat.eq_dec (length (ps_index s)) (Nat.max 1 c)) as [He|Hne].
    + right. rewrite He, Nat.mod_same by lia. split; [reflexivity|split; [lia|]].
      unfold L.rotated. cbn [skipn firstn]. now rewrite app_nil_r.
    + left. rewrite Nat.mod_small by lia. split; [lia|split; [reflexivity|now rewrite Hi]].
Qed.

(** ** C13 *)
Lemma set_is_queue : forall c init l,
  let cap := Nat.max 1 c in
  let '(answers, s) := ps_inserts (with_peers_and_capacity init c) l in
  let '(answers', q) := fifo_adds cap (firstn cap (distinct [] init)) l in
  answers = answers' /\ Permutation (ps_members s) q /\ List.NoDup (ps_members s)
  /\ (forall p : bytes, ps_contains s p = member p q)
  /\ ps_len s = length q /\ length q <= cap /\ ps_is_full s = (cap <=? length q)
  /\ ps_version s = N.of_nat (length (accepted l answers))
  /\ q = last_n cap (firstn cap (distinct [] init) ++ accepted l answers).
Proof.
  intros c init l cap. destruct (with_peers_reps init c) as [H0 Hv0].
  destruct (inserts_reps l _ _ _ H0) as (Ha & Hr & Hv).
  destruct (ps_inserts (with_peers_and_capacity init c) l) as [answers s].
  fold cap in Hr, Ha |- *.
  destruct (fifo_adds cap (firstn cap (distinct [] init)) l) as [answers' q] eqn:Hf. cbn [fst snd] in *.
  subst answers'. pose proof (reps_perm _ _ _ Hr) as Hp.
  assert (Hlen : length (ps_index s) = length q) by now apply Permutation_length.
  split; [reflexivity|]. split; [exact Hp|]. split; [exact (reps_index_nodup _ _ _ Hr)|].
  split; [intros p; now apply (reps_member cap)|]. split; [exact Hlen|].
  split. { rewrite <- Hlen. destruct (rep_queue _ _ _ Hr) as [(? & _)|(? & _)]; lia. }
  split. { unfold ps_is_full. now rewrite (rep_cap _ _ _ Hr), Hlen. }
  split. { rewrite Hv, Hv0. lia. }
  eapply L.fifo_adds_last; [lia| |exact Hf]. rewrite firstn_length. lia.
Qed.

Lemma insert_reports : forall c init l (p : bytes),
  let s := snd (ps_inserts (with_peers_and_capacity init c) l) in
  fst (ps_insert s p) = negb (ps_contains s p) /\ ps_contains (snd (ps_insert s p)) p = true.
Proof.
  intros c init l p s. destruct (with_peers_reps init c) as [H0 _].
  destruct (inserts_reps l _ _ _ H0) as (_ & Hr & _). fold s in Hr.
  set (q := snd (fifo_adds _ _ l)) in Hr. clearbody q. clearbody s. clear H0.
  destruct (insert_reps _ _ _ p Hr) as (Ha & Hr' & _). split.
  - rewrite Ha, (reps_member _ _ _ p Hr). unfold fifo_add. now destruct (member p _).
  - rewrite (reps_member _ _ _ p Hr'). unfold fifo_add. destruct (member p q) eqn:Hm; [exact Hm|].
    cbn [snd]. apply L.member_In. unfold last_n. rewrite skipn_app. apply in_or_app. right.
    pose proof (rep_pos _ _ _ Hr). rewrite app_length. cbn [length].
    match goal with |- In p (skipn ?n _) => replace n with 0 by lia end. now left.
Qed.

(** ** C14 *)
Lemma random_selection : forall c init l amount (except : option bytes) picks,
  let s := snd (ps_inserts (with_peers_and_capacity init c) l) in
  (amount + 1 < 2 ^ 32)%N ->
  sample_of (ps_len s) (N.to_nat (picks_wanted amount except)) picks ->
  let r := get_random_peers s amount except picks in
  let without := match except with Some e => [e] | None => [] end in
  List.NoDup r /\ (forall p : bytes, In p r -> In p (ps_members s) /\ ~ In p without)
  /\ length r = Nat.min (N.to_nat amount) (length (eligible without (ps_members s))).
Proof.
  intros c init l amount except picks s Hamt Hs r without.
  destruct (with_peers_reps init c) as [H0 _]. destruct (inserts_reps l _ _ _ H0) as (_ & Hr & _). fold s in Hr.
  pose proof (reps_index_nodup _ _ _ Hr) as Hnd. unfold ps_len in Hs. unfold r, get_random_peers, ps_members.
  destruct except as [e|]; cbn [picks_wanted without] in *.
  - rewrite N.mod_small in Hs by exact Hamt.
    replace (N.to_nat (amount + 1)) with (N.to_nat amount + length [e]) in Hs by (cbn; lia).
    pose proof (L.selection (ps_index s) [e] (N.to_nat amount) picks Hnd Hs) as Hsel. cbv zeta in Hsel.
    assert (Hf : forall x : bytes, negb (bytes_eqb x e) = negb (member x [e])).
    { intros x. unfold member. cbn. now rewrite orb_false_r. }
    rewrite (filter_ext _ _ Hf). exact Hsel.
  - pose proof (L.selection (ps_index s) [] (N.to_nat amount) picks Hnd) as Hsel. cbv zeta in Hsel.
    cbn [length] in Hsel. rewrite Nat.add_0_r in Hsel. specialize (Hsel Hs).
    assert (Hf : forall k : list bytes, List.filter (fun x => negb (member x [])) k = k).
    { intros k. induction k as [|y k IH]; [reflexivity|]. cbn [List.filter member existsb negb]. f_equal. exact IH. }
    rewrite Hf in Hsel. rewrite firstn_all2 in Hsel; [exact Hsel|].
    destruct Hs as (_ & Hlt & Hlen). rewrite L.choose_length by exact Hlt. lia.
Qed.

Lemma random_fill : forall s c init l amount (except : option (list bytes)) picks,
  let other := snd (ps_inserts (with_peers_and_capacity init c) l) in
  sample_of (ps_len other) (N.to_nat (fill_wanted amount except)) picks ->
  let without := match except with Some e => e | None => [] end in
  exists r,
    randomly_fill_from s other amount except picks = snd (ps_inserts s r)
    /\ List.NoDup r /\ (forall p : bytes, In p r -> In p (ps_members other) /\ ~ In p without)
    /\ length r = Nat.min (N.to_nat amount) (length (eligible without (ps_members other))).
Proof.
  intros s c init l amount except picks other Hs without.
  destruct (with_peers_reps init c) as [H0 _]. destruct (inserts_reps l _ _ _ H0) as (_ & Hr & _). fold other in Hr.
  pose proof (reps_index_nodup _ _ _ Hr) as Hnd. unfold ps_len in Hs.
  assert (Hext : forall r s0, ps_extend s0 r = snd (ps_inserts s0 r)).
  { induction r as [|p r IH]; intros s0; [reflexivity|]. cbn [ps_inserts].
    unfold ps_extend. cbn [fold_left]. fold (ps_extend (snd (ps_insert s0 p)) r). rewrite IH.
    destruct (ps_insert s0 p) as [b s1]. cbn [snd]. now destruct (ps_inserts s1 r). }
  unfold randomly_fill_from, ps_members. rewrite Hext.
  destruct except as [e|]; cbn [fill_wanted without] in *.
  - replace (N.to_nat (amount + N.of_nat (length e))) with (N.to_nat amount + length e) in Hs by lia.
    pose proof (L.selection (ps_index other) e (N.to_nat amount) picks Hnd Hs) as Hsel. cbv zeta in Hsel.
    eexists. split; [reflexivity|]. exact Hsel.
  - pose proof (L.selection (ps_index other) [] (N.to_nat amount) picks Hnd) as Hsel. cbv zeta in Hsel.
    cbn [length] in Hsel. rewrite Nat.add_0_r in Hsel. specialize (Hsel Hs).
    assert (Hf : forall k : list bytes, List.filter (fun x => negb (member x [])) k = k).
    { intros k. induction k as [|y k IH]; [reflexivity|]. cbn [List.filter member existsb negb]. f_equal. exact IH. }
    rewrite Hf in Hsel. rewrite firstn_all2 in Hsel.
    + eexists. split; [reflexivity|]. exact Hsel.
    + destruct Hs as (_ & Hlt & Hlen). rewrite L.choose_length by exact Hlt. lia.
Qed.
