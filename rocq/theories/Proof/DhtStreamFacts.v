(** Facts about the stream of values and the search for overlay nodes. *)
From stdpp Require Import gmap.
From Coq Require Import NArith Permutation Lia.
From Coq Require Import ZifyBool ZifyNat ZifyN.
From Verif.Base Require Import Bytes BytesFacts Res.
From Verif.Spec Require Import DhtStreamSpec.
From Verif.Model Require Import Crypto ProtoAdnl ProtoOverlay Peer AdnlNode DhtStream.
Open Scope nat_scope.

Lemma remove_nth_permutation : forall A (l : list A) i d, i < length l -> Permutation l (nth i l d :: remove_nth i l).
Proof.
  induction l as [|x l IH]; intros i d H; [cbn in H; lia|]. destruct i as [|i]; [reflexivity|]. cbn [nth remove_nth].
  rewrite (IH i d) at 1 by (cbn in H; lia). apply perm_swap.
Qed.
Lemma remove_nth_length : forall A (l : list A) i, i < length l -> length (remove_nth i l) = length l - 1.
Proof.
  induction l as [|x l IH]; intros i H; [cbn in H; lia|]. destruct i as [|i]; cbn in *; [lia|]. rewrite IH by lia. lia.
Qed.

Lemma refill_spec : forall stack flying asked count stack' flying' asked' count',
  refill stack flying asked count = (stack', flying', asked', count') ->
  count <= max_parallel ->
  exists taken, stack = taken ++ stack' /\ flying' = flying ++ taken /\ asked' = asked ++ taken
    /\ count' = count + length taken /\ count' <= S max_parallel
    /\ (stack' <> [] -> count' = S max_parallel).
Proof.
  induction stack as [|p r IH]; intros flying asked count stack' flying' asked' count' H Hc; cbn [refill] in H.
  - injection H as ? ? ? ?. subst. exists []. rewrite !app_nil_r. cbn. repeat split; try lia. contradiction.
  - cbv zeta in H. destruct (Nat.ltb_spec max_parallel (S count)) as [Hl|Hl].
    + injection H as ? ? ? ?. subst. exists [p]. cbn [length app]. repeat split; lia.
    + apply IH in H; [|lia]. destruct H as (taken & H1 & H2 & H3 & H4 & H5 & H6). exists (p :: taken).
      rewrite H1, H2, H3. cbn [length app]. rewrite <- !app_assoc. repeat split; try reflexivity; try lia; try exact H6.
Qed.

Section Stream.
  Context {V : Type}.
  Implicit Types (s : values_stream V).

  (** Bookkeeping that holds whatever happens. *)
  Definition stream_ok s : Prop :=
    vs_count s = length (vs_flying s) /\ vs_count s <= S max_parallel
    /\ Permutation (vs_asked s) (vs_flying s ++ map fst (vs_done s))
    /\ vs_yielded s = flat_map (fun x => match snd x with Some v => [v] | None => [] end) (vs_done s).

  Lemma refill_ok : forall s, stream_ok s -> stream_ok (stream_refill s).
  Proof.
    intros s (H1 & H2 & H3 & H4). unfold stream_refill. destruct (Nat.ltb_spec (vs_count s) max_parallel) as [Hl|Hl]; [|now repeat split].
    destruct (refill _ _ _ _) as [[[stack flying] asked] count] eqn:E. apply refill_spec in E; [|lia].
    destruct E as (taken & E1 & E2 & E3 & E4 & E5 & E6). split; [|split; [exact E5|split; [|exact H4]]]; cbn.
    - rewrite E4, E2, app_length. lia.
    - rewrite E2, E3, H3, <- !app_assoc. apply Permutation_app_head, Permutation_app_comm.
  Qed.

  Lemma step_ok : forall s e, stream_ok s -> stream_ok (stream_step s e).
  Proof.
    intros s e H. unfold stream_step. destruct (vs_ended s); [exact H|]. cbv zeta. pose proof (refill_ok s H) as H'.
    set (s' := stream_refill s) in *. clearbody s'. destruct H' as (H1 & H2 & H3 & H4).
    destruct (vs_flying s') as [|p0 fl] eqn:Ef.
    - unfold stream_ok. cbn. repeat split; auto.
    - destruct e as [i r fill|]; [|unfold stream_ok; rewrite Ef; now repeat split]. rewrite <- Ef in *.
      set (j := i mod length (vs_flying s')). assert (Hj : j < length (vs_flying s')) by (apply Nat.mod_upper_bound; rewrite Ef; discriminate).
      unfold stream_ok. cbn [vs_count vs_flying vs_asked vs_done vs_yielded]. split; [|split; [lia|split]].
      + rewrite remove_nth_length by exact Hj. lia.
      + rewrite H3, map_app. cbn [map fst]. rewrite (remove_nth_permutation _ _ j p0 Hj) at 1. cbn [app].
        rewrite app_assoc. apply Permutation_cons_append.
      + rewrite flat_map_app, <- H4. cbn. destruct r; [reflexivity|now rewrite app_nil_r].
  Qed.

  Theorem run_ok : forall events peers, stream_ok (stream_run (stream_new peers) events).
  Proof.
    intros events peers. unfold stream_run. assert (H : stream_ok (@stream_new V peers)) by (unfold stream_ok; cbn; repeat split; [lia|constructor]).
    revert H. generalize (@stream_new V peers). induction events as [|e events IH]; intros s H; [exact H|]. cbn. apply IH, step_ok, H.
  Qed.

  (** Without new peers the asked peers are the last ones of the iterator. *)
  Definition stack_ok (peers : list bytes) s : Prop :=
    rev peers = vs_asked s ++ rev (vs_peers s)
    /\ (vs_ended s = true -> vs_peers s = [] /\ vs_flying s = []).

  Lemma refill_stack : forall peers s, stream_ok s -> stack_ok peers s -> stack_ok peers (stream_refill s).
  Proof.
    intros peers s (H1 & H2 & _) (S1 & S2). unfold stream_refill. destruct (Nat.ltb_spec (vs_count s) max_parallel) as [Hl|Hl]; [|now split].
    destruct (refill _ _ _ _) as [[[stack flying] asked] count] eqn:E. apply refill_spec in E; [|lia].
    destruct E as (taken & E1 & E2 & E3 & E4 & E5 & E6). split; cbn.
    - rewrite S1, E3, E1, rev_involutive, app_assoc. reflexivity.
    - intros He. destruct (S2 He) as [P1 P2]. rewrite P1 in E1. cbn in E1. symmetry in E1. apply app_eq_nil in E1 as [-> ->].
      split; [reflexivity|]. now rewrite E2, P2.
  Qed.
  (** If nothing is in flight after a refill, the iterator is empty. *)
  Lemma refill_empty : forall s, stream_ok s -> vs_flying (stream_refill s) = [] -> vs_peers (stream_refill s) = [].
  Proof.
    intros s (H1 & H2 & _). unfold stream_refill. destruct (Nat.ltb_spec (vs_count s) max_parallel) as [Hl|Hl].
    - destruct (refill _ _ _ _) as [[[stack flying] asked] count] eqn:E. apply refill_spec in E; [|lia].
      destruct E as (taken & E1 & E2 & E3 & E4 & E5 & E6). cbn. intros Hf.
      destruct stack as [|p stack]; [reflexivity|]. assert (Hc : count = S max_parallel) by (apply E6; discriminate).
      rewrite E2 in Hf. apply app_eq_nil in Hf as [F1 F2]. rewrite F1 in H1. rewrite F2 in E4. cbn in *. unfold max_parallel in *. lia.
    - intros Hf. rewrite Hf in H1. cbn in H1. unfold max_parallel in Hl. lia.
  Qed.

  Lemma step_stack : forall peers s e, stream_ok s -> stack_ok peers s -> no_new_peers e -> stack_ok peers (stream_step s e).
  Proof.
    intros peers s e Hok Hs He. unfold stream_step. destruct (vs_ended s) eqn:Ee; [exact Hs|]. cbv zeta.
    pose proof (refill_stack peers s Hok Hs) as Hs'. pose proof (refill_empty s Hok) as Hem.
    assert (Ee' : vs_ended (stream_refill s) = false).
    { unfold stream_refill. destruct (_ <? _); [|exact Ee]. destruct (refill _ _ _ _) as [[[? ?] ?] ?]. exact Ee. }
    set (s' := stream_refill s) in *. clearbody s'. destruct Hs' as [S1 S2].
    destruct (vs_flying s') as [|p0 fl] eqn:Ef.
    - split; cbn; [exact S1|]. intros _. split; [now apply Hem|reflexivity].
    - destruct e as [i r [fill|]|]; [destruct He| |].
      + split; cbn; [exact S1|discriminate].
      + split; [exact S1|]. congruence.
  Qed.

  Theorem run_stack : forall events peers, Forall no_new_peers events -> stack_ok peers (stream_run (stream_new peers) events).
  Proof.
    intros events peers. unfold stream_run.
    assert (H : stream_ok (@stream_new V peers)) by (unfold stream_ok; cbn; repeat split; [lia|constructor]).
    assert (H2 : stack_ok peers (@stream_new V peers)) by (split; cbn; [reflexivity|discriminate]).
    revert H H2. generalize (@stream_new V peers). induction events as [|e events IH]; intros s H H2 He; [exact H2|]. cbn.
    apply List.Forall_cons_iff in He as [He1 He2]. apply IH; [now apply step_ok|now apply step_stack|exact He2].
  Qed.

  (** ** C46 *)
  Theorem stream_in_flight : forall events peers,
    length (vs_flying (stream_run (V := V) (stream_new peers) events)) <= S max_parallel.
  Proof. intros events peers. destruct (run_ok events peers) as (H1 & H2 & _). lia. Qed.

  Theorem stream_complete : forall events peers, Forall no_new_peers events ->
    let s := stream_run (V := V) (stream_new peers) events in
    (exists rest, rev peers = vs_asked s ++ rest)
    /\ vs_yielded s = flat_map (fun x => match snd x with Some v => [v] | None => [] end) (vs_done s)
    /\ (vs_ended s = true -> Permutation (vs_asked s) peers /\ Permutation (map fst (vs_done s)) peers).
  Proof.
    intros events peers He s. destruct (run_ok events peers) as (H1 & H2 & H3 & H4). destruct (run_stack events peers He) as [S1 S2].
    fold s in H1, H2, H3, H4, S1, S2. split; [eexists; exact S1|]. split; [exact H4|]. intros Hend. destruct (S2 Hend) as [P1 P2].
    rewrite P1 in S1. cbn in S1. rewrite app_nil_r in S1.
    assert (Hp : Permutation (vs_asked s) peers) by (rewrite <- S1; symmetry; apply Permutation_rev).
    split; [exact Hp|]. rewrite P2 in H3. cbn in H3. now rewrite <- H3.
  Qed.

  (** Each completion brings the end nearer. *)
  Definition work s : nat := length (vs_peers s) + length (vs_flying s).
  Lemma refill_work : forall s, stream_ok s -> work (stream_refill s) = work s.
  Proof.
    intros s (H1 & H2 & _). unfold stream_refill. destruct (Nat.ltb_spec (vs_count s) max_parallel) as [Hl|Hl]; [|reflexivity].
    destruct (refill _ _ _ _) as [[[stack flying] asked] count] eqn:E. apply refill_spec in E; [|lia].
    destruct E as (taken & E1 & E2 & _). unfold work. cbn. rewrite E2, app_length, rev_length.
    rewrite <- (rev_length (vs_peers s)), E1, app_length. lia.
  Qed.
  Lemma step_work : forall s e, stream_ok s -> no_new_peers e -> vs_ended (stream_step s e) = false ->
    vs_ended s = false /\ work (stream_step s e) + (if completed e then 1 else 0) = work s.
  Proof.
    intros s e Hok He. unfold stream_step. destruct (vs_ended s) eqn:Ee; [congruence|]. cbv zeta.
    pose proof (refill_work s Hok) as Hw. set (s' := stream_refill s) in *. clearbody s'. intros H. split; [reflexivity|].
    destruct (vs_flying s') as [|p0 fl] eqn:Ef; [discriminate|]. rewrite <- Ef in *.
    destruct e as [i r [fill|]|]; [destruct He| |cbn [completed]; lia]. cbn [completed]. unfold work in *. cbn [vs_peers vs_flying].
    assert (Hj : i mod length (vs_flying s') < length (vs_flying s')) by (apply Nat.mod_upper_bound; rewrite Ef; discriminate).
    rewrite remove_nth_length by exact Hj. lia.
  Qed.
  Theorem stream_ends : forall events peers, Forall no_new_peers events ->
    length peers < length (List.filter completed events) -> vs_ended (stream_run (V := V) (stream_new peers) events) = true.
  Proof.
    intros events peers He Hlen. unfold stream_run.
    assert (Hgen : forall s, stream_ok s -> work s < length (List.filter completed events) -> vs_ended (fold_left stream_step events s) = true).
    { clear Hlen. induction events as [|e events IH]; intros s Hok Hw; [cbn in Hw; lia|]. cbn [fold_left]. apply List.Forall_cons_iff in He as [He1 He2].
      destruct (vs_ended (stream_step s e)) eqn:Ee.
      - clear - Ee. revert Ee. generalize (stream_step s e). induction events as [|x events IH]; intros t Ht; [exact Ht|]. cbn. apply IH.
        unfold stream_step. now rewrite Ht.
      - destruct (step_work s e Hok He1 Ee) as [_ Hw']. apply IH; [exact He2|now apply step_ok|].
        cbn [List.filter] in Hw. destruct (completed e); cbn [length] in *; lia. }
    apply Hgen; [unfold stream_ok; cbn; repeat split; [lia|constructor]|]. unfold work. cbn. lia.
  Qed.

  (** A poll that is never pending forever: while it waits, some query is in flight. *)
  Theorem stream_waits_for_something : forall events peers,
    let s := stream_run (V := V) (stream_new peers) (events ++ [Waiting]) in vs_ended s = true \/ vs_flying s <> [].
  Proof.
    intros events peers s. unfold s, stream_run. rewrite fold_left_app. cbn [fold_left]. unfold stream_step at 1 3.
    destruct (vs_ended (fold_left stream_step events _)) eqn:E; [now left|]. cbv zeta.
    destruct (vs_flying (stream_refill (fold_left stream_step events _))) eqn:Ef; [now left|]. right. congruence.
  Qed.
End Stream.

(** ** C59 *)

Lemma to_resolve_cache : forall P l cache a c, to_resolve P cache l = (a, c) ->
  (forall id, In id cache -> In id c) /\ (forall id n, In (id, n) a -> ~ In id cache /\ In id c /\ In n l /\ exists key, full_id P (on_id n) = Ok key /\ id = short_id P key).
Proof.
  intros P l. induction l as [|n l IH]; intros cache a c H; cbn [to_resolve] in H.
  - injection H as ? ?. subst. split; [auto|intros ? ? []].
  - destruct (full_id P (on_id n)) as [key|e] eqn:Ek.
    + destruct (existsb (bytes_eqb (short_id P key)) cache) eqn:Ex.
      * destruct (IH _ _ _ H) as [I1 I2]. split; [exact I1|]. intros id m Hm. destruct (I2 id m Hm) as (A & B & C & D). repeat split; auto. now right.
      * destruct (to_resolve P (short_id P key :: cache) l) as [a' c'] eqn:Er. injection H as ? ?. subst.
        destruct (IH _ _ _ Er) as [I1 I2]. split; [intros id Hid; apply I1; now right|].
        intros id m [Hm|Hm].
        -- injection Hm as ? ?. subst. split; [|split; [apply I1; now left|split; [now left|eauto]]].
           intros Hin. assert (existsb (bytes_eqb (short_id P key)) cache = true) by (apply existsb_exists; exists (short_id P key); split; [exact Hin|apply bytes_eqb_refl]). congruence.
        -- destruct (I2 id m Hm) as (A & B & C & D). repeat split; auto; [|now right]. intros Hin. apply A. now right.
    + destruct (IH _ _ _ H) as [I1 I2]. split; [exact I1|]. intros id m Hm. destruct (I2 id m Hm) as (A & B & C & D). repeat split; auto. now right.
Qed.

(** A peer is resolved in at most one round of the whole search. *)
Definition search_inv (s : search) : Prop :=
  (forall id, In id (concat (se_asked s)) -> In id (se_cache s)) /\ List.NoDup (concat (se_asked s)).
Lemma to_resolve_nodup : forall P l cache a c, to_resolve P cache l = (a, c) -> List.NoDup (map fst a).
Proof.
  intros P l. induction l as [|n l IH]; intros cache a c H; cbn [to_resolve] in H.
  - injection H as ? ?. subst. constructor.
  - destruct (full_id P (on_id n)) as [key|e]; [|now apply IH in H].
    destruct (existsb _ cache); [now apply IH in H|].
    destruct (to_resolve P (short_id P key :: cache) l) as [a' c'] eqn:Er. injection H as ? ?. subst. cbn. constructor; [|now apply IH in Er].
    intros Hin. apply in_map_iff in Hin as ([i m] & Hi & Hin). cbn in Hi. subst i.
    destruct (to_resolve_cache _ _ _ _ _ Er) as [_ I2]. destruct (I2 _ _ Hin) as (A & _). apply A. now left.
Qed.
Lemma nodup_app : forall A (a c : list A), List.NoDup a -> List.NoDup c -> (forall x, In x a -> ~ In x c) -> List.NoDup (a ++ c).
Proof.
  intros A a c Ha Hc Hd. induction a as [|x a IH]; [exact Hc|]. cbn. apply List.NoDup_cons_iff in Ha as [Ha1 Ha2]. constructor.
  - intros H. apply in_app_or in H as [H|H]; [contradiction|]. apply (Hd x); [now left|exact H].
  - apply IH; [exact Ha2|]. intros y Hy. apply Hd. now right.
Qed.
Lemma search_step_inv : forall P s r, search_inv s -> search_inv (search_step P s r).
Proof.
  intros P s r [I1 I2]. unfold search_step. destruct (se_done s); [now split|].
  destruct (sr_received r) as [|x xs] eqn:Er; [now split|]. rewrite <- Er.
  destruct (to_resolve P (se_cache s) (concat (sr_received r) ++ se_nodes s)) as [todo cache] eqn:Et.
  destruct (collect (sr_address r) todo (se_result s) []) as [result nodes]. pose proof (to_resolve_cache _ _ _ _ _ Et) as [C1 C2].
  split; cbn [se_asked se_cache].
  - intros id. rewrite concat_app. intros H. apply in_app_or in H as [H|H]; [now apply C1, I1|].
    cbn in H. rewrite app_nil_r in H. apply in_map_iff in H as ([i n] & <- & H). now destruct (C2 _ _ H) as (_ & B & _).
  - rewrite concat_app. apply nodup_app; [exact I2|cbn; rewrite app_nil_r; now apply to_resolve_nodup in Et|].
    intros id Hid H. cbn in H. rewrite app_nil_r in H. apply in_map_iff in H as ([i n] & <- & H).
    destruct (C2 _ _ H) as (A & _). now apply A, I1.
Qed.
Theorem each_resolved_once : forall P rounds, List.NoDup (concat (se_asked (search_run P rounds))).
Proof.
  intros P rounds. unfold search_run. assert (H : search_inv search_new) by (split; cbn; [tauto|constructor]).
  revert H. generalize search_new. induction rounds as [|r rounds IH]; intros s H; [exact (proj2 H)|]. cbn. apply IH, search_step_inv, H.
Qed.

(** As long as lists are received and no address is found the search goes on. *)
Lemma collect_nothing : forall address l nodes, (forall id, address id = None) ->
  fst (collect address l [] nodes) = [].
Proof.
  intros address l. induction l as [|[id n] l IH]; intros nodes H; [reflexivity|]. cbn. rewrite H. now apply IH.
Qed.
(** The search ends when nothing is received or something was found, and nothing changes it afterwards. *)
Lemma ended_stays : forall P rounds s, se_done s = true -> fold_left (search_step P) rounds s = s.
Proof.
  intros P rounds. induction rounds as [|r rounds IH]; intros s H; [reflexivity|]. cbn.
  replace (search_step P s r) with s by (unfold search_step; now rewrite H). now apply IH.
Qed.
Lemma result_ends : forall P s r, (se_result s <> [] -> se_done s = true) ->
  se_result (search_step P s r) <> [] -> se_done (search_step P s r) = true.
Proof.
  intros P s r H. unfold search_step. destruct (se_done s) eqn:Es; [intros _; exact Es|].
  destruct (sr_received r) as [|x xs]; [reflexivity|].
  destruct (to_resolve _ _ _) as [todo cache]. destruct (collect _ _ _ _) as [result nodes]. cbn.
  destruct result; [contradiction|reflexivity].
Qed.
Lemma found_ends : forall P rounds, se_result (search_run P rounds) <> [] -> se_done (search_run P rounds) = true.
Proof.
  intros P rounds. unfold search_run.
  assert (H : se_result search_new <> [] -> se_done search_new = true) by (cbn; congruence).
  revert H. generalize search_new. induction rounds as [|r rounds IH]; intros s H; [exact H|]. cbn. apply IH. now apply result_ends.
Qed.
Theorem search_ends : forall P before r after,
  sr_received r = [] \/ se_result (search_run P (before ++ [r])) <> [] ->
  se_done (search_run P (before ++ [r])) = true
  /\ search_run P (before ++ r :: after) = search_run P (before ++ [r]).
Proof.
  intros P before r after H.
  assert (Hd : se_done (search_run P (before ++ [r])) = true).
  { destruct H as [H|H]; [|now apply found_ends].
    unfold search_run. rewrite fold_left_app. cbn. unfold search_step at 1. rewrite H. now destruct (se_done (fold_left _ _ _)) eqn:E. }
  split; [exact Hd|]. replace (before ++ r :: after) with ((before ++ [r]) ++ after) by now rewrite <- app_assoc.
  unfold search_run at 1. rewrite fold_left_app. now apply ended_stays.
Qed.

Theorem search_continues : forall P rounds,
  Forall (fun r => sr_received r <> [] /\ forall id, sr_address r id = None) rounds -> se_done (search_run P rounds) = false.
Proof.
  intros P rounds H. unfold search_run.
  assert (Hg : forall s, se_done s = false -> se_result s = [] -> se_done (fold_left (search_step P) rounds s) = false).
  { induction H as [|r rounds [H1 H2] H IH]; intros s Hs Hr; [exact Hs|]. cbn. apply IH.
    - unfold search_step. rewrite Hs. destruct (sr_received r) as [|x xs] eqn:Er; [contradiction|]. rewrite <- Er.
      destruct (to_resolve _ _ _) as [todo cache]. rewrite Hr. pose proof (collect_nothing (sr_address r) todo [] H2) as Hc.
      destruct (collect _ _ _ _) as [result nodes]. cbn in Hc. now subst.
    - unfold search_step. rewrite Hs. destruct (sr_received r) as [|x xs] eqn:Er; [contradiction|]. rewrite <- Er.
      destruct (to_resolve _ _ _) as [todo cache]. rewrite Hr. pose proof (collect_nothing (sr_address r) todo [] H2) as Hc.
      destruct (collect _ _ _ _) as [result nodes]. cbn in Hc. now subst. }
  now apply Hg.
Qed.

(** Every result is a received node with an address found for its id. *)
Definition search_sound (P : prims) (rounds : list search_round) (s : search) : Prop :=
  (forall a n, In (a, n) (se_result s) -> exists r key, In r rounds /\ full_id P (on_id n) = Ok key
     /\ sr_address r (short_id P key) = Some a /\ exists r', In r' rounds /\ exists l, In l (sr_received r') /\ In n l)
  /\ (forall n, In n (se_nodes s) -> exists r', In r' rounds /\ exists l, In l (sr_received r') /\ In n l).
Lemma collect_in : forall address l result nodes result' nodes', collect address l result nodes = (result', nodes') ->
  (forall a n, In (a, n) result' -> In (a, n) result \/ exists id, In (id, n) l /\ address id = Some a)
  /\ (forall n, In n nodes' -> In n nodes \/ exists id, In (id, n) l).
Proof.
  intros address l. induction l as [|[id n] l IH]; intros result nodes result' nodes' H; cbn in H.
  - injection H as ? ?. subst. auto.
  - destruct (address id) as [a|] eqn:Ea.
    + apply IH in H as [I1 I2]. split.
      * intros a0 n0 H0. destruct (I1 _ _ H0) as [H1|(i & H1 & H2)].
        -- apply in_app_or in H1 as [H1|[H1|[]]]; [now left|]. injection H1 as ? ?. subst. right. exists id. split; [now left|exact Ea].
        -- right. exists i. split; [now right|exact H2].
      * intros n0 H0. destruct (I2 _ H0) as [H1|(i & H1)]; [now left|]. right. exists i. now right.
    + apply IH in H as [I1 I2]. split.
      * intros a0 n0 H0. destruct (I1 _ _ H0) as [H1|(i & H1 & H2)]; [now left|]. right. exists i. split; [now right|exact H2].
      * intros n0 H0. destruct (I2 _ H0) as [H1|(i & H1)].
        -- destruct result; [|now left]. apply in_app_or in H1 as [H1|[<-|[]]]; [now left|]. right. exists id. now left.
        -- right. exists i. now right.
Qed.
Theorem search_result_sound : forall P rounds a n, In (a, n) (se_result (search_run P rounds)) ->
  exists r key, In r rounds /\ full_id P (on_id n) = Ok key /\ sr_address r (short_id P key) = Some a
    /\ exists r' l, In r' rounds /\ In l (sr_received r') /\ In n l.
Proof.
  intros P rounds a n. cut (search_sound P rounds (search_run P rounds)).
  { intros [H _] Hin. destruct (H _ _ Hin) as (r & key & H1 & H2 & H3 & r' & H4 & l & H5 & H6). exists r, key. repeat split; auto. eauto. }
  clear a n. induction rounds as [|r rounds IH] using rev_ind; [split; cbn; intros; tauto|].
  unfold search_run in *. rewrite fold_left_app. cbn [fold_left]. set (s := fold_left (search_step P) rounds search_new) in *.
  assert (Hmono : search_sound P (rounds ++ [r]) s).
  { destruct IH as [I1 I2]. split.
    - intros a n H. destruct (I1 _ _ H) as (r0 & key & H1 & H2 & H3 & r' & H4 & l & H5 & H6). exists r0, key.
      split; [apply in_or_app; now left|]. repeat (split; [assumption|]). exists r'. split; [apply in_or_app; now left|eauto].
    - intros n H. destruct (I2 _ H) as (r' & H4 & l & H5 & H6). exists r'. split; [apply in_or_app; now left|eauto]. }
  unfold search_step. destruct (se_done s); [exact Hmono|].
  destruct (sr_received r) as [|x xs] eqn:Er; [exact Hmono|]. rewrite <- Er.
  destruct (to_resolve P (se_cache s) (concat (sr_received r) ++ se_nodes s)) as [todo cache] eqn:Et.
  destruct (collect (sr_address r) todo (se_result s) []) as [result nodes] eqn:Ec.
  destruct (collect_in _ _ _ _ _ _ Ec) as [C1 C2]. destruct (to_resolve_cache _ _ _ _ _ Et) as [_ T2]. destruct Hmono as [M1 M2].
  assert (Hsrc : forall id n, In (id, n) todo -> exists r', In r' (rounds ++ [r]) /\ exists l, In l (sr_received r') /\ In n l).
  { intros id n H. destruct (T2 _ _ H) as (_ & _ & Hin & _). apply in_app_or in Hin as [Hin|Hin]; [|now apply M2].
    apply in_concat in Hin as (l & Hl & Hin). exists r. split; [apply in_or_app; right; now left|eauto]. }
  split; cbn [se_result se_nodes].
  - intros a n H. destruct (C1 _ _ H) as [H1|(id & H1 & H2)]; [now apply M1|].
    destruct (T2 _ _ H1) as (_ & _ & _ & key & Hk & ->). exists r, key. split; [apply in_or_app; right; now left|].
    repeat (split; [assumption|]). eapply Hsrc; eauto.
  - intros n H. destruct (C2 _ H) as [[]|(id & H1)]. eapply Hsrc; eauto.
Qed.

Lemma limit_exceeded : exists peers (e : stream_event unit), List.NoDup peers
  /\ length (vs_flying (stream_run (stream_new peers) [e])) = S max_parallel.
Proof.
  exists (map (fun x => [x]) [1; 2; 3; 4; 5; 6; 7]%N), Waiting. split; [|vm_compute; reflexivity].
  repeat constructor; cbn; intros H; repeat destruct H as [H|H]; discriminate || contradiction.
Qed.
