From stdpp Require Import gmap.
From Coq Require Import NArith Lia Permutation Sorted.
From Verif.Base Require Import Bytes BytesFacts Res.
From Verif.Model Require Import Crypto Tl ProtoAdnl ProtoDht ProtoOverlay Peer AdnlNode PeersSet DhtStorage DhtBuckets
  DhtNode DhtStream DhtTasks.
From Verif.Spec Require Import Codec CryptoSpec NodeSpec DhtSpec DhtNodeSpec DhtStreamSpec DhtTaskSpec PeersSetSpec.
From Verif.Proof Require Import DhtNodeFacts DhtStreamFacts DhtIterFacts.
From Verif.Proof Require PeersSetFacts PeersSetLists DhtStorageFacts.
Open Scope N_scope.

(** ** Growing sets of peers *)

Definition grown (d d' : dht) : Prop := exists ids, d_known d' = ps_extend (d_known d) ids.
Lemma grown_refl : forall d, grown d d.
Proof. intros d. now exists []. Qed.
Lemma grown_trans : forall a b c, grown a b -> grown b c -> grown a c.
Proof. intros a b c [x Hx] [y Hy]. exists (x ++ y). unfold ps_extend in *. now rewrite fold_left_app, <- Hx. Qed.
Lemma grown_same : forall d d', d_known d' = d_known d -> grown d d'.
Proof. intros d d' H. now exists []. Qed.
Lemma grown_op : forall P d op, grown d (dht_step P d op).
Proof. intros P d op. destruct (run_state P [op] d) as (_ & _ & _ & _ & H). exact H. Qed.
Lemma grown_reply : forall T P (get : parser T) d now fresh reply, grown d (snd (parse_value_result P get d now fresh reply)).
Proof.
  intros T P get d now fresh reply. unfold parse_value_result. destruct (deserialize get_value_result reply) as [[v|nodes]|]; [| |apply grown_refl].
  - destruct (match kd_rule (dv_key v) with UrSignature => _ | _ => _ end); [|apply grown_refl].
    destruct (deserialize get (dv_value v)); apply grown_refl.
  - cbn [snd]. destruct (add_peers_state P now fresh nodes d) as (_ & _ & _ & _ & H). exact H.
Qed.

Lemma extend_inserts : forall ids s, ps_extend s ids = snd (ps_inserts s ids).
Proof.
  induction ids as [|i ids IH]; intros s; [reflexivity|]. unfold ps_extend in *. cbn [fold_left ps_inserts].
  destruct (ps_insert s i) as [b s']. cbn [snd]. rewrite IH. now destruct (ps_inserts s' ids).
Qed.

(** A set that is not full in the end has only been appended to. *)
Lemma insert_length : forall s p, (length (ps_index s) <= length (ps_index (snd (ps_insert s p))))%nat.
Proof.
  intros s p. unfold ps_insert. destruct (ps_cache s !! p); [cbn; lia|]. destruct (nth_error _ _); cbn [snd ps_index].
  - rewrite PeersSetFacts.replace_at_length. lia.
  - rewrite app_length. cbn. lia.
Qed.
Lemma extend_length : forall ids s, (length (ps_index s) <= length (ps_index (ps_extend s ids)))%nat.
Proof.
  induction ids as [|i ids IH]; intros s; [cbn; lia|]. unfold ps_extend in *. cbn [fold_left].
  pose proof (insert_length s i). specialize (IH (snd (ps_insert s i))). lia.
Qed.
Lemma insert_capacity : forall s p, ps_capacity (snd (ps_insert s p)) = ps_capacity s.
Proof. intros s p. unfold ps_insert. destruct (ps_cache s !! p); [reflexivity|]. now destruct (nth_error _ _). Qed.
Lemma extend_capacity : forall ids s, ps_capacity (ps_extend s ids) = ps_capacity s.
Proof.
  induction ids as [|i ids IH]; intros s; [reflexivity|]. unfold ps_extend in *. cbn [fold_left]. now rewrite IH, insert_capacity.
Qed.
Lemma appended : forall c ids s q, PeersSetFacts.reps c s q -> ps_is_full (ps_extend s ids) = false ->
  exists more, ps_index (ps_extend s ids) = ps_index s ++ more.
Proof.
  intros c. induction ids as [|i ids IH]; intros s q Hr Hf; [exists []; now rewrite app_nil_r|].
  change (ps_extend s (i :: ids)) with (ps_extend (snd (ps_insert s i)) ids) in *.
  destruct (PeersSetFacts.insert_reps c s q i Hr) as (_ & Hr' & _).
  destruct (IH _ _ Hr' Hf) as [more Hm]. rewrite Hm.
  unfold ps_is_full in Hf. apply Nat.leb_gt in Hf.
  assert (Hlt : (length (ps_index s) < ps_capacity s)%nat).
  { pose proof (extend_length ids (snd (ps_insert s i))). pose proof (insert_length s i). rewrite extend_capacity, insert_capacity in Hf. lia. }
  unfold ps_insert. destruct (ps_cache s !! i) eqn:E; [now exists more|].
  assert (Hu : ps_upper s = length (ps_index s)).
  { destruct (PeersSetFacts.rep_queue _ _ _ Hr) as [(_ & H & _)|(H & _ & _)]; [exact H|]. rewrite (PeersSetFacts.rep_cap _ _ _ Hr) in Hlt. lia. }
  rewrite Hu, (proj2 (nth_error_None _ _)) by lia. cbn [snd ps_index]. rewrite <- app_assoc. eauto.
Qed.
Lemma known_reps : forall P adnl secret o ops, exists q,
  PeersSetFacts.reps (Nat.max 1 (N.to_nat max_dht_peers)) (d_known (dht_run P (dht_new P adnl secret o) ops)) q.
Proof.
  intros P adnl secret o ops. destruct (life_set P adnl secret o ops) as [ids ->].
  destruct (PeersSetFacts.with_peers_reps [] (N.to_nat max_dht_peers)) as [Hr _].
  destruct (PeersSetFacts.inserts_reps ids _ _ _ Hr) as (_ & H & _). eauto.
Qed.
Lemma grown_reps : forall c d d' q, PeersSetFacts.reps c (d_known d) q -> grown d d' -> exists q', PeersSetFacts.reps c (d_known d') q'.
Proof.
  intros c d d' q Hr [ids ->]. rewrite extend_inserts. destruct (PeersSetFacts.inserts_reps ids _ _ _ Hr) as (_ & H & _). eauto.
Qed.

(** ** Filling the iterator *)

Lemma fill_fold : forall key batch l acc, List.NoDup (map snd acc ++ l) ->
  List.NoDup (map snd (fold_left (fill_peer key batch) l acc)) /\ incl (map snd (fold_left (fill_peer key batch) l acc)) (map snd acc ++ l).
Proof.
  intros key batch. induction l as [|p l IH]; intros acc H; cbn [fold_left].
  - rewrite app_nil_r in *. split; [exact H|apply incl_refl].
  - destruct (fill_peer_cases key batch acc p) as [->|[-> _]].
    + destruct (IH (acc ++ [(get_affinity key p, p)])) as [I1 I2].
      * rewrite map_app. cbn [map snd]. now rewrite <- app_assoc.
      * split; [exact I1|]. rewrite map_app in I2. cbn [map snd] in I2. now rewrite <- app_assoc in I2.
    + destruct (IH acc) as [I1 I2]; [now apply NoDup_remove_1 in H|]. split; [exact I1|].
      eapply incl_tran; [exact I2|]. intros x Hx. apply in_app_or in Hx as [Hx|Hx]; apply in_or_app; [now left|right; now right].
Qed.
Lemma iter_fill_facts : forall sort d batch it, sorts sort ->
  List.NoDup (iter_peers it ++ skipn (pi_index it) (ps_members (d_known d))) ->
  let it' := iter_fill sort d batch it in
  List.NoDup (iter_peers it') /\ incl (iter_peers it') (iter_peers it ++ skipn (pi_index it) (ps_members (d_known d)))
  /\ (length (ps_members (d_known d)) <= pi_index it')%nat /\ pi_key it' = pi_key it.
Proof.
  intros sort d batch it Hs Hnd. cbv zeta. unfold iter_fill. cbn [pi_index pi_key]. split; [|split; [|split; [lia|reflexivity]]].
  all: unfold iter_peers; cbn [pi_peers].
  all: set (good := List.filter _ (skipn (pi_index it) _)).
  all: destruct (fill_fold (pi_key it) batch good (pi_peers it)) as [F1 F2].
  1,3: fold (iter_peers it); clear - Hnd; subst good; revert Hnd; generalize (skipn (pi_index it) (ps_members (d_known d))); intros l;
    induction (iter_peers it) as [|x r IH]; cbn [app]; [apply List.NoDup_filter|]; intros H; apply List.NoDup_cons_iff in H as [H1 H2];
    constructor; [|now apply IH]; intros Hin; apply H1; apply in_app_or in Hin as [Hin|Hin]; apply in_or_app; [now left|right];
    now apply List.filter_In in Hin.
  all: set (l := fold_left _ good _) in *; destruct (Hs l) as [Hp _].
  - assert (Hl : List.NoDup (map snd (sort l))) by (eapply Permutation_NoDup; [apply Permutation_map; symmetry; exact Hp|exact F1]).
    destruct batch as [b|]; [|exact Hl]. destruct (sort l) as [|[top p0] r]; [constructor|]. now apply retain_nodup.
  - assert (Hin : incl (map snd (sort l)) (map snd (pi_peers it) ++ skipn (pi_index it) (ps_members (d_known d)))).
    { intros x Hx. apply (Permutation_in _ (Permutation_map snd Hp)) in Hx. apply F2 in Hx.
      apply in_app_or in Hx as [Hx|Hx]; apply in_or_app; [now left|right]. unfold good in Hx. now apply List.filter_In in Hx. }
    destruct batch as [b|]; [|exact Hin]. destruct (sort l) as [|[top p0] r]; [exact Hin|].
    intros x Hx. apply in_map_iff in Hx as (y & <- & Hy). apply retain_sub in Hy. apply Hin. apply in_map_iff. now exists y.
Qed.

Lemma reps_nodup : forall c s q, PeersSetFacts.reps c s q -> List.NoDup (ps_index s).
Proof.
  intros c s q H. apply List.NoDup_nth_error. intros i j Hi He.
  destruct (nth_error (ps_index s) i) as [x|] eqn:E; [|apply nth_error_Some in Hi; congruence].
  apply (PeersSetFacts.rep_cache _ _ _ H) in E. symmetry in He. apply (PeersSetFacts.rep_cache _ _ _ H) in He. congruence.
Qed.
Lemma not_full_before : forall d d', grown d d' -> ps_is_full (d_known d') = false -> ps_is_full (d_known d) = false.
Proof.
  intros d d' [ids H]. rewrite H. unfold ps_is_full. rewrite extend_capacity. intros Hf. apply Nat.leb_gt in Hf. apply Nat.leb_gt.
  pose proof (extend_length ids (d_known d)). lia.
Qed.

Section Lookup.
  Context {T : Type} (P : prims) (get : parser T) (c : nat).
  Implicit Types (l : lookup T) (d : dht).

  Definition peers_seen l : list bytes := vs_asked (lk_stream l) ++ iter_peers (lk_iter l).
  Record lookup_ok d l : Prop :=
    { lo_set : exists q, PeersSetFacts.reps c (d_known d) q;
      lo_stream : stream_ok (lk_stream l);
      lo_iter : vs_peers (lk_stream l) = iter_peers (lk_iter l);
      lo_once : List.NoDup (peers_seen l);
      lo_known : incl (peers_seen l) (firstn (pi_index (lk_iter l)) (ps_members (d_known d)));
      lo_end : vs_ended (lk_stream l) = true -> vs_peers (lk_stream l) = [] /\ vs_flying (lk_stream l) = [] }.

  Lemma grown_after : forall d p o, grown d (after_query d p o).
  Proof. intros. now apply grown_same. Qed.

  Lemma ends_grown : forall sort now fresh d l i e, grown d (fst (lookup_ends P get sort now fresh d l i e)).
  Proof.
    intros sort now fresh d l i e. unfold lookup_ends. cbv zeta. destruct (vs_flying _) as [|p0 fl]; [apply grown_refl|].
    set (p := nth _ _ _). clearbody p.
    destruct e as [reply| |]; cbn [ending_outcome].
    - pose proof (grown_reply T P get (after_query d p Answered) now fresh reply) as Hg.
      destruct (parse_value_result P get (after_query d p Answered) now fresh reply) as [[[v|]|err] d1]; cbn [snd] in Hg;
        destruct (lk_new_peers l && _); cbn [fst]; eapply grown_trans; [apply grown_after|exact Hg|apply grown_after|exact Hg|apply grown_after|exact Hg|apply grown_after|exact Hg|apply grown_after|exact Hg|apply grown_after|exact Hg].
    - destruct (lk_new_peers l && _); apply grown_after.
    - destruct (lk_new_peers l && _); apply grown_after.
  Qed.
  Lemma step_grown : forall s ev, grown (fst s) (fst (lookup_step P get s ev)).
  Proof. intros [d l] [op|i e sort now fresh]; cbn [lookup_step fst snd]; [apply grown_op|apply ends_grown]. Qed.
  Lemma run_grown : forall evs s, grown (fst s) (fst (lookup_run P get s evs)).
  Proof.
    unfold lookup_run. induction evs as [|ev evs IH]; intros s; [apply grown_refl|]. cbn [fold_left].
    eapply grown_trans; [apply step_grown|apply IH].
  Qed.

  Lemma grown_ok : forall d d' l, grown d d' -> ps_is_full (d_known d') = false -> lookup_ok d l -> lookup_ok d' l.
  Proof.
    intros d d' l Hg Hf [[q H1] H2 H3 H4 H5 H6]. split; [eapply grown_reps; eassumption|exact H2|exact H3|exact H4| |exact H6].
    destruct Hg as [ids Hg]. rewrite Hg in *. destruct (appended c ids _ q H1 Hf) as [more Hm]. unfold ps_members in *. rewrite Hm.
    intros x Hx. apply H5 in Hx. rewrite firstn_app. apply in_or_app. now left.
  Qed.

  (** Starting queries moves peers of the iterator to the asked ones. *)
  Lemma refill_moves : forall s : values_stream (key_description * T), stream_ok s -> exists taken,
    vs_peers s = vs_peers (stream_refill s) ++ rev taken /\ vs_asked (stream_refill s) = vs_asked s ++ taken
    /\ vs_flying (stream_refill s) = vs_flying s ++ taken.
  Proof.
    intros s (H1 & H2 & _). unfold stream_refill. destruct (Nat.ltb_spec (vs_count s) max_parallel) as [Hl|Hl].
    - destruct (refill _ _ _ _) as [[[stack flying] asked] count] eqn:E. apply refill_spec in E; [|lia].
      destruct E as (taken & E1 & E2 & E3 & _). exists taken. cbn [vs_peers vs_asked vs_flying]. split; [|split; [exact E3|exact E2]].
      rewrite <- (rev_involutive (vs_peers s)), E1, rev_app_distr. reflexivity.
    - exists []. cbn. now rewrite !app_nil_r.
  Qed.

  Lemma ends_cases : forall sort now fresh d l i e p0 fl, vs_flying (stream_refill (lk_stream l)) = p0 :: fl ->
    let left := iter_left (lk_iter l) (length (vs_peers (stream_refill (lk_stream l)))) in
    exists d1 value it v fill, lookup_ends P get sort now fresh d l i e
      = (d1, mk_lookup it (lk_batch l) (lk_new_peers l) v (stream_step (lk_stream l) (Completed i value fill)))
    /\ ((it = left /\ fill = None) \/ (it = iter_fill sort d1 (lk_batch l) left /\ fill = Some (iter_peers it)
                                        /\ lk_new_peers l = true))
    /\ (forall reply, e = Replied reply -> exists d0,
         d1 = snd (parse_value_result P get d0 now fresh reply)
         /\ forall x, value = Some x <-> fst (parse_value_result P get d0 now fresh reply) = Ok (Some x))
    /\ ((forall reply, e <> Replied reply) -> value = None).
  Proof.
    intros sort now fresh d l i e p0 fl Ef left. unfold lookup_ends. cbv zeta. rewrite Ef.
    set (p := nth _ _ _). clearbody p.
    assert (Hr : exists d1 value, (let d0 := after_query d p (ending_outcome e) in match e with
                       | Replied reply =>
                         match parse_value_result P get d0 now fresh reply with
                         | (Ok (Some v), d) => (Some v, d)
                         | (_, d) => (None, d)
                         end
                       | _ => (None, d0)
                       end) = (value, d1)
      /\ (forall reply, e = Replied reply -> exists d0, d1 = snd (parse_value_result P get d0 now fresh reply)
           /\ forall x, value = Some x <-> fst (parse_value_result P get d0 now fresh reply) = Ok (Some x))
      /\ ((forall reply, e <> Replied reply) -> value = None)).
    { destruct e as [reply| |]; cbv zeta.
      - destruct (parse_value_result P get (after_query d p (ending_outcome (Replied reply))) now fresh reply) as [[[x|]|err] d1] eqn:Er.
        all: eexists _, _; split; [reflexivity|]; split; [|intros H; exfalso; now apply (H reply)].
        all: intros reply' He; assert (reply' = reply) by congruence; subst reply'; eexists; rewrite Er; split; [reflexivity|]; intros y; cbn [fst]; split; congruence.
      - eexists _, _. split; [reflexivity|]. split; [discriminate|reflexivity].
      - eexists _, _. split; [reflexivity|]. split; [discriminate|reflexivity]. }
    destruct Hr as (d1 & value & Hr & Hv1 & Hv2). cbv zeta in Hr. rewrite Hr. exists d1, value.
    destruct (lk_new_peers l) eqn:En; cbn [andb].
    - destruct (negb _); eexists _, _, _; (split; [reflexivity|]); (split; [|split; [exact Hv1|exact Hv2]]); [right|left]; repeat split.
    - eexists _, _, _. split; [reflexivity|]. split; [|split; [exact Hv1|exact Hv2]]. left. repeat split.
  Qed.

  Lemma left_peers : forall l, stream_ok (lk_stream l) -> vs_peers (lk_stream l) = iter_peers (lk_iter l) ->
    iter_peers (iter_left (lk_iter l) (length (vs_peers (stream_refill (lk_stream l))))) = vs_peers (stream_refill (lk_stream l)).
  Proof.
    intros l H1 H2. destruct (refill_moves _ H1) as (taken & M1 & _). unfold iter_peers, iter_left. cbn [pi_peers].
    rewrite <- firstn_map. fold (iter_peers (lk_iter l)). rewrite <- H2, M1. rewrite firstn_app, Nat.sub_diag, firstn_all. cbn [firstn]. apply app_nil_r.
  Qed.

  Lemma idle_empty : forall d l, lookup_ok d l -> vs_flying (stream_refill (lk_stream l)) = [] ->
    vs_peers (lk_stream l) = [] /\ vs_flying (lk_stream l) = [].
  Proof.
    intros d l [H1 H2 H3 H4 H5 H6] Ef. destruct (refill_moves _ H2) as (taken & M1 & M2 & M3). pose proof (refill_empty _ H2 Ef) as Hp.
    rewrite Ef in M3. symmetry in M3. apply app_eq_nil in M3 as [F1 ->]. rewrite Hp in M1. split; [exact M1|exact F1].
  Qed.
  Lemma busy_running : forall d l p0 fl, lookup_ok d l -> vs_flying (stream_refill (lk_stream l)) = p0 :: fl ->
    vs_ended (lk_stream l) = false.
  Proof.
    intros d l p0 fl [H1 H2 H3 H4 H5 H6] Ef. destruct (vs_ended (lk_stream l)) eqn:Ee; [exfalso|reflexivity].
    destruct (H6 eq_refl) as [Hp Hfl]. destruct (refill_moves _ H2) as (taken & M1 & M2 & M3). rewrite Hp in M1. symmetry in M1.
    apply app_eq_nil in M1 as [_ M1]. assert (taken = []) by (destruct taken as [|x r]; [reflexivity|cbn in M1; now apply app_eq_nil in M1 as [_ ?]]).
    subst taken. rewrite Ef, Hfl in M3. discriminate.
  Qed.
  Lemma idle_ended : forall d l, lookup_ok d l -> vs_flying (stream_refill (lk_stream l)) = [] ->
    let s := stream_step (lk_stream l) Waiting in
    vs_ended s = true /\ vs_peers s = [] /\ vs_flying s = [] /\ vs_asked s = vs_asked (lk_stream l).
  Proof.
    intros d l Hok Ef s. destruct (idle_empty d l Hok Ef) as [Hp Hfl]. subst s. unfold stream_step. destruct (vs_ended (lk_stream l)) eqn:Ee; [auto|].
    cbv zeta. rewrite Ef. cbn [vs_ended vs_peers vs_flying vs_asked]. destruct Hok as [H1 H2 H3 H4 H5 H6].
    destruct (refill_moves _ H2) as (taken & M1 & M2 & M3). rewrite Ef, Hfl in M3. cbn in M3. subst taken. rewrite M2, app_nil_r.
    pose proof (refill_empty _ H2 Ef). auto.
  Qed.

  Lemma ends_ok : forall sort now fresh d l i e, sorts sort -> lookup_ok d l ->
    ps_is_full (d_known (fst (lookup_ends P get sort now fresh d l i e))) = false ->
    lookup_ok (fst (lookup_ends P get sort now fresh d l i e)) (snd (lookup_ends P get sort now fresh d l i e)).
  Proof.
    intros sort now fresh d l i e Hsort Hok Hf.
    pose proof (grown_ok _ _ _ (ends_grown sort now fresh d l i e) Hf Hok) as Hok'.
    destruct (vs_flying (stream_refill (lk_stream l))) as [|p0 fl] eqn:Ef.
    - destruct (idle_empty d l Hok Ef) as [Hp Hfl]. destruct (idle_ended d l Hok Ef) as (S1 & S2 & S3 & S4).
      revert Hok'. unfold lookup_ends. cbv zeta. rewrite Ef. cbn [fst snd]. intros [H1 H2 H3 H4 H5 H6].
      split; cbn [lk_stream lk_iter]; [exact H1|now apply step_ok|congruence| | |auto].
      + unfold peers_seen in *. cbn [lk_stream lk_iter]. now rewrite S4.
      + unfold peers_seen in *. cbn [lk_stream lk_iter]. now rewrite S4.
    - pose proof (busy_running d l p0 fl Hok Ef) as Ee.
      destruct (ends_cases sort now fresh d l i e p0 fl Ef) as (d1 & value & it & v & fill & Hend & Hit & _). cbv zeta in Hit.
      rewrite Hend in Hf, Hok' |- *. cbn [fst snd] in *. destruct Hok' as [H1 H2 H3 H4 H5 H6].
      destruct (refill_moves _ H2) as (taken & M1 & M2 & M3). pose proof (left_peers l H2 H3) as Hleft.
      set (left := iter_left _ _) in *.
      assert (Hs : vs_asked (stream_step (lk_stream l) (Completed i value fill)) = vs_asked (lk_stream l) ++ taken
        /\ vs_peers (stream_step (lk_stream l) (Completed i value fill)) = match fill with Some l => l | None => vs_peers (stream_refill (lk_stream l)) end
        /\ vs_ended (stream_step (lk_stream l) (Completed i value fill)) = false).
      { unfold stream_step. rewrite Ee. cbv zeta. rewrite Ef. cbn [vs_asked vs_peers vs_ended]. auto. }
      destruct Hs as (S1 & S2 & S3).
      assert (Hperm : Permutation (peers_seen l) ((vs_asked (lk_stream l) ++ taken) ++ iter_peers left)).
      { unfold peers_seen. rewrite <- H3, M1, Hleft, <- app_assoc. apply Permutation_app_head. rewrite Permutation_app_comm. apply Permutation_app_tail.
        symmetry. apply Permutation_rev. }
      pose proof (Permutation_NoDup Hperm H4) as Hnd.
      assert (Hin : incl ((vs_asked (lk_stream l) ++ taken) ++ iter_peers left) (firstn (pi_index left) (ps_members (d_known d1)))).
      { intros x Hx. apply H5. eapply Permutation_in; [symmetry; exact Hperm|exact Hx]. }
      assert (Hmem : List.NoDup (ps_members (d_known d1))) by (destruct H1 as [q Hq]; now apply reps_nodup in Hq).
      split; cbn [lk_stream lk_iter]; [exact H1|now apply step_ok| | | |congruence].
      + rewrite S2. destruct Hit as [[-> ->]|(-> & -> & _)]; [now rewrite Hleft|reflexivity].
      + unfold peers_seen. cbn [lk_stream lk_iter]. rewrite S1. destruct Hit as [[-> ->]|(-> & -> & _)]; [exact Hnd|].
        assert (Hdis : List.NoDup ((vs_asked (lk_stream l) ++ taken) ++ iter_peers left ++ skipn (pi_index left) (ps_members (d_known d1)))).
        { rewrite app_assoc. apply DhtStreamFacts.nodup_app; [exact Hnd| |].
          - rewrite <- (firstn_skipn (pi_index left) (ps_members (d_known d1))) in Hmem. revert Hmem. clear. generalize (firstn (pi_index left) (ps_members (d_known d1))).
            intros a. induction a as [|x a IH]; [exact (fun H => H)|]. cbn [app]. intros H. apply IH. now apply List.NoDup_cons_iff in H as [_ H].
          - intros x Hx Hx'. apply Hin in Hx. rewrite <- (firstn_skipn (pi_index left) (ps_members (d_known d1))) in Hmem. revert Hmem Hx Hx'. clear.
            generalize (firstn (pi_index left) (ps_members (d_known d1))) (skipn (pi_index left) (ps_members (d_known d1))). intros a b.
            induction a as [|y a IH]; [intros _ []|]. cbn [app]. intros H. apply List.NoDup_cons_iff in H as [H1 H2]. intros [->|Ha] Hb.
            + apply H1, in_or_app. now right.
            + exact (IH H2 Ha Hb). }
        destruct (iter_fill_facts sort d1 (lk_batch l) left Hsort) as (F1 & F2 & _).
        { revert Hdis. clear. induction (vs_asked (lk_stream l) ++ taken) as [|x a IH]; [exact (fun H => H)|]. cbn [app]. intros H. apply IH. now apply List.NoDup_cons_iff in H as [_ H]. }
        apply DhtStreamFacts.nodup_app; [|exact F1|].
        * revert Hnd. clear. induction (vs_asked (lk_stream l) ++ taken) as [|x a IH]; [constructor|]. cbn [app]. intros H. apply List.NoDup_cons_iff in H as [H1 H2].
          constructor; [|now apply IH]. intros Hx. apply H1, in_or_app. now left.
        * intros x Hx Hx'. apply F2 in Hx'. revert Hdis Hx Hx'. clear. generalize (iter_peers left ++ skipn (pi_index left) (ps_members (d_known d1))). intros b.
          induction (vs_asked (lk_stream l) ++ taken) as [|y a IH]; [intros _ []|]. cbn [app]. intros H. apply List.NoDup_cons_iff in H as [H1 H2]. intros [->|Ha] Hb.
          -- apply H1, in_or_app. now right.
          -- exact (IH H2 Ha Hb).
      + unfold peers_seen. cbn [lk_stream lk_iter]. rewrite S1. destruct Hit as [[-> ->]|(-> & -> & _)]; [exact Hin|].
        assert (Hnd' : List.NoDup (iter_peers left ++ skipn (pi_index left) (ps_members (d_known d1)))).
        { apply DhtStreamFacts.nodup_app.
          - revert Hnd. clear. induction (vs_asked (lk_stream l) ++ taken) as [|x a IH]; [exact (fun H => H)|]. cbn [app]. intros H. apply IH. now apply List.NoDup_cons_iff in H as [_ H].
          - rewrite <- (firstn_skipn (pi_index left) (ps_members (d_known d1))) in Hmem. revert Hmem. clear. generalize (firstn (pi_index left) (ps_members (d_known d1))).
            intros a. induction a as [|x a IH]; [exact (fun H => H)|]. cbn [app]. intros H. apply IH. now apply List.NoDup_cons_iff in H as [_ H].
          - intros x Hx Hx'. assert (Hx2 : In x (firstn (pi_index left) (ps_members (d_known d1)))) by (apply Hin, in_or_app; now right).
            rewrite <- (firstn_skipn (pi_index left) (ps_members (d_known d1))) in Hmem. revert Hmem Hx2 Hx'. clear.
            generalize (firstn (pi_index left) (ps_members (d_known d1))) (skipn (pi_index left) (ps_members (d_known d1))). intros a b.
            induction a as [|y a IH]; [intros _ []|]. cbn [app]. intros H. apply List.NoDup_cons_iff in H as [H1 H2]. intros [->|Ha] Hb.
            + apply H1, in_or_app. now right.
            + exact (IH H2 Ha Hb). }
        destruct (iter_fill_facts sort d1 (lk_batch l) left Hsort Hnd') as (F1 & F2 & F3 & F4).
        rewrite firstn_all2 by exact F3. intros x Hx. apply in_app_or in Hx as [Hx|Hx].
        * assert (Hx2 : In x (firstn (pi_index left) (ps_members (d_known d1)))) by (apply Hin, in_or_app; now left).
          rewrite <- (firstn_skipn (pi_index left) (ps_members (d_known d1))). apply in_or_app. now left.
        * apply F2 in Hx. rewrite <- (firstn_skipn (pi_index left) (ps_members (d_known d1))). apply in_app_or in Hx as [Hx|Hx]; apply in_or_app; [|now right].
          left. apply Hin, in_or_app. now right.
  Qed.

  Lemma new_ok : forall sort d key batch np, sorts sort -> (exists q, PeersSetFacts.reps c (d_known d) q) ->
    lookup_ok d (lookup_new sort d key batch np).
  Proof.
    intros sort d key batch np Hsort Hr. unfold lookup_new. cbv zeta.
    destruct (iter_fill_facts sort d batch (peers_iter_new key) Hsort) as (F1 & F2 & F3 & F4).
    { cbn [iter_peers pi_peers peers_iter_new map app pi_index skipn]. destruct Hr as [q Hq]. now apply reps_nodup in Hq. }
    split; cbn [lk_stream lk_iter]; [exact Hr|unfold stream_ok; cbn; repeat split; [lia|constructor]|reflexivity|exact F1| |discriminate].
    unfold peers_seen. cbn [lk_stream lk_iter stream_new vs_asked app]. rewrite firstn_all2 by exact F3. exact F2.
  Qed.

  Lemma run_lookup_ok : forall evs d l, Forall lookup_event_ok evs -> lookup_ok d l ->
    ps_is_full (d_known (fst (lookup_run P get (d, l) evs))) = false ->
    lookup_ok (fst (lookup_run P get (d, l) evs)) (snd (lookup_run P get (d, l) evs)).
  Proof.
    induction evs as [|ev evs IH]; intros d l He Hok Hf; [exact Hok|]. apply List.Forall_cons_iff in He as [He1 He2].
    unfold lookup_run in *. cbn [fold_left] in *.
    assert (Hf' : ps_is_full (d_known (fst (lookup_step P get (d, l) ev))) = false).
    { eapply not_full_before; [|exact Hf]. apply (run_grown evs). }
    rewrite (surjective_pairing (lookup_step P get (d, l) ev)) in *. apply IH; [exact He2| |exact Hf].
    destruct ev as [op|i e sort now fresh]; cbn [lookup_step fst snd] in *.
    - eapply grown_ok; [apply grown_op|exact Hf'|exact Hok].
    - now apply ends_ok.
  Qed.
End Lookup.

(** ** C46 with peers that become known during the lookup *)
Theorem lookup_each_once : forall T P (get : parser T) adnl secret o ops sort key batch new_peers evs,
  sorts sort -> Forall lookup_event_ok evs ->
  let d := dht_run P (dht_new P adnl secret o) ops in
  let r := lookup_run P get (d, lookup_new sort d key batch new_peers) evs in
  let s := lk_stream (snd r) in
  ps_is_full (d_known (fst r)) = false ->
  List.NoDup (vs_asked s)
  /\ (forall p, In p (vs_asked s) -> In p (ps_members (d_known (fst r))))
  /\ vs_yielded s = values_of (vs_done s)
  /\ (vs_ended s = true -> Permutation (map fst (vs_done s)) (vs_asked s)).
Proof.
  intros T P get adnl secret o ops sort key batch new_peers evs Hs He d r s Hf.
  destruct (run_lookup_ok P get _ evs d (lookup_new sort d key batch new_peers) He (new_ok _ sort d key batch new_peers Hs (known_reps P adnl secret o ops)) Hf)
    as [H1 H2 H3 H4 H5 H6].
  fold r in H1, H2, H3, H4, H5, H6. fold s in H2, H3, H6. unfold peers_seen in *. fold s in H4, H5.
  split; [|split; [|split]].
  - revert H4. clear. induction (vs_asked s) as [|x a IH]; [constructor|]. cbn [app]. intros H. apply List.NoDup_cons_iff in H as [H1 H2].
    constructor; [|now apply IH]. intros Hx. apply H1, in_or_app. now left.
  - intros p Hp. rewrite <- (firstn_skipn (pi_index (lk_iter (snd r))) (ps_members (d_known (fst r)))). apply in_or_app. left. apply H5, in_or_app. now left.
  - apply H2.
  - intros Hend. destruct H2 as (_ & _ & Hp & _). rewrite Hp, (proj2 (H6 Hend)). reflexivity.
Qed.

(** ** A lookup ends *)
Section Ends.
  Context {T : Type} (P : prims) (get : parser T).
  Local Notation c := (Nat.max 1 (N.to_nat max_dht_peers)).

  Lemma ends_done : forall sort now fresh d (l : lookup T) i e, stream_ok (lk_stream l) ->
    let l' := snd (lookup_ends P get sort now fresh d l i e) in
    vs_ended (lk_stream l') = false ->
    vs_ended (lk_stream l) = false /\ length (vs_done (lk_stream l')) = S (length (vs_done (lk_stream l))).
  Proof.
    intros sort now fresh d l i e Hok l'. subst l'.
    destruct (vs_ended (lk_stream l)) eqn:Ee.
    { intros H. exfalso. revert H. unfold lookup_ends. cbv zeta. destruct (vs_flying _) as [|p0 fl] eqn:Ef.
      - cbn [snd lk_stream]. unfold stream_step. rewrite Ee. congruence.
      - destruct (ends_cases P get sort now fresh d l i e p0 fl Ef) as (d1 & value & it & v & fill & Hend & _).
        unfold lookup_ends in Hend. cbv zeta in Hend. rewrite Ef in Hend. rewrite Hend. cbn [snd lk_stream]. unfold stream_step. rewrite Ee. congruence. }
    destruct (vs_flying (stream_refill (lk_stream l))) as [|p0 fl] eqn:Ef.
    - unfold lookup_ends. cbv zeta. rewrite Ef. cbn [snd lk_stream]. unfold stream_step. rewrite Ee. cbv zeta. rewrite Ef. discriminate.
    - destruct (ends_cases P get sort now fresh d l i e p0 fl Ef) as (d1 & value & it & v & fill & Hend & _). rewrite Hend. cbn [snd lk_stream].
      unfold stream_step. rewrite Ee. cbv zeta. rewrite Ef. cbn [vs_ended vs_done]. intros _. split; [reflexivity|]. rewrite app_length. cbn.
      unfold stream_refill. destruct (_ <? _)%nat; [|lia]. destruct (refill _ _ _ _) as [[[? ?] ?] ?]. cbn. lia.
  Qed.

  Lemma run_done : forall evs d (l : lookup T), stream_ok (lk_stream l) ->
    vs_ended (lk_stream (snd (lookup_run P get (d, l) evs))) = false ->
    length (vs_done (lk_stream (snd (lookup_run P get (d, l) evs)))) = (length (vs_done (lk_stream l)) + lookup_ends_count evs)%nat
    /\ vs_ended (lk_stream l) = false.
  Proof.
    unfold lookup_run, lookup_ends_count. induction evs as [|ev evs IH]; intros d l Hok He; [cbn in *; split; [lia|exact He]|].
    cbn [fold_left List.filter] in *. destruct ev as [op|i e sort now fresh]; cbn [lookup_step fst snd] in *.
    - destruct (IH _ _ Hok He) as [H1 H2]. split; [exact H1|exact H2].
    - pose proof (ends_done sort now fresh d l i e Hok) as Hd. cbv zeta in Hd.
      assert (Hok' : stream_ok (lk_stream (snd (lookup_ends P get sort now fresh d l i e)))).
      { unfold lookup_ends. cbv zeta. destruct (vs_flying (stream_refill (lk_stream l))) as [|p0 fl] eqn:Ef; [cbn [snd lk_stream]; now apply step_ok|].
        destruct (ends_cases P get sort now fresh d l i e p0 fl Ef) as (d1 & value & it & v & fill & Hend & _).
        unfold lookup_ends in Hend. cbv zeta in Hend. rewrite Ef in Hend. rewrite Hend. cbn [snd lk_stream]. now apply step_ok. }
      destruct (lookup_ends P get sort now fresh d l i e) as [d1 l1]. cbn [snd] in *. destruct (IH d1 l1 Hok' He) as [H1 H2].
      destruct (Hd H2) as [H3 H4]. split; [|exact H3]. rewrite H1, H4. cbn [length]. lia.
  Qed.

  Theorem lookup_terminates : forall adnl secret o ops sort key batch new_peers evs,
    sorts sort -> Forall lookup_event_ok evs ->
    let d := dht_run P (dht_new P adnl secret o) ops in
    let r := lookup_run P get (d, lookup_new sort d key batch new_peers) evs in
    ps_is_full (d_known (fst r)) = false ->
    (length (ps_members (d_known (fst r))) < lookup_ends_count evs)%nat ->
    vs_ended (lk_stream (snd r)) = true.
  Proof.
    intros adnl secret o ops sort key batch new_peers evs Hs He d r Hf Hlen.
    destruct (vs_ended (lk_stream (snd r))) eqn:Ee; [reflexivity|exfalso].
    destruct (run_done evs d (lookup_new sort d key batch new_peers)) as [H1 _]; [unfold stream_ok; cbn; repeat split; [lia|constructor]|exact Ee|].
    fold r in H1. cbn [lookup_new lk_stream stream_new vs_done length] in H1.
    destruct (lookup_each_once T P get adnl secret o ops sort key batch new_peers evs Hs He Hf) as (N1 & N2 & _). fold d in N1, N2. fold r in N1, N2.
    pose proof (List.NoDup_incl_length N1 N2) as Hl.
    pose proof (run_lookup_ok P get c evs d (lookup_new sort d key batch new_peers) He (new_ok _ sort d key batch new_peers Hs (known_reps P adnl secret o ops)) Hf) as Hok.
    fold r in Hok. destruct (lo_stream _ _ _ Hok) as (_ & _ & Hp & _). apply Permutation_length in Hp. rewrite app_length, map_length in Hp. lia.
  Qed.
End Ends.

(** ** Histories *)
Definition a_run (P : prims) (d d' : dht) : Prop := exists ops, d' = dht_run P d ops.
Lemma a_run_refl : forall P d, a_run P d d.
Proof. intros P d. now exists []. Qed.
Lemma a_run_trans : forall P a b c, a_run P a b -> a_run P b c -> a_run P a c.
Proof. intros P a b c [x ->] [y ->]. exists (x ++ y). unfold dht_run. now rewrite fold_left_app. Qed.
Lemma a_run_op : forall P d op, a_run P d (dht_step P d op).
Proof. intros P d op. now exists [op]. Qed.
Lemma reply_state : forall T P (get : parser T) d now fresh reply,
  snd (parse_value_result P get d now fresh reply) = dht_step P d (DReply now fresh reply).
Proof.
  intros T P get d now fresh reply. cbn [dht_step]. unfold parse_value_result.
  destruct (deserialize get_value_result reply) as [[v|nodes]|]; [|reflexivity|reflexivity].
  destruct (match kd_rule (dv_key v) with UrSignature => _ | _ => _ end); [|reflexivity].
  destruct (deserialize get (dv_value v)), (deserialize get_raw (dv_value v)); reflexivity.
Qed.
Lemma ends_run : forall T P (get : parser T) sort now fresh d (l : lookup T) i e,
  a_run P d (fst (lookup_ends P get sort now fresh d l i e)).
Proof.
  intros T P get sort now fresh d l i e. unfold lookup_ends. cbv zeta. destruct (vs_flying _) as [|p0 fl]; [apply a_run_refl|].
  set (p := nth _ _ _). clearbody p.
  assert (H0 : forall o, a_run P d (after_query d p o)) by (intros o; exact (a_run_op P d (DQueryEnds p o))).
  destruct e as [reply| |]; cbn [ending_outcome].
  - assert (Hg : a_run P d (snd (parse_value_result P get (after_query d p Answered) now fresh reply))).
    { rewrite reply_state. eapply a_run_trans; [apply H0|apply a_run_op]. }
    destruct (parse_value_result P get (after_query d p Answered) now fresh reply) as [[[v|]|err] d1]; cbn [snd] in Hg;
      destruct (lk_new_peers l && _); exact Hg.
  - destruct (lk_new_peers l && _); apply H0.
  - destruct (lk_new_peers l && _); apply H0.
Qed.
Lemma ends_counted : forall T P (get : parser T) sort now fresh d (l : lookup T) i p,
  let flying := vs_flying (stream_refill (lk_stream l)) in
  nth_error flying (i mod length flying) = Some p ->
  let ends e := fst (lookup_ends P get sort now fresh d l i e) in
  ends Broken = after_queries d [(p, Failed)] /\ ends Silent = after_queries d [(p, TimedOut)]
  /\ forall reply, ends (Replied reply) = snd (parse_value_result P get (after_queries d [(p, Answered)]) now fresh reply).
Proof.
  intros T P get sort now fresh d l i p flying Hp ends.
  assert (H : forall e, ends e = match e with
    | Replied reply => snd (parse_value_result P get (after_query d p (ending_outcome e)) now fresh reply)
    | _ => after_query d p (ending_outcome e) end).
  { intros e. unfold ends, lookup_ends. cbv zeta. fold flying. destruct flying as [|p0 fl] eqn:Ef; [destruct (i mod _)%nat; discriminate Hp|].
    rewrite (nth_error_nth _ _ p0 Hp). destruct e as [reply| |].
    - destruct (parse_value_result P get (after_query d p (ending_outcome (Replied reply))) now fresh reply) as [[[v|]|err] d1];
        destruct (lk_new_peers l && _); reflexivity.
    - destruct (lk_new_peers l && _); reflexivity.
    - destruct (lk_new_peers l && _); reflexivity. }
  split; [exact (H Broken)|]. split; [exact (H Silent)|]. intros reply. exact (H (Replied reply)).
Qed.
Theorem lookup_history : forall T P (get : parser T) evs d l, a_run P d (fst (lookup_run P get (d, l) evs)).
Proof.
  intros T P get. unfold lookup_run. induction evs as [|ev evs IH]; intros d l; [apply a_run_refl|]. cbn [fold_left].
  rewrite (surjective_pairing (lookup_step P get (d, l) ev)). eapply a_run_trans; [|apply IH].
  destruct ev as [op|i e sort now fresh]; cbn [lookup_step fst snd]; [apply a_run_op|apply ends_run].
Qed.

(** ** Storing with a check *)
Section Store.
  Context {T E : Type} (P : prims) (get : parser T) (check : list (key_description * T) -> key_description * T -> res E bool).
  Local Notation c := (Nat.max 1 (N.to_nat max_dht_peers)).
  Implicit Types (s : store_check T E).

  Lemma store_step_run : forall s ev, a_run P (sk_dht s) (sk_dht (store_step P get check s ev)).
  Proof.
    intros s ev. unfold store_step. destruct ev as [op| |i o|sort|i e sort now fresh], (sk_stage s) as [|fl|l|r l]; try apply a_run_refl; try apply a_run_op.
    - destruct (nth_error fl i) as [p|]; [exact (a_run_op P _ (DQueryEnds p o))|apply a_run_refl].
    - destruct fl; apply a_run_refl.
    - pose proof (ends_run T P get sort now fresh (sk_dht s) l i e) as H. destruct (lookup_ends P get sort now fresh (sk_dht s) l i e) as [d l']. cbn [fst] in H.
      cbv zeta. destruct (skipn _ _); exact H.
  Qed.
  Theorem store_history : forall evs s, a_run P (sk_dht s) (sk_dht (store_run P get check s evs)).
  Proof.
    unfold store_run. induction evs as [|ev evs IH]; intros s; [apply a_run_refl|]. cbn [fold_left].
    eapply a_run_trans; [apply store_step_run|apply IH].
  Qed.
  Lemma a_run_grown : forall d d', a_run P d d' -> grown d d'.
  Proof. intros d d' [ops ->]. destruct (run_state P ops d) as (_ & _ & _ & _ & H). exact H. Qed.
  Lemma run_app : forall d a b, dht_run P d (a ++ b) = dht_run P (dht_run P d a) b.
  Proof. intros. unfold dht_run. apply fold_left_app. Qed.

  (** What one end of a query of the lookup yields. *)
  Lemma ends_yields : forall sort now fresh d (l : lookup T) i e, stream_ok (lk_stream l) ->
    let l' := snd (lookup_ends P get sort now fresh d l i e) in
    vs_yielded (lk_stream l') = vs_yielded (lk_stream l)
    \/ exists v reply, vs_yielded (lk_stream l') = vs_yielded (lk_stream l) ++ [v] /\ e = Replied reply /\ reply_gives P get reply v
       /\ vs_ended (lk_stream l') = false.
  Proof.
    intros sort now fresh d l i e Hok l'. subst l'.
    assert (Hy : vs_yielded (stream_refill (lk_stream l)) = vs_yielded (lk_stream l)).
    { unfold stream_refill. destruct (_ <? _)%nat; [|reflexivity]. now destruct (refill _ _ _ _) as [[[? ?] ?] ?]. }
    destruct (vs_flying (stream_refill (lk_stream l))) as [|p0 fl] eqn:Ef.
    - left. unfold lookup_ends. cbv zeta. rewrite Ef. cbn [snd lk_stream]. unfold stream_step. destruct (vs_ended _); [reflexivity|]. cbv zeta. rewrite Ef. exact Hy.
    - destruct (ends_cases P get sort now fresh d l i e p0 fl Ef) as (d1 & value & it & v & fill & Hend & _ & Hv1 & Hv2). rewrite Hend. cbn [snd lk_stream].
      unfold stream_step. destruct (vs_ended (lk_stream l)); [now left|]. cbv zeta. rewrite Ef. cbn [vs_yielded vs_ended].
      destruct value as [x|]; [|now left]. right. destruct e as [reply| |]; [|exfalso; now specialize (Hv2 (fun r => ltac:(discriminate)))|exfalso; now specialize (Hv2 (fun r => ltac:(discriminate)))].
      exists x, reply. rewrite Hy. split; [reflexivity|]. split; [reflexivity|]. split; [|reflexivity].
      destruct (Hv1 reply eq_refl) as (d0 & _ & H). exists d0, now, fresh. now apply H.
  Qed.
  Lemma ends_stream : forall sort now fresh d (l : lookup T) i e, stream_ok (lk_stream l) ->
    stream_ok (lk_stream (snd (lookup_ends P get sort now fresh d l i e))).
  Proof.
    intros sort now fresh d l i e Hok. destruct (vs_flying (stream_refill (lk_stream l))) as [|p0 fl] eqn:Ef.
    - unfold lookup_ends. cbv zeta. rewrite Ef. cbn [snd lk_stream]. now apply step_ok.
    - destruct (ends_cases P get sort now fresh d l i e p0 fl Ef) as (d1 & value & it & v & fill & Hend & _). rewrite Hend. cbn [snd lk_stream]. now apply step_ok.
  Qed.

  Definition verdict (r : res E bool) (seen : list (key_description * T)) (ended : bool) : Prop :=
    match r with
    | Ok false => all_refused check seen /\ ended = true
    | _ => exists before v, seen = before ++ [v] /\ all_refused check before /\ check before v = r
    end.

  Definition store_ok s : Prop :=
    match sk_stage s with
    | NotStarted => sk_told s = [] /\ sk_ended s = [] /\ sk_seen s = []
    | Storing fl => Permutation (sk_told s) (fl ++ sk_ended s) /\ sk_seen s = []
    | Looking l => Permutation (sk_ended s) (sk_told s) /\ stream_ok (lk_stream l) /\ sk_seen s = vs_yielded (lk_stream l)
                   /\ all_refused check (sk_seen s)
    | Decided r l => Permutation (sk_ended s) (sk_told s) /\ stream_ok (lk_stream l) /\ sk_seen s = vs_yielded (lk_stream l)
                     /\ verdict r (sk_seen s) (vs_ended (lk_stream l))
    end.

  Lemma refused_snoc : forall l v, all_refused check l -> check l v = Ok false -> all_refused check (l ++ [v]).
  Proof.
    intros l v H Hv before w after Heq. destruct after as [|a after] using rev_ind.
    - apply app_inj_tail in Heq as [-> ->]. exact Hv.
    - rewrite app_comm_cons, app_assoc in Heq. apply app_inj_tail in Heq as [-> _]. now apply (H before w after).
  Qed.

  Lemma nth_error_split_remove : forall (l : list bytes) i p, nth_error l i = Some p -> Permutation l (p :: remove_nth i l).
  Proof.
    induction l as [|x l IH]; intros [|i] p H; cbn in H; try discriminate; [injection H as <-; reflexivity|]. cbn [remove_nth].
    rewrite (IH _ _ H) at 1. apply perm_swap.
  Qed.

  Lemma store_step_ok : forall s ev, store_ok s -> store_ok (store_step P get check s ev).
  Proof.
    intros s ev. unfold store_ok at 1. unfold store_step.
    destruct ev as [op| |i o|sort|i e sort now fresh], (sk_stage s) as [|fl|l|r l] eqn:Es; intros H;
      try (unfold store_ok; cbn [sk_stage sk_told sk_ended sk_seen]; rewrite ?Es; exact H).
    - unfold store_ok. cbn [sk_stage sk_told sk_ended sk_seen]. destruct H as (_ & -> & ->). rewrite app_nil_r. auto.
    - destruct (nth_error fl i) as [p|] eqn:En; [|unfold store_ok; rewrite Es; exact H]. unfold store_ok. cbn [sk_stage sk_told sk_ended sk_seen].
      destruct H as [H1 H2]. split; [|exact H2]. rewrite H1. eapply Permutation_trans; [apply Permutation_app_tail, (nth_error_split_remove _ _ _ En)|].
      cbn [app]. rewrite app_assoc. apply Permutation_cons_append.
    - destruct fl as [|p fl]; [|unfold store_ok; rewrite Es; exact H]. unfold store_ok. cbn [sk_stage sk_told sk_ended sk_seen lookup_new lk_stream].
      destruct H as [H1 H2]. split; [now rewrite H1|]. split; [unfold stream_ok; cbn; repeat split; [lia|constructor]|]. rewrite H2. split; [reflexivity|].
      intros before v after Heq. destruct before; discriminate.
    - destruct H as (H1 & H2 & H3 & H4). pose proof (ends_yields sort now fresh (sk_dht s) l i e H2) as Hy. pose proof (ends_stream sort now fresh (sk_dht s) l i e H2) as Hst.
      cbv zeta in Hy. destruct (lookup_ends P get sort now fresh (sk_dht s) l i e) as [d l']. cbn [snd] in *. cbv zeta.
      destruct Hy as [Hy|(v & reply & Hy & _ & _ & Hend)].
      + rewrite Hy, skipn_all. unfold store_ok. cbn [sk_stage]. destruct (vs_ended (lk_stream l')) eqn:Ee; cbn [sk_told sk_ended sk_seen]; (split; [exact H1|]; split; [exact Hst|]; split; [now rewrite Hy|]).
        * cbn [verdict]. split; [exact H4|exact Ee].
        * exact H4.
      + rewrite Hy, skipn_app, skipn_all, Nat.sub_diag. cbn [skipn app]. unfold store_ok. cbn [sk_stage].
        destruct (check (sk_seen s) v) as [[|]|err] eqn:Ec; cbn [sk_told sk_ended sk_seen]; (split; [exact H1|]; split; [exact Hst|]; split; [now rewrite Hy, H3|]).
        * cbn [verdict]. exists (sk_seen s), v. auto.
        * now apply refused_snoc.
        * cbn [verdict]. exists (sk_seen s), v. auto.
  Qed.
  Lemma store_run_ok : forall evs s, store_ok s -> store_ok (store_run P get check s evs).
  Proof. unfold store_run. induction evs as [|ev evs IH]; intros s H; [exact H|]. cbn [fold_left]. now apply IH, store_step_ok. Qed.
  Lemma then_check_ok : forall d key all, store_ok (then_check d key all).
  Proof. intros. repeat split. Qed.

  (** The lookup of the operation is a lookup. *)
  Definition store_lookup_ok s : Prop :=
    (exists q, PeersSetFacts.reps c (d_known (sk_dht s)) q) /\ forall l, lookup_of s = Some l -> lookup_ok c (sk_dht s) l.
  Lemma store_step_lookup : forall s ev, store_event_ok ev -> store_lookup_ok s ->
    ps_is_full (d_known (sk_dht (store_step P get check s ev))) = false -> store_lookup_ok (store_step P get check s ev).
  Proof.
    intros s ev He [Hr Hl] Hf. pose proof (a_run_grown _ _ (store_step_run s ev)) as Hg. split; [destruct Hr as [q Hr]; eapply grown_reps; eassumption|].
    intros l Hlk.
    assert (Hsame : lookup_of s = Some l -> lookup_ok c (sk_dht (store_step P get check s ev)) l).
    { intros H. eapply grown_ok; [exact Hg|exact Hf|now apply Hl]. }
    revert Hg Hf Hlk Hsame. unfold store_step. unfold lookup_of at 2. unfold lookup_of in Hl.
    destruct ev as [op| |i o|sort|i e sort now fresh], (sk_stage s) as [|fl|l0|r l0] eqn:Es; intros Hg Hf Hlk Hsame;
      try (unfold lookup_of in Hlk; cbn [sk_stage] in Hlk; rewrite ?Es in Hlk; first [discriminate|now apply Hsame]).
    - unfold lookup_of in Hlk. destruct (nth_error fl i); cbn [sk_stage] in Hlk; rewrite ?Es in Hlk; discriminate.
    - destruct fl as [|p fl]; [|unfold lookup_of in Hlk; rewrite Es in Hlk; discriminate].
      unfold lookup_of in Hlk. cbn [sk_stage] in Hlk.
      assert (l = lookup_new sort (sk_dht s) (sk_key s) (Some (do_batch_len (d_opts (sk_dht s)))) true) by congruence. subst l.
      cbn [sk_dht]. apply new_ok; [exact He|exact Hr].
    - clear Hsame. specialize (Hl l0 eq_refl). pose proof (ends_ok P get c sort now fresh (sk_dht s) l0 i e He Hl) as Hends.
      destruct (lookup_ends P get sort now fresh (sk_dht s) l0 i e) as [d l']. cbn [fst snd] in Hends. cbv zeta in *.
      destruct (skipn _ _) as [|v rest]; cbn [sk_dht] in *; specialize (Hends Hf); unfold lookup_of in Hlk; cbn [sk_stage] in Hlk.
      + assert (l = l') by (destruct (vs_ended _); congruence). now subst.
      + assert (l = l') by (destruct (check _ _) as [[|]|]; congruence). now subst.
  Qed.
  Lemma store_run_lookup : forall evs s, Forall store_event_ok evs -> store_lookup_ok s ->
    ps_is_full (d_known (sk_dht (store_run P get check s evs))) = false -> store_lookup_ok (store_run P get check s evs).
  Proof.
    induction evs as [|ev evs IH]; intros s He Hs Hf; [exact Hs|]. apply List.Forall_cons_iff in He as [He1 He2].
    unfold store_run in *. cbn [fold_left] in *. apply IH; [exact He2| |exact Hf]. apply store_step_lookup; [exact He1|exact Hs|].
    eapply not_full_before; [|exact Hf]. apply a_run_grown. exact (store_history evs _).
  Qed.

  (** *** C79 *)
  Lemma no_poll : forall evs s, sk_stage s = NotStarted -> ~ In SkPoll evs ->
    sk_stage (store_run P get check s evs) = NotStarted
    /\ sk_dht (store_run P get check s evs) = dht_run P (sk_dht s) (other_ops evs).
  Proof.
    unfold store_run. induction evs as [|ev evs IH]; intros s Hs Hn; [now split|]. cbn [fold_left].
    assert (Hn' : ~ In SkPoll evs) by (intros H; apply Hn; now right).
    destruct ev as [op| |i o|sort|i e sort now fresh].
    2: exfalso; apply Hn; now left.
    all: cbn [store_step]; rewrite Hs.
    - destruct (IH (mk_store_check (dht_step P (sk_dht s) op) (sk_key s) (sk_check_all s) NotStarted (sk_told s) (sk_ended s) (sk_seen s)) eq_refl Hn') as [I1 I2].
      split; [exact I1|]. rewrite I2. reflexivity.
    - destruct (IH s Hs Hn'). now split.
    - destruct (IH s Hs Hn'). now split.
    - destruct (IH s Hs Hn'). now split.
  Qed.
  Lemma told_kept : forall evs s, sk_stage s <> NotStarted ->
    sk_told (store_run P get check s evs) = sk_told s /\ sk_stage (store_run P get check s evs) <> NotStarted.
  Proof.
    unfold store_run. induction evs as [|ev evs IH]; intros s Hs; [now split|]. cbn [fold_left].
    assert (H : sk_told (store_step P get check s ev) = sk_told s /\ sk_stage (store_step P get check s ev) <> NotStarted).
    { unfold store_step. destruct ev as [op| |i o|sort|i e sort now fresh], (sk_stage s) as [|fl|l|r l] eqn:Es; try (exfalso; now apply Hs);
        try (split; [reflexivity|cbn [sk_stage]; congruence]).
      - destruct (nth_error fl i); split; try reflexivity; cbn [sk_stage]; congruence.
      - destruct fl; split; try reflexivity; cbn [sk_stage]; congruence.
      - destruct (lookup_ends P get sort now fresh (sk_dht s) l i e) as [d l']. cbv zeta. destruct (skipn _ _) as [|v rest]; (split; [reflexivity|]); cbn [sk_stage].
        + destruct (vs_ended _); congruence.
        + destruct (check _ _) as [[|]|]; congruence. }
    destruct H as [H1 H2]. destruct (IH _ H2) as [I1 I2]. split; [congruence|exact I2].
  Qed.
  Lemma in_split_first : forall evs : list store_event, {In SkPoll evs} + {~ In SkPoll evs}.
  Proof.
    induction evs as [|ev evs [IH|IH]]; [right; intros []|left; now right|].
    destruct ev as [op| |i o|sort|i e sort now fresh]; [| left; now left | | | ]; right; intros [H|H]; try discriminate; contradiction.
  Qed.
  Lemma first_poll : forall evs : list store_event, In SkPoll evs -> exists a b, evs = a ++ SkPoll :: b /\ ~ In SkPoll a.
  Proof.
    induction evs as [|ev evs IH]; intros Hin; [destruct Hin|].
    assert (Hc : ev = SkPoll \/ (ev <> SkPoll /\ In SkPoll evs)).
    { destruct Hin as [->|Hin]; [now left|]. destruct ev; [right|now left|right|right|right]; split; try discriminate; exact Hin. }
    destruct Hc as [->|[Hne Hin']]; [exists [], evs; split; [reflexivity|intros []]|].
    destruct (IH Hin') as (a & b & -> & Ha). exists (ev :: a), b. split; [reflexivity|]. intros [H|H]; [now apply Hne|contradiction].
  Qed.

  Theorem sent_to_all : forall adnl secret o ops key all evs,
    let d := dht_run P (dht_new P adnl secret o) ops in
    let s := store_run P get check (then_check d key all) evs in
    looking_or_decided s ->
    exists before after, evs = before ++ SkPoll :: after /\ ~ In SkPoll before
      /\ sk_told s = ps_members (d_known (dht_run P d (other_ops before)))
      /\ List.NoDup (sk_told s)
      /\ Permutation (sk_ended s) (sk_told s).
  Proof.
    intros adnl secret o ops key all evs d s Hs.
    pose proof (store_run_ok evs _ (then_check_ok d key all)) as Hok. fold s in Hok.
    assert (Hin : In SkPoll evs).
    { destruct (in_split_first evs) as [H|H]; [exact H|exfalso]. destruct (no_poll evs (then_check d key all) eq_refl H) as [Hst _]. fold s in Hst.
      unfold looking_or_decided in Hs. rewrite Hst in Hs. exact Hs. }
    destruct (first_poll evs Hin) as (before & after & Hev & Hb). exists before, after. split; [exact Hev|]. split; [exact Hb|].
    assert (Ht : sk_told s = ps_members (d_known (dht_run P d (other_ops before)))).
    { subst s. rewrite Hev. unfold store_run. rewrite fold_left_app. cbn [fold_left].
      destruct (no_poll before (then_check d key all) eq_refl Hb) as [N1 N2]. unfold store_run in N1, N2.
      set (s1 := fold_left (store_step P get check) before (then_check d key all)) in *.
      destruct (told_kept after (store_step P get check s1 SkPoll)) as [K1 _]; [cbn [store_step]; rewrite N1; cbn [sk_stage]; discriminate|].
      unfold store_run in K1. rewrite K1. cbn [store_step]. rewrite N1. cbn [sk_told]. now rewrite N2. }
    split; [exact Ht|]. split.
    - rewrite Ht. subst d. rewrite <- run_app. apply members_once.
    - unfold store_ok in Hok. unfold looking_or_decided in Hs. destruct (sk_stage s) as [|fl|l|r l]; [destruct Hs|destruct Hs|apply Hok|apply Hok].
  Qed.

  Theorem store_verdict : forall d key all evs r,
    let s := store_run P get check (then_check d key all) evs in
    decided s = Some r ->
    match r with
    | Ok false => all_refused check (sk_seen s)
    | _ => exists before v, sk_seen s = before ++ [v] /\ all_refused check before /\ check before v = r
    end.
  Proof.
    intros d key all evs r s Hd. pose proof (store_run_ok evs _ (then_check_ok d key all)) as Hok. fold s in Hok.
    unfold decided in Hd. unfold store_ok in Hok. destruct (sk_stage s) as [|fl|l|r' l]; try discriminate. injection Hd as ->.
    destruct Hok as (_ & _ & _ & Hv). destruct r as [[|]|e]; cbn [verdict] in Hv; [exact Hv|apply Hv|exact Hv].
  Qed.

  Theorem store_asks : forall adnl secret o ops key all evs l,
    Forall store_event_ok evs ->
    let d := dht_run P (dht_new P adnl secret o) ops in
    let s := store_run P get check (then_check d key all) evs in
    ps_is_full (d_known (sk_dht s)) = false -> lookup_of s = Some l ->
    List.NoDup (vs_asked (lk_stream l))
    /\ (forall p, In p (vs_asked (lk_stream l)) -> In p (ps_members (d_known (sk_dht s))))
    /\ (decided s = Some (Ok false) -> Permutation (map fst (vs_done (lk_stream l))) (vs_asked (lk_stream l))
                                       /\ sk_seen s = values_of (vs_done (lk_stream l))).
  Proof.
    intros adnl secret o ops key all evs l He d s Hf Hlk.
    assert (H0 : store_lookup_ok (then_check d key all)) by (split; [apply known_reps|discriminate]).
    destruct (store_run_lookup evs _ He H0 Hf) as [_ Hl]. fold s in Hl. specialize (Hl l Hlk). destruct Hl as [H1 H2 H3 H4 H5 H6].
    unfold peers_seen in *. split; [|split].
    - revert H4. clear. induction (vs_asked (lk_stream l)) as [|x a IH]; [constructor|]. cbn [app]. intros H. apply List.NoDup_cons_iff in H as [H1 H2].
      constructor; [|now apply IH]. intros Hx. apply H1, in_or_app. now left.
    - intros p Hp. rewrite <- (firstn_skipn (pi_index (lk_iter l)) (ps_members (d_known (sk_dht s)))). apply in_or_app. left. apply H5, in_or_app. now left.
    - intros Hd. pose proof (store_run_ok evs _ (then_check_ok d key all)) as Hok. fold s in Hok. unfold store_ok in Hok. unfold decided, lookup_of in *.
      destruct (sk_stage s) as [|fl|l0|r l0]; try discriminate. injection Hd as ->. injection Hlk as ->. destruct Hok as (_ & _ & Hs & Hv).
      cbn [verdict] in Hv. destruct H2 as (_ & _ & Hp & Hy). split; [rewrite Hp, (proj2 (H6 (proj2 Hv))); reflexivity|]. rewrite Hs. exact Hy.
  Qed.

  Theorem seen_replied : forall d key all evs v,
    In v (sk_seen (store_run P get check (then_check d key all) evs)) -> exists ev, In ev evs /\ replied_with P get v ev.
  Proof.
    intros d key all evs v. assert (H : forall evs s, store_ok s -> In v (sk_seen (store_run P get check s evs)) ->
      In v (sk_seen s) \/ exists ev, In ev evs /\ replied_with P get v ev).
    { clear. unfold store_run. induction evs as [|ev evs IH]; intros s Hok Hin; [now left|]. cbn [fold_left] in Hin.
      destruct (IH _ (store_step_ok s ev Hok) Hin) as [H|(ev' & H1 & H2)]; [|right; exists ev'; split; [now right|exact H2]].
      revert H. unfold store_step. unfold store_ok in Hok. destruct ev as [op| |i o|sort|i e sort now fresh], (sk_stage s) as [|fl|l|r l] eqn:Es; try (intros H; now left).
      - destruct (nth_error fl i); intros H; now left.
      - destruct fl; intros H; now left.
      - destruct Hok as (_ & Hst & _). pose proof (ends_yields sort now fresh (sk_dht s) l i e Hst) as Hy. cbv zeta in Hy.
        destruct (lookup_ends P get sort now fresh (sk_dht s) l i e) as [d l']. cbn [snd] in Hy. cbv zeta. destruct Hy as [Hy|(w & reply & Hy & He & Hg & _)].
        + rewrite Hy, skipn_all. cbn [sk_seen]. intros H; now left.
        + rewrite Hy, skipn_app, skipn_all, Nat.sub_diag. cbn [skipn app sk_seen]. intros H. apply in_app_or in H as [H|[->|[]]]; [now left|].
          right. eexists. split; [now left|]. subst e. cbn [replied_with]. exact Hg. }
    intros Hin. destruct (H evs _ (then_check_ok d key all) Hin) as [[]|H']; exact H'.
  Qed.

  (** A reply with a value that passes decides. *)
  Theorem found_decides : forall s l i reply sort now fresh v,
    sk_stage s = Looking l -> vs_ended (lk_stream l) = false -> vs_flying (stream_refill (lk_stream l)) <> [] ->
    (forall d now fresh, fst (parse_value_result P get d now fresh reply) = Ok (Some v)) ->
    let s' := store_step P get check s (SkFound i (Replied reply) sort now fresh) in
    sk_seen s' = sk_seen s ++ [v]
    /\ match check (sk_seen s) v with Ok false => decided s' = None | r => decided s' = Some r end.
  Proof.
    intros s l i reply sort now fresh v Hs Ee Hfl Hv. cbv zeta. unfold store_step. rewrite Hs.
    destruct (vs_flying (stream_refill (lk_stream l))) as [|p0 fl] eqn:Ef; [contradiction|].
    assert (Hy : vs_yielded (stream_refill (lk_stream l)) = vs_yielded (lk_stream l)).
    { unfold stream_refill. destruct (_ <? _)%nat; [|reflexivity]. now destruct (refill _ _ _ _) as [[[? ?] ?] ?]. }
    destruct (ends_cases P get sort now fresh (sk_dht s) l i (Replied reply) p0 fl Ef) as (d1 & value & it & ver & fill & Hend & _ & Hv1 & _).
    rewrite Hend. cbv zeta. destruct (Hv1 reply eq_refl) as (d0 & _ & Hx). specialize (proj2 (Hx v) (Hv d0 now fresh)) as Hval. subst value.
    cbn [lk_stream]. unfold stream_step. rewrite Ee. cbv zeta. rewrite Ef. cbn [vs_yielded]. rewrite Hy, skipn_app, skipn_all, Nat.sub_diag. cbn [skipn app].
    cbn [sk_seen]. split; [reflexivity|]. unfold decided. cbn [sk_stage]. destruct (check (sk_seen s) v) as [[|]|e]; reflexivity.
  Qed.

  (** Enough ends of queries decide. *)
  Lemma decided_stays : forall evs s r l, sk_stage s = Decided r l -> sk_stage (store_run P get check s evs) = Decided r l.
  Proof.
    unfold store_run. induction evs as [|ev evs IH]; intros s r l H; [exact H|]. cbn [fold_left]. apply IH.
    unfold store_step. destruct ev; rewrite ?H; first [exact H|reflexivity].
  Qed.
  Lemma looking_done : forall evs s l, store_ok s -> sk_stage s = Looking l ->
    (exists r, decided (store_run P get check s evs) = Some r)
    \/ exists l', sk_stage (store_run P get check s evs) = Looking l'
       /\ length (vs_done (lk_stream l')) = (length (vs_done (lk_stream l)) + found_count evs)%nat.
  Proof.
    unfold store_run, found_count. induction evs as [|ev evs IH]; intros s l Hok Hs; [right; exists l; split; [exact Hs|cbn; lia]|]. cbn [fold_left List.filter].
    pose proof (store_step_ok s ev Hok) as Hok'.
    destruct ev as [op| |i o|sort|i e sort now fresh].
    - apply IH; [exact Hok'|]. cbn [store_step]. cbn [sk_stage]. exact Hs.
    - apply IH; [exact Hok'|]. cbn [store_step]. rewrite Hs. exact Hs.
    - apply IH; [exact Hok'|]. cbn [store_step]. rewrite Hs. exact Hs.
    - apply IH; [exact Hok'|]. cbn [store_step]. rewrite Hs. exact Hs.
    - unfold store_ok in Hok. rewrite Hs in Hok. destruct Hok as (_ & Hst & _).
      pose proof (ends_done P get sort now fresh (sk_dht s) l i e Hst) as Hd. pose proof (ends_yields sort now fresh (sk_dht s) l i e Hst) as Hy. cbv zeta in Hd, Hy.
      assert (Hcase : (exists r l', sk_stage (store_step P get check s (SkFound i e sort now fresh)) = Decided r l')
        \/ exists l', sk_stage (store_step P get check s (SkFound i e sort now fresh)) = Looking l' /\ length (vs_done (lk_stream l')) = S (length (vs_done (lk_stream l)))).
      { cbn [store_step]. rewrite Hs. destruct (lookup_ends P get sort now fresh (sk_dht s) l i e) as [d l']. cbn [snd] in *. cbv zeta.
        destruct Hy as [Hy|(v & reply & Hy & _ & _ & Hend)].
        - rewrite Hy, skipn_all. cbn [sk_stage]. destruct (vs_ended (lk_stream l')) eqn:Ee; [left; eauto|]. right. exists l'. split; [reflexivity|]. now apply Hd.
        - rewrite Hy, skipn_app, skipn_all, Nat.sub_diag. cbn [skipn app sk_stage]. destruct (check (sk_seen s) v) as [[|]|err]; [left; eauto| |left; eauto].
          right. exists l'. split; [reflexivity|]. now apply Hd. }
      destruct Hcase as [(r & l' & Hc)|(l' & Hc & Hlen)].
      + left. exists r. unfold decided. pose proof (decided_stays evs _ r l' Hc) as Hst'. unfold store_run in Hst'. now rewrite Hst'.
      + destruct (IH _ l' Hok' Hc) as [H|(l'' & H1 & H2)]; [now left|]. right. exists l''. split; [exact H1|]. rewrite H2, Hlen. cbn [length]. lia.
  Qed.
  Theorem store_ends : forall adnl secret o ops key all evs more,
    Forall store_event_ok (evs ++ more) ->
    let d := dht_run P (dht_new P adnl secret o) ops in
    let s := store_run P get check (then_check d key all) (evs ++ more) in
    looking_or_decided (store_run P get check (then_check d key all) evs) ->
    ps_is_full (d_known (sk_dht s)) = false ->
    (length (ps_members (d_known (sk_dht s))) < found_count more)%nat ->
    exists r, decided s = Some r.
  Proof.
    intros adnl secret o ops key all evs more He d s Hs Hf Hlen.
    set (s1 := store_run P get check (then_check d key all) evs) in *.
    assert (Hs1 : s = store_run P get check s1 more) by (unfold s, s1, store_run; apply fold_left_app).
    pose proof (store_run_ok evs _ (then_check_ok d key all)) as Hok. fold s1 in Hok.
    unfold looking_or_decided in Hs. destruct (sk_stage s1) as [|fl|l|r l] eqn:Es; [destruct Hs|destruct Hs| |].
    - destruct (looking_done more s1 l Hok Es) as [H|(l' & H1 & H2)]; [rewrite Hs1; exact H|exfalso].
      rewrite <- Hs1 in H1.
      assert (Hlk : lookup_of s = Some l') by (unfold lookup_of; now rewrite H1).
      destruct (store_asks adnl secret o ops key all (evs ++ more) l' He Hf Hlk) as (N1 & N2 & _). fold d in N2. fold s in N2.
      pose proof (List.NoDup_incl_length N1 N2) as Hl.
      pose proof (store_run_ok (evs ++ more) _ (then_check_ok d key all)) as Hok2. fold s in Hok2. unfold store_ok in Hok2. rewrite H1 in Hok2.
      destruct Hok2 as (_ & (_ & _ & Hp & _) & _). apply Permutation_length in Hp. rewrite app_length, map_length in Hp. lia.
    - exists r. rewrite Hs1. unfold decided. now rewrite (decided_stays more s1 r l Es).
  Qed.

  (** [check_all] has no effect. *)
  Theorem check_all_ignored : forall d key evs,
    let s := store_run P get check (then_check d key true) evs in
    let s' := store_run P get check (then_check d key false) evs in
    sk_stage s = sk_stage s' /\ sk_seen s = sk_seen s' /\ sk_told s = sk_told s' /\ sk_dht s = sk_dht s'.
  Proof.
    intros d key evs. cbv zeta.
    assert (H : forall evs s s', sk_stage s = sk_stage s' /\ sk_seen s = sk_seen s' /\ sk_told s = sk_told s' /\ sk_dht s = sk_dht s' /\ sk_key s = sk_key s' ->
      let t := store_run P get check s evs in let t' := store_run P get check s' evs in
      sk_stage t = sk_stage t' /\ sk_seen t = sk_seen t' /\ sk_told t = sk_told t' /\ sk_dht t = sk_dht t').
    { clear. unfold store_run. induction evs as [|ev evs IH]; intros s s' (H1 & H2 & H3 & H4 & H5); [cbn; auto|]. cbn [fold_left]. apply IH.
      unfold store_step. rewrite <- H1, <- H2, <- H3, <- H4, <- H5. destruct ev as [op| |i o|sort|i e sort now fresh], (sk_stage s) as [|fl|l|r l] eqn:Es; cbn [sk_stage sk_seen sk_told sk_dht sk_key]; auto 9.
      - rewrite Es, <- H1. auto 9.
      - rewrite Es, <- H1. auto 9.
      - rewrite Es, <- H1. auto 9.
      - rewrite Es, <- H1. auto 9.
      - destruct (nth_error fl i); cbn [sk_stage sk_seen sk_told sk_dht sk_key]; auto 9. rewrite Es, <- H1. auto 9.
      - rewrite Es, <- H1. auto 9.
      - rewrite Es, <- H1. auto 9.
      - rewrite Es, <- H1. auto 9.
      - destruct fl; cbn [sk_stage sk_seen sk_told sk_dht sk_key]; auto 9. rewrite Es, <- H1. auto 9.
      - rewrite Es, <- H1. auto 9.
      - rewrite Es, <- H1. auto 9.
      - rewrite Es, <- H1. auto 9.
      - rewrite Es, <- H1. auto 9.
      - destruct (lookup_ends P get sort now fresh (sk_dht s) l i e) as [d l']. cbv zeta. destruct (skipn _ _); cbn [sk_stage sk_seen sk_told sk_dht sk_key]; auto 9.
      - rewrite Es, <- H1. auto 9. }
    apply H. auto 9.
  Qed.
End Store.

(** ** Storing and finding *)
Section Kept.
  Context (P : prims) (HP : prims_ok P).

  Theorem local_store : forall e d secret name idx data ttl,
    let id := short_id P (pub_of P secret) in
    let v := sign_entry P secret id name idx data ttl in
    let key := sha256 P (put_dht_key_boxed (mk_dht_key id name idx)) in
    let opts := d_opts d in
    qe_now e < ttl -> N.of_nat (length name) <= so_name_len (do_storage opts) -> idx <= so_index (do_storage opts) ->
    (forall old, d_storage d !! key = Some old -> dv_ttl old < ttl) ->
    exists d', store_new P e d v = (Ok (put_dht_query (DqStore v)), d')
      /\ forall now, now < ttl -> storage_get (d_storage d') key now = Some v.
  Proof.
    intros e d secret name idx data ttl id v key opts Ht Hn Hi Hold. unfold store_new.
    pose proof (sign_entry_inserted P HP (do_storage opts) (qe_node_order e) (d_storage d) (qe_now e) (qe_now2 e) secret name idx data ttl Ht Hn Hi Hold) as Hins.
    cbv zeta in Hins. fold id v opts in Hins. fold opts. rewrite Hins. eexists. split; [reflexivity|]. intros now Hnow.
    unfold storage_get. cbn [set_storage d_storage]. change (storage_key P _) with key. rewrite lookup_insert. change (dv_ttl v) with ttl. destruct (N.ltb_spec now ttl); [reflexivity|lia].
  Qed.

  Theorem stored_is_found : forall T E (get : parser T) (x : T) (check : list (key_description * T) -> key_description * T -> res E bool)
    server e secret name idx data ttl,
    let id := short_id P (pub_of P secret) in
    let v := sign_entry P secret id name idx data ttl in
    let key := sha256 P (put_dht_key_boxed (mk_dht_key id name idx)) in
    let opts := d_opts server in
    entry_ok name idx data ttl -> qe_now e < ttl ->
    N.of_nat (length name) <= so_name_len (do_storage opts) -> idx <= so_index (do_storage opts) ->
    (forall old, d_storage server !! key = Some old -> dv_ttl old < ttl) ->
    6 <= do_max_allowed_k opts -> deserialize get data = Some x ->
    exists server', dht_receive P e server (put_dht_query (DqStore v)) = (Ok (Some put_dht_stored), server')
      /\ forall e', qe_now e' < ttl ->
         exists reply, dht_receive P e' server' (lookup_query key) = (Ok (Some reply), server')
           /\ forall (s : store_check T E) l i sort now fresh, sk_stage s = Looking l ->
              vs_ended (lk_stream l) = false -> vs_flying (stream_refill (lk_stream l)) <> [] ->
              check (sk_seen s) (dv_key v, x) = Ok true ->
              decided (store_step P get check s (SkFound i (Replied reply) sort now fresh)) = Some (Ok true).
  Proof.
    intros T E get x check server e secret name idx data ttl id v key opts Hok Ht Hn Hi Hold Hk Hx.
    destruct (published_found P HP T get x server e [] secret name idx data ttl Hok Ht Hn Hi Hold) as (server' & H1 & H2).
    rewrite app_nil_r in H1. exists server'. split; [exact H1|]. intros e' Ht'.
    destruct (H2 e' 6 [] Ht') as (reply & R1 & R2); [split; [reflexivity|exact Hk]|reflexivity|].
    rewrite app_nil_r in R1. exists reply. split; [exact R1|]. intros s l i sort now fresh Hs He Hf Hc.
    destruct (found_decides P get check s l i reply sort now fresh (dv_key v, x) Hs He Hf) as [_ Hd].
    { intros d now' fresh'. fold id v in R2. rewrite (R2 d now' fresh' Hx). reflexivity. }
    rewrite Hc in Hd. exact Hd.
  Qed.
End Kept.

Theorem small_limit_refuses : forall P server e key, hash_ok key -> do_max_allowed_k (d_opts server) < 6 ->
  dht_receive P e server (lookup_query key) = (Err InvalidNodeCountLimit, server).
Proof.
  intros P server e key Hk Hlt. unfold lookup_query. rewrite <- (app_nil_r (put_dht_query _)). rewrite receive_find_value by (exact Hk || reflexivity).
  unfold process_find_value. change (6 =? 0) with false. destruct (N.ltb_spec (do_max_allowed_k (d_opts server)) 6); [reflexivity|lia].
Qed.

(** One unsigned answer decides the publication of an address. *)
Lemma unsigned_list : forall P peer_id key l, hash_ok peer_id -> hash_ok key -> address_list_ok l ->
  let v := mk_dht_value (mk_key_description (mk_dht_key peer_id key_address 0) (PkEd25519 key) UrAnybody []) (put_address_list_boxed l) 0 [] in
  forall d now fresh, fst (parse_value_result P get_address_list_boxed d now fresh (put_value_result (VrFound v))) = Ok (Some (dv_key v, l)).
Proof.
  intros P peer_id key l Hp Hk Hl v d now fresh. unfold parse_value_result. rewrite <- (app_nil_r (put_value_result _)), find_value_reply.
  - change (kd_rule (dv_key v)) with UrAnybody. cbv iota. change (dv_value v) with (put_address_list_boxed l).
    assert (Hd : deserialize get_address_list_boxed (put_address_list_boxed l) = Some l)
      by (unfold deserialize; rewrite <- (app_nil_r (put_address_list_boxed l)); now rewrite address_list_boxed_reads).
    now rewrite Hd.
  - unfold v, dht_value_ok, key_description_ok, dht_key_ok, u32_ok. cbn [dv_key kd_key dk_id dk_name dk_idx kd_id kd_signature dv_value dv_ttl dv_signature].
    repeat split; try assumption; try reflexivity. apply blob_small. pose proof (address_list_length l). lia.
Qed.
Theorem unsigned_decides : forall P peer_id key tolerance clock addr, hash_ok peer_id -> hash_ok key -> addr_ok addr ->
  forall answer, answer = Ok true \/ answer = Err ListIsEmpty ->
  exists v, kd_key (dv_key v) = mk_dht_key peer_id key_address 0 /\ kd_signature (dv_key v) = [] /\ dv_signature v = []
  /\ forall (s : store_check address_list address_list_error) l i sort now fresh, sk_stage s = Looking l ->
     vs_ended (lk_stream l) = false -> vs_flying (stream_refill (lk_stream l)) <> [] ->
     decided (store_step P get_address_list_boxed (address_check tolerance clock addr) s
       (SkFound i (Replied (put_value_result (VrFound v))) sort now fresh)) = Some answer.
Proof.
  intros P peer_id key tolerance clock addr Hp Hk Ha answer Hans.
  set (al := match answer with Ok _ => mk_address_list (Some (address_of addr)) 0 0 0 | Err _ => mk_address_list None 0 0 0 end).
  assert (Hal : address_list_ok al).
  { destruct Hans as [->| ->]; unfold al; [now apply address_list_of|]. unfold address_list_ok, u32_ok. cbn. repeat split. }
  assert (Hc : forall seen desc, address_check tolerance clock addr seen (desc, al) = answer).
  { intros seen desc. unfold address_check, al. cbn [snd]. destruct Hans as [->| ->]; [|reflexivity].
    rewrite parse_own_list by (exact Ha || lia). unfold sockaddr_eqb. now rewrite !N.eqb_refl. }
  exists (mk_dht_value (mk_key_description (mk_dht_key peer_id key_address 0) (PkEd25519 key) UrAnybody []) (put_address_list_boxed al) 0 []).
  repeat (split; [reflexivity|]). intros s l i sort now fresh Hs He Hf.
  destruct (found_decides P get_address_list_boxed (address_check tolerance clock addr) s l i _ sort now fresh _ Hs He Hf
    (unsigned_list P peer_id key al Hp Hk Hal)) as [_ Hd].
  rewrite Hc in Hd. destruct Hans as [->| ->]; exact Hd.
Qed.

(** ** Discovery *)
Section Discovery.
  Context (P : prims).
  Local Notation c := (Nat.max 1 (N.to_nat max_dht_peers)).

  Lemma offered_run : forall l d count, a_run P d (snd (add_offered P d count l)).
  Proof.
    induction l as [|x l IH]; intros d count; [apply a_run_refl|]. cbn [add_offered].
    pose proof (a_run_op P d (DAddPeer (of_now x) (of_fresh x) (of_node x))) as H. cbn [dht_step] in H.
    destruct (add_dht_peer P d (of_now x) (of_fresh x) (of_node x)) as [[new|e] d']; cbn [snd] in *; [|exact H].
    eapply a_run_trans; [exact H|apply IH].
  Qed.
  Lemma discovery_step_run : forall s ev, a_run P (dc_dht s) (dc_dht (discovery_step P s ev)).
  Proof.
    intros s [op|i r]; cbn [discovery_step dc_dht]; [apply a_run_op|].
    destruct (dc_result s); [apply a_run_refl|]. destruct (nth_error (dc_flying s) i) as [p|]; [|apply a_run_refl]. cbv zeta.
    set (l := match r with Ok l => l | Err _ => [] end). set (o := match r with Ok _ => Answered | Err _ => Failed end).
    pose proof (offered_run l (after_query (dc_dht s) p o) (dc_count s)) as H.
    destruct (add_offered P (after_query (dc_dht s) p o) (dc_count s) l) as [[n|e] d]; cbn [snd dc_dht] in *;
      (eapply a_run_trans; [exact (a_run_op P (dc_dht s) (DQueryEnds p o))|exact H]).
  Qed.
  Theorem discovery_history : forall evs s, a_run P (dc_dht s) (dc_dht (discovery_run P s evs)).
  Proof.
    unfold discovery_run. induction evs as [|ev evs IH]; intros s; [apply a_run_refl|]. cbn [fold_left].
    eapply a_run_trans; [apply discovery_step_run|apply IH].
  Qed.

  (** Every peer is asked once; all have ended when there is a count. *)
  Definition discovery_ok (d0 : dht) (s : discovery) : Prop :=
    dc_asked s = ps_members (d_known d0)
    /\ match dc_result s with
       | None => Permutation (dc_asked s) (dc_flying s ++ dc_ended s) /\ dc_flying s <> []
       | Some (Ok n) => Permutation (dc_asked s) (dc_ended s) /\ n = dc_count s
       | Some (Err _) => exists rest, Permutation (dc_asked s) (rest ++ dc_ended s)
       end.
  Lemma discovery_step_ok : forall d0 s ev, discovery_ok d0 s -> discovery_ok d0 (discovery_step P s ev).
  Proof.
    intros d0 s [op|i r] [H1 H2]; cbn [discovery_step]; [split; [exact H1|exact H2]|].
    destruct (dc_result s) as [res|] eqn:Er; [split; [exact H1|now rewrite Er]|].
    destruct (nth_error (dc_flying s) i) as [p|] eqn:En; [|split; [exact H1|now rewrite Er]]. cbv zeta.
    destruct H2 as [H2 _].
    assert (Hp : Permutation (dc_asked s) (remove_nth i (dc_flying s) ++ dc_ended s ++ [p])).
    { rewrite H2. eapply Permutation_trans; [apply Permutation_app_tail, (nth_error_split_remove _ _ _ En)|].
      cbn [app]. rewrite app_assoc. apply Permutation_cons_append. }
    destruct (add_offered P _ _ _) as [[n|e] d]; (split; [exact H1|]); cbn [dc_result dc_asked dc_flying dc_ended dc_count].
    - destruct (remove_nth i (dc_flying s)) as [|q fl] eqn:Ef; [split; [exact Hp|reflexivity]|split; [exact Hp|discriminate]].
    - eexists. exact Hp.
  Qed.
  Lemma discovery_start_ok : forall d, discovery_ok d (discovery_start d).
  Proof.
    intros d. unfold discovery_start. cbv zeta. split; [reflexivity|]. cbn [dc_result dc_asked dc_flying dc_ended dc_count].
    destruct (ps_members (d_known d)) as [|p r]; [split; [constructor|reflexivity]|]. rewrite app_nil_r. split; [reflexivity|discriminate].
  Qed.
  Lemma discovery_run_ok : forall d0 evs s, discovery_ok d0 s -> discovery_ok d0 (discovery_run P s evs).
  Proof. intros d0. unfold discovery_run. induction evs as [|ev evs IH]; intros s H; [exact H|]. cbn [fold_left]. now apply IH, discovery_step_ok. Qed.

  Theorem discovery_asks : forall adnl secret o ops evs,
    let d := dht_run P (dht_new P adnl secret o) ops in
    let s := discovery_run P (discovery_start d) evs in
    dc_asked s = ps_members (d_known d) /\ List.NoDup (dc_asked s)
    /\ (exists rest, Permutation (dc_asked s) (rest ++ dc_ended s))
    /\ (forall n, dc_result s = Some (Ok n) -> Permutation (dc_ended s) (dc_asked s))
    /\ (dc_result s = None -> dc_flying s <> []).
  Proof.
    intros adnl secret o ops evs d s. destruct (discovery_run_ok d evs _ (discovery_start_ok d)) as [H1 H2]. fold s in H1, H2.
    split; [exact H1|]. split; [rewrite H1; apply members_once|]. split; [|split].
    - destruct (dc_result s) as [[n|e]|]; [exists []; apply H2|exact H2|]. eexists. apply H2.
    - intros n Hn. rewrite Hn in H2. symmetry. apply H2.
    - intros Hn. rewrite Hn in H2. apply H2.
  Qed.

  (** Records of answers are added. *)
  Definition taken_in (d : dht) (x : offered) (d' : dht) : Prop :=
    exists d1 new, a_run P d d1 /\ fst (add_dht_peer P d1 (of_now x) (of_fresh x) (of_node x)) = Ok new
      /\ a_run P (snd (add_dht_peer P d1 (of_now x) (of_fresh x) (of_node x))) d'.
  Lemma offered_taken : forall l d count n, fst (add_offered P d count l) = Ok n ->
    forall x, In x l -> taken_in d x (snd (add_offered P d count l)).
  Proof.
    induction l as [|y l IH]; intros d count n Hok x Hx; [destruct Hx|]. cbn [add_offered] in *.
    pose proof (a_run_op P d (DAddPeer (of_now y) (of_fresh y) (of_node y))) as Hr. cbn [dht_step] in Hr.
    destruct (add_dht_peer P d (of_now y) (of_fresh y) (of_node y)) as [[new|e] d'] eqn:Ea; [|discriminate]. cbn [snd] in Hr.
    destruct Hx as [->|Hx].
    - exists d, new. split; [apply a_run_refl|]. rewrite Ea. split; [reflexivity|]. apply offered_run.
    - destruct (IH _ _ _ Hok x Hx) as (d1 & new' & H1 & H2 & H3). exists d1, new'. split; [eapply a_run_trans; eassumption|]. auto.
  Qed.
  Lemma result_stays : forall evs s r, dc_result s = Some r -> dc_result (discovery_run P s evs) = Some r.
  Proof.
    unfold discovery_run. induction evs as [|ev evs IH]; intros s r H; [exact H|]. cbn [fold_left]. apply IH.
    destruct ev as [op|i x]; cbn [discovery_step]; [exact H|]. now rewrite H.
  Qed.
  Theorem discovery_takes : forall evs s n, dc_result (discovery_run P s evs) = Some (Ok n) \/ dc_result (discovery_run P s evs) = None ->
    forall x, In x (answers_of P s evs) -> taken_in (dc_dht s) x (dc_dht (discovery_run P s evs)).
  Proof.
    unfold discovery_run. induction evs as [|ev evs IH]; intros s n Hr x Hx; [destruct Hx|]. cbn [fold_left answers_of] in *.
    apply in_app_or in Hx as [Hx|Hx].
    - destruct ev as [op|i [l|u]]; [destruct Hx| |destruct (dc_result s); destruct Hx].
      destruct (dc_result s) as [r|] eqn:Er; [destruct Hx|]. destruct (nth_error (dc_flying s) i) as [p|] eqn:En; [|destruct Hx].
      pose proof (discovery_history evs (discovery_step P s (DcEnds i (Ok l)))) as Hh. unfold discovery_run in Hh.
      pose proof (result_stays evs (discovery_step P s (DcEnds i (Ok l)))) as Hst. unfold discovery_run in Hst.
      set (fin := fold_left (discovery_step P) evs (discovery_step P s (DcEnds i (Ok l)))) in *. clearbody fin.
      revert Hh Hst. cbn [discovery_step]. rewrite Er, En. cbv zeta.
      pose proof (offered_taken l (after_query (dc_dht s) p Answered) (dc_count s)) as Ht.
      destruct (add_offered P (after_query (dc_dht s) p Answered) (dc_count s) l) as [[m|e] d]; cbn [fst snd] in Ht; cbn [dc_dht dc_result]; intros Hh Hst.
      + destruct (Ht m eq_refl x Hx) as (d1 & new & T1 & T2 & T3). exists d1, new.
        split; [eapply a_run_trans; [exact (a_run_op P (dc_dht s) (DQueryEnds p Answered))|exact T1]|]. split; [exact T2|]. eapply a_run_trans; eassumption.
      + specialize (Hst _ eq_refl). destruct Hr as [Hr|Hr]; congruence.
    - destruct (IH _ n Hr x Hx) as (d1 & new & T1 & T2 & T3). exists d1, new. split; [eapply a_run_trans; [apply discovery_step_run|exact T1]|]. auto.
  Qed.

  Lemma members_stay : forall adnl secret o ops d2 p, let d := dht_run P (dht_new P adnl secret o) ops in
    a_run P d d2 -> ps_is_full (d_known d2) = false -> In p (ps_members (d_known d)) -> In p (ps_members (d_known d2)).
  Proof.
    intros adnl secret o ops d2 p d Hr Hf Hp. destruct (a_run_grown P _ _ Hr) as [ids Hg]. destruct (known_reps P adnl secret o ops) as [q Hq]. fold d in Hq.
    rewrite Hg in *. destruct (appended _ ids _ q Hq Hf) as [more Hm]. unfold ps_members in *. rewrite Hm. apply in_or_app. now left.
  Qed.
  Lemma contains_member : forall s q p, PeersSetFacts.reps c s q -> ps_contains s p = true -> In p (ps_members s).
  Proof.
    intros s q p Hr Hc. unfold ps_contains in Hc. destruct (ps_cache s !! p) as [i|] eqn:Ei; [|discriminate].
    apply (PeersSetFacts.rep_cache _ _ _ Hr) in Ei. now apply nth_error_In in Ei.
  Qed.
  Lemma added_known : forall d now fresh n id d', add_dht_peer P d now fresh n = (Ok (Some id), d') ->
    id = node_id_of P n /\ d_known d' = snd (ps_insert (d_known d) id).
  Proof.
    intros d now fresh n id d'. unfold add_dht_peer. destruct (full_id P (dn_id n)) as [key|e] eqn:Ek; [|discriminate].
    destruct (verify_full _ _ _ _); [|discriminate]. cbn [negb]. cbv zeta. destruct (parse_address_list _ _ _) as [addr|e]; [|discriminate].
    destruct (add_peer _ _ _ _ _ _ _) as [[[|]|e] adnl]; [|discriminate|discriminate]. cbn [set_adnl d_known].
    destruct (ps_insert (d_known d) (short_id P key)) as [ins known] eqn:Ei. intros H. injection H as <- <-.
    apply DhtStorageFacts.full_id_ok in Ek as [Ek _]. split; [unfold node_id_of; now rewrite Ek|]. rewrite Ei. cbn [snd]. now destruct ins.
  Qed.

  (** Each record was added to a state of the history, and the node is known from then on. *)
  Theorem discovery_adds : forall adnl secret o ops evs,
    let d := dht_run P (dht_new P adnl secret o) ops in
    let s := discovery_run P (discovery_start d) evs in
    (exists n, dc_result s = Some (Ok n)) \/ dc_result s = None ->
    ps_is_full (d_known (dc_dht s)) = false ->
    forall x, In x (answers_of P (discovery_start d) evs) ->
    exists ops' new, let now := dht_run P (dht_new P adnl secret o) ops' in
      fst (add_dht_peer P now (of_now x) (of_fresh x) (of_node x)) = Ok new
      /\ (forall id, new = Some id -> id = node_id_of P (of_node x) /\ In id (ps_members (d_known (dc_dht s)))).
  Proof.
    intros adnl secret o ops evs d s Hres Hf x Hx.
    assert (Hr : exists n, dc_result s = Some (Ok n) \/ dc_result s = None) by (destruct Hres as [[n Hn]|Hn]; [exists n; now left|exists 0; now right]).
    destruct Hr as [n Hr]. destruct (discovery_takes evs (discovery_start d) n Hr x Hx) as (d1 & new & [ops1 H1] & H2 & H3). fold s in H3.
    exists (ops ++ ops1), new. cbv zeta. assert (Hd1 : dht_run P (dht_new P adnl secret o) (ops ++ ops1) = d1).
    { rewrite run_app. rewrite H1. reflexivity. }
    rewrite Hd1. split; [exact H2|]. intros id Hid. subst new.
    destruct (add_dht_peer P d1 (of_now x) (of_fresh x) (of_node x)) as [r d2] eqn:Ea. cbn [fst snd] in *. subst r.
    destruct (added_known _ _ _ _ _ _ Ea) as [-> Hk]. split; [reflexivity|].
    assert (Hd2 : d2 = dht_run P (dht_new P adnl secret o) ((ops ++ ops1) ++ [DAddPeer (of_now x) (of_fresh x) (of_node x)])).
    { rewrite run_app, Hd1. unfold dht_run. cbn [fold_left dht_step]. now rewrite Ea. }
    rewrite Hd2 in H3. refine (members_stay adnl secret o _ (dc_dht s) _ H3 Hf _). rewrite <- Hd2.
    destruct (known_reps P adnl secret o (ops ++ ops1)) as [q Hq]. rewrite Hd1 in Hq.
    destruct (PeersSetFacts.insert_reps c (d_known d1) q (node_id_of P (of_node x)) Hq) as (_ & Hr' & _).
    rewrite Hk. eapply contains_member; [exact Hr'|].
    pose proof (life_insert P adnl secret o (ops ++ ops1) (node_id_of P (of_node x))) as Hli. rewrite Hd1 in Hli. exact Hli.
  Qed.

  (** A record with a key of another kind ends the discovery: later answers are lost. *)
  Lemma bad_offered : forall before bad after d count e, full_id P (dn_id (of_node bad)) = Err e ->
    exists err, fst (add_offered P d count (before ++ bad :: after)) = Err err.
  Proof.
    induction before as [|x l IH]; intros bad after d count e H; cbn [app add_offered].
    - unfold add_dht_peer. rewrite H. eauto.
    - destruct (add_dht_peer P d (of_now x) (of_fresh x) (of_node x)) as [[new|err] d']; [eapply IH; exact H|eauto].
  Qed.
  Theorem discovery_aborts : forall s i p before bad after e later,
    dc_result s = None -> nth_error (dc_flying s) i = Some p -> full_id P (dn_id (of_node bad)) = Err e ->
    let s1 := discovery_step P s (DcEnds i (Ok (before ++ bad :: after))) in
    let s2 := discovery_run P s1 later in
    (exists err, dc_result s2 = Some (Err err)) /\ dc_dht s2 = dht_run P (dc_dht s1) (other_ops_of later).
  Proof.
    intros s i p before bad after e later Hr Hn Hb s1 s2.
    assert (Hs1 : exists err, dc_result s1 = Some (Err err)).
    { subst s1. cbn [discovery_step]. rewrite Hr, Hn. cbv zeta.
      destruct (bad_offered before bad after (after_query (dc_dht s) p Answered) (dc_count s) e Hb) as [err He].
      destruct (add_offered P _ _ _) as [[m|e'] d]; cbn [fst] in He; [discriminate|]. cbn [dc_result]. eauto. }
    destruct Hs1 as [err Hs1]. split; [exists err; now apply result_stays|]. subst s2. clearbody s1. clear - Hs1.
    unfold discovery_run, dht_run, other_ops_of. revert s1 Hs1. induction later as [|ev later IH]; intros s1 Hs1; [reflexivity|]. cbn [fold_left flat_map].
    destruct ev as [op|i r]; cbn [discovery_step app].
    - cbn [fold_left]. rewrite IH; [reflexivity|exact Hs1].
    - rewrite Hs1. now apply IH.
  Qed.

  Lemma discovery_step_is : forall s i r p, dc_result s = None -> nth_error (dc_flying s) i = Some p ->
    discovery_step P s (DcEnds i r) =
    match add_offered P (after_query (dc_dht s) p (match r with Ok _ => Answered | Err _ => Failed end)) (dc_count s)
            (match r with Ok l => l | Err _ => [] end) with
    | (Ok count, d) => mk_discovery d (dc_asked s) (dc_ended s ++ [p]) (remove_nth i (dc_flying s)) count
        (match remove_nth i (dc_flying s) with [] => Some (Ok count) | _ => None end)
    | (Err e, d) => mk_discovery d (dc_asked s) (dc_ended s ++ [p]) [] (dc_count s) (Some (Err e))
    end.
  Proof. intros s i r p H1 H2. cbn [discovery_step]. now rewrite H1, H2. Qed.
  Lemma no_answers : forall evs s, (exists r, dc_result s = Some r) -> answers_of P s evs = [].
  Proof.
    induction evs as [|ev evs IH]; intros s [r Hr]; [reflexivity|]. cbn [answers_of]. rewrite Hr.
    rewrite IH.
    - destruct ev as [op|i [l|u]]; reflexivity.
    - exists r. destruct ev as [op|i x]; cbn [discovery_step dc_result]; [exact Hr|]. now rewrite Hr.
  Qed.
  Lemma decided_ops : forall evs s, (exists r, dc_result s = Some r) ->
    dc_dht (discovery_run P s evs) = dht_run P (dc_dht s) (other_ops_of evs).
  Proof.
    unfold discovery_run. induction evs as [|ev evs IH]; intros s [r Hr]; [reflexivity|]. cbn [fold_left].
    rewrite IH; [|exists r; destruct ev as [op|i x]; cbn [discovery_step dc_result]; [exact Hr|now rewrite Hr]].
    destruct ev as [op|i x]; cbn [discovery_step]; [reflexivity|]. now rewrite Hr.
  Qed.

  (** ** The count *)
  Lemma replaced_in : forall l i x y, In y (replace_at l i x) -> In y l \/ y = x.
  Proof.
    induction l as [|a l IH]; intros i x y H; [destruct i; destruct H|]. destruct i as [|i]; cbn [replace_at] in H.
    - destruct H as [H|H]; [right; now symmetry|left; now right].
    - destruct H as [H|H]; [left; now left|]. destruct (IH _ _ _ H) as [H1|H1]; [left; now right|now right].
  Qed.
  Lemma inserted_in : forall s p y, In y (ps_members (snd (ps_insert s p))) -> In y (ps_members s) \/ y = p.
  Proof.
    intros s p y. unfold ps_insert, ps_members. destruct (ps_cache s !! p); [now left|]. cbv zeta.
    destruct (nth_error (ps_index s) (ps_upper s)); cbn [snd ps_index].
    - apply replaced_in.
    - intros H. apply in_app_or in H as [H|[H|[]]]; [now left|right; now symmetry].
  Qed.
  Lemma accepted_announced : forall d now fresh n id d', add_dht_peer P d now fresh n = (Ok (Some id), d') -> announced P n.
  Proof.
    intros d now fresh n id d'. unfold add_dht_peer. destruct (full_id P (dn_id n)) as [key|e] eqn:Ek; [|discriminate].
    apply DhtStorageFacts.full_id_ok in Ek as [Ek Hv].
    destruct (verify_full P key (put_dht_node_boxed (unsigned_node n)) (dn_signature n)) eqn:Ev; [|discriminate].
    intros _. exists key. split; [exact Ek|]. apply DhtStorageFacts.verify_full_iff in Ev; [exact Ev|exact Hv].
  Qed.
  Lemma refused_known : forall d now fresh n d', add_dht_peer P d now fresh n = (Ok None, d') -> d_known d' = d_known d.
  Proof.
    intros d now fresh n d'. unfold add_dht_peer. destruct (full_id P (dn_id n)) as [key|e]; [|discriminate].
    destruct (verify_full _ _ _ _); cbn [negb]; [|intros H; injection H as <-; reflexivity].
    cbv zeta. destruct (parse_address_list _ _ _) as [addr|e]; [|discriminate].
    destruct (add_peer _ _ _ _ _ _ _) as [[[|]|e] adnl]; [|intros H; injection H as <-; reflexivity|discriminate].
    destruct (ps_insert _ _) as [ins known]. discriminate.
  Qed.
  Definition counted (l taken : list offered) (n : N) (known known' : list bytes) : Prop :=
    (exists rest, Permutation l (taken ++ rest)) /\ N.of_nat (length taken) = n
    /\ Forall (fun x => announced P (of_node x)) taken
    /\ forall p, In p known' -> In p known \/ In p (map (fun x => node_id_of P (of_node x)) taken).
  Lemma offered_counted : forall l d count n d', add_offered P d count l = (Ok n, d') ->
    exists taken, count <= n /\ counted l taken (n - count) (ps_members (d_known d)) (ps_members (d_known d')).
  Proof.
    induction l as [|x l IH]; intros d count n d' H; cbn [add_offered] in H.
    - injection H as <- <-. exists []. split; [lia|]. split; [now exists []|]. split; [cbn; lia|]. split; [constructor|]. now left.
    - destruct (add_dht_peer P d (of_now x) (of_fresh x) (of_node x)) as [[[id|]|e] d1] eqn:Ea; [| |discriminate].
      + destruct (IH _ _ _ _ H) as (taken & Hle & (rest & Hp) & Hn & Hf & Hk). exists (x :: taken).
        split; [lia|]. split; [exists rest; cbn [app]; now constructor|]. split; [cbn [length]; lia|].
        split; [constructor; [eapply accepted_announced; exact Ea|exact Hf]|].
        intros p Hin. destruct (added_known _ _ _ _ _ _ Ea) as [-> Hd]. destruct (Hk p Hin) as [H1|H1]; [|right; cbn [map]; now right].
        rewrite Hd in H1. destruct (inserted_in _ _ _ H1) as [H2| ->]; [now left|right; now left].
      + destruct (IH _ _ _ _ H) as (taken & Hle & (rest & Hp) & Hn & Hf & Hk). exists taken.
        split; [exact Hle|]. split; [exists (x :: rest); eapply Permutation_trans; [constructor; exact Hp|apply Permutation_middle]|].
        split; [exact Hn|]. split; [exact Hf|]. rewrite <- (refused_known _ _ _ _ _ Ea). exact Hk.
  Qed.
  Lemma counted_app : forall l1 l2 t1 t2 n1 n2 a b c, counted l1 t1 n1 a b -> counted l2 t2 n2 b c ->
    counted (l1 ++ l2) (t1 ++ t2) (n1 + n2) a c.
  Proof.
    intros l1 l2 t1 t2 n1 n2 a b c ((r1 & Hp1) & Hn1 & Hf1 & Hk1) ((r2 & Hp2) & Hn2 & Hf2 & Hk2). split.
    { exists (r1 ++ r2). eapply Permutation_trans; [apply Permutation_app; eassumption|]. rewrite <- !app_assoc. apply Permutation_app_head.
      rewrite !app_assoc. apply Permutation_app_tail, Permutation_app_comm. }
    split; [rewrite app_length; lia|]. split; [now apply Forall_app|].
    intros p Hp. rewrite map_app, in_app_iff. destruct (Hk2 p Hp) as [H|H]; [destruct (Hk1 p H); tauto|tauto].
  Qed.
  Lemma run_counted : forall evs s n, dc_result (discovery_run P s evs) = Some (Ok n) ->
    match dc_result s with
    | Some _ => True
    | None => exists taken, dc_count s <= n
      /\ (exists rest, Permutation (answers_of P s evs) (taken ++ rest)) /\ N.of_nat (length taken) = n - dc_count s
      /\ Forall (fun x => announced P (of_node x)) taken
      /\ (other_ops_of evs = [] -> forall p, In p (ps_members (d_known (dc_dht (discovery_run P s evs)))) ->
           In p (ps_members (d_known (dc_dht s))) \/ In p (map (fun x => node_id_of P (of_node x)) taken))
    end.
  Proof.
    unfold discovery_run. induction evs as [|ev evs IH]; intros s n H; cbn [fold_left] in *.
    - rewrite H. exact I.
    - destruct (dc_result s) as [r|] eqn:Er; [exact I|]. specialize (IH _ _ H). cbn [answers_of]. rewrite Er.
      destruct ev as [op|i r].
      + cbn [discovery_step dc_result dc_count] in IH. rewrite Er in IH. destruct IH as (taken & H1 & H2 & H3 & H4 & H5). exists taken.
        split; [exact H1|]. split; [cbn [discovery_step app]; rewrite Er; exact H2|]. split; [exact H3|]. split; [exact H4|]. discriminate.
      + destruct (nth_error (dc_flying s) i) as [p|] eqn:En.
        2: { assert (Hs : discovery_step P s (DcEnds i r) = s) by (cbn [discovery_step]; now rewrite Er, En).
             rewrite Hs in *. rewrite Er in IH. destruct r; exact IH. }
        set (l := match r with Ok l => l | Err _ => [] end).
        replace (match r with Ok l => l | Err _ => [] end) with l by reflexivity.
        pose proof (result_stays evs (discovery_step P s (DcEnds i r))) as Hst. unfold discovery_run in Hst.
        pose proof (discovery_step_is s i r p Er En) as Hstep. fold l in Hstep.
        destruct (add_offered P (after_query (dc_dht s) p (match r with Ok _ => Answered | Err _ => Failed end)) (dc_count s) l)
          as [[m|e] d] eqn:Ea.
        2: { rewrite Hstep in Hst. specialize (Hst _ eq_refl). rewrite Hstep in H. congruence. }
        destruct (offered_counted _ _ _ _ _ Ea) as (t1 & Hle & Hc1).
        change (ps_members (d_known (after_query _ _ _))) with (ps_members (d_known (dc_dht s))) in Hc1.
        rewrite Hstep in *. destruct (remove_nth i (dc_flying s)) as [|q flying].
        * specialize (Hst _ eq_refl). cbn [dc_result] in *. assert (n = m) by congruence. subst m.
          exists t1. split; [exact Hle|]. destruct Hc1 as ((rest & Hp) & Hn & Hf & Hk).
          set (s1 := mk_discovery _ _ _ _ _ _) in *.
          assert (Ha : answers_of P s1 evs = []) by (apply no_answers; now exists (Ok n)).
          rewrite Ha, app_nil_r. split; [now exists rest|]. split; [exact Hn|]. split; [exact Hf|].
          intros Ho p' Hp'. apply Hk. pose proof (decided_ops evs s1) as Hd. unfold discovery_run in Hd. cbn [other_ops_of flat_map app] in Ho.
          rewrite Hd in Hp'; [|now exists (Ok n)]. fold (other_ops_of evs) in Ho. rewrite Ho in Hp'. exact Hp'.
        * cbn [dc_result dc_count dc_dht] in IH. destruct IH as (t2 & H1 & H2 & H3 & H4 & H5). exists (t1 ++ t2).
          destruct Hc1 as ((r1 & Hp1) & Hn1 & Hf1 & Hk1). destruct H2 as [r2 Hp2].
          split; [lia|]. split.
          { exists (r1 ++ r2). eapply Permutation_trans; [apply Permutation_app; eassumption|]. rewrite <- !app_assoc. apply Permutation_app_head.
            rewrite !app_assoc. apply Permutation_app_tail, Permutation_app_comm. }
          split; [rewrite app_length; lia|]. split; [now apply Forall_app|].
          intros Ho p' Hp'. rewrite map_app, in_app_iff. destruct (H5 Ho p' Hp') as [Hq|Hq]; [|tauto]. destruct (Hk1 p' Hq); tauto.
  Qed.
  Theorem discovery_counted : forall d evs n,
    let s := discovery_run P (discovery_start d) evs in
    dc_result s = Some (Ok n) ->
    exists taken rest, Permutation (answers_of P (discovery_start d) evs) (taken ++ rest)
      /\ N.of_nat (length taken) = n
      /\ Forall (fun x => announced P (of_node x)) taken
      /\ (other_ops_of evs = [] -> forall p, In p (ps_members (d_known (dc_dht s))) ->
           In p (ps_members (d_known d)) \/ In p (map (fun x => node_id_of P (of_node x)) taken)).
  Proof.
    intros d evs n s H. pose proof (run_counted evs (discovery_start d) n H) as Hr. fold s in Hr.
    destruct (dc_result (discovery_start d)) as [r|] eqn:Er.
    - pose proof (result_stays evs (discovery_start d) r Er) as Hs. fold s in Hs. exists [], [].
      assert (Hn : n = 0).
      { unfold discovery_start in Er. cbn [dc_result] in Er. destruct (ps_members (d_known d)); congruence. }
      assert (Ha : answers_of P (discovery_start d) evs = []) by (apply no_answers; now exists r).
      rewrite Ha. split; [constructor|]. split; [now subst|]. split; [constructor|].
      intros Ho p Hp. left. unfold s in Hp. rewrite (decided_ops evs (discovery_start d)) in Hp by (now exists r). rewrite Ho in Hp. exact Hp.
    - destruct Hr as (taken & _ & (rest & Hp) & Hn & Hf & Hk). exists taken, rest. split; [exact Hp|].
      split; [rewrite Hn; change (dc_count (discovery_start d)) with 0; lia|]. split; [exact Hf|exact Hk].
  Qed.
End Discovery.

(** ** What may be stored *)
Theorem store_checked : forall P e d v r d', store_new P e d v = (r, d') ->
  match r with
  | Ok query => query = put_dht_query (DqStore v) /\ storable P (do_storage (d_opts d)) (qe_now e) v
  | Err _ => d_storage d' = d_storage d
  end.
Proof.
  intros P e d v r d' H. unfold store_new in H.
  set (o := do_storage (d_opts d)) in *. revert H. unfold storage_insert. set (k := kd_key (dv_key v)).
  destruct (N.leb_spec (dv_ttl v) (qe_now e)) as [Ht|Ht]; [intros H; injection H as <- <-; reflexivity|].
  destruct (N.leb_spec (N.of_nat (length (dk_name k))) (so_name_len o)) as [Hn|Hn]; cbn [negb orb];
    [|intros H; injection H as <- <-; reflexivity].
  destruct (N.ltb_spec (so_index o) (dk_idx k)) as [Hi|Hi]; [intros H; injection H as <- <-; reflexivity|].
  destruct (bytes_eqb (dk_id k) _) eqn:Hid; cbn [negb]; [|intros H; injection H as <- <-; reflexivity].
  apply bytes_eqb_eq in Hid.
  assert (Hgo : signed_value P v \/ signed_list P v -> storable P o (qe_now e) v) by (intros Hs; repeat (split; [assumption|]); exact Hs).
  destruct (kd_rule (dv_key v)) eqn:Hr.
  - intros H; injection H as <- <-; reflexivity.
  - unfold insert_overlay_nodes. destruct (dv_signature v) as [|? ?] eqn:Hs1; [|intros H; injection H as <- <-; reflexivity].
    destruct (kd_signature (dv_key v)) as [|? ?] eqn:Hs2; [|intros H; injection H as <- <-; reflexivity].
    destruct (kd_id (dv_key v)) as [?|?|name|?] eqn:Hk; try (intros H; injection H as <- <-; reflexivity).
    rewrite <- Hk in *. cbv zeta. fold k.
    destruct (bytes_eqb (dk_id k) _ && bytes_eqb (dk_name k) key_nodes && (dk_idx k =? 0)) eqn:Hreq; cbn [negb];
      [|intros H; injection H as <- <-; reflexivity].
    apply andb_true_iff in Hreq as [Hreq H3]. apply andb_true_iff in Hreq as [_ H2].
    apply bytes_eqb_eq in H2. apply N.eqb_eq in H3.
    destruct (deserialize get_ov_nodes_boxed (dv_value v)) as [received|] eqn:Hd; [|intros H; injection H as <- <-; reflexivity].
    destruct (List.filter (verify_overlay_node P (sha256 P (put_public_key (kd_id (dv_key v))))) received) as [|n0 new0] eqn:Ef;
      [intros H; injection H as <- <-; reflexivity|].
    assert (Hsl : signed_list P v).
    { split; [exact Hr|]. split; [destruct k eqn:Ek; unfold k in Ek; rewrite Ek; cbn in *; congruence|]. split; [eauto|].
      exists received, n0. split; [exact Hd|].
      assert (Hin : In n0 (n0 :: new0)) by now left. rewrite <- Ef in Hin. apply filter_In in Hin as [Hin Hv].
      split; [exact Hin|]. now apply DhtStorageFacts.verify_overlay_node_iff. }
    destruct (d_storage d !! storage_key P k) as [old|].
    + destruct (dv_ttl old <? qe_now2 e); [intros H; injection H as <- <-; split; [reflexivity|apply Hgo; now right]|].
      destruct (dv_ttl v <? dv_ttl old); [intros H; injection H as <- <-; split; [reflexivity|apply Hgo; now right]|].
      destruct (deserialize get_ov_nodes_boxed (dv_value old)) as [old_nodes|];
        [intros H; injection H as <- <-; split; [reflexivity|apply Hgo; now right]|intros H; injection H as <- <-; reflexivity].
    + intros H; injection H as <- <-; split; [reflexivity|apply Hgo; now right].
  - unfold insert_signed_value. destruct (check_signatures P v) as [[]|err] eqn:Hc; [|intros H; injection H as <- <-; reflexivity].
    assert (Hsv : signed_value P v) by (apply DhtStorageFacts.check_signatures_iff; assumption).
    cbv zeta. destruct (d_storage d !! storage_key P (kd_key (dv_key v))) as [old|].
    + destruct (dv_ttl old <? dv_ttl v); (intros H; injection H as <- <-; split; [reflexivity|apply Hgo; now left]).
    + intros H; injection H as <- <-; split; [reflexivity|apply Hgo; now left].
Qed.

(** ** The penalties *)
Lemma stores_counted : forall T E P (get : parser T) (check : list (key_description * T) -> key_description * T -> res E bool)
    (s : store_check T E) i,
  (forall flying p o, sk_stage s = Storing flying -> nth_error flying i = Some p ->
     sk_dht (store_step P get check s (SkStored i o)) = after_queries (sk_dht s) [(p, o)])
  /\ (forall l e sort now fresh, sk_stage s = Looking l ->
     sk_dht (store_step P get check s (SkFound i e sort now fresh)) = fst (lookup_ends P get sort now fresh (sk_dht s) l i e)).
Proof.
  intros T E P get check s i. split.
  - intros flying p o Hs Hp. unfold store_step. rewrite Hs, Hp. reflexivity.
  - intros l e sort now fresh Hs. unfold store_step. rewrite Hs.
    destruct (lookup_ends P get sort now fresh (sk_dht s) l i e) as [d l']. destruct (skipn _ _); reflexivity.
Qed.
Lemma discovery_penalties : forall P (s : discovery) i p, dc_result s = None -> nth_error (dc_flying s) i = Some p ->
  let ends r := dc_dht (discovery_step P s (DcEnds i r)) in
  ends (Err tt) = after_queries (dc_dht s) [(p, Failed)]
  /\ forall l, ends (Ok l) = snd (add_offered P (after_queries (dc_dht s) [(p, Answered)]) (dc_count s) l).
Proof.
  intros P s i p Hr Hp ends. unfold ends, discovery_step. rewrite Hr, Hp. split; [reflexivity|]. intros l. cbv zeta.
  change (after_queries (dc_dht s) [(p, Answered)]) with (after_query (dc_dht s) p Answered).
  destruct (add_offered P (after_query (dc_dht s) p Answered) (dc_count s) l) as [[c|e] d]; reflexivity.
Qed.
