(** What a node sends on. *)
From stdpp Require Import gmap.
From Coq Require Import NArith Lia ZifyBool ZifyNat ZifyN.
From Verif.Base Require Import Bytes BytesFacts Res.
From Verif.Model Require Import Crypto Tl Scheme ProtoAdnl ProtoRldp ProtoOverlay AdnlNode History PeersSet
  Compression Fec DhtStorage Broadcast.
From Verif.Spec Require Import CryptoSpec HistorySpec DhtSpec OverlaySpec BroadcastSpec.
From Verif.Proof Require Import HistoryFacts BroadcastFacts BroadcastAuth BroadcastLog BroadcastLive.
Open Scope N_scope.

Definition own_targets (e : bc_event) : list bytes := match e with EvSend _ _ targets => targets | _ => [] end.

Lemma sent_cases : forall c s e, br_sent (bc_step c s e) = br_sent s
  \/ match e with
     | EvBroadcast en peer raw b =>
       br_sent (bc_step c s e) = br_sent s ++ [(get_random_peers (be_neighbours en) (bo_secondary (bs_options c)) (Some peer) (be_picks en), raw)]
     | EvFec en peer raw b =>
       br_sent (bc_step c s e) = br_sent s ++ [(get_random_peers (be_neighbours en) (bo_secondary_fec (bs_options c)) (Some peer) (be_picks en), raw)]
     | EvSend secret data targets =>
       br_sent (bc_step c s e) = br_sent s ++ [(targets, overlay_message (bs_overlay c)
         (BBroadcast (own_broadcast (bs_prims c) (bs_zstd c) (bs_options c) secret data (now_sec s))))]
     | _ => False
     end.
Proof.
  intros c s e.
  destruct e as [ms|e peer raw b|e peer raw b|sec dat targets|sec dat targets|i|i|i|]; cbn [bc_step].
  - now left.
  - destruct (receive_broadcast_cases (bs_prims c) (bs_zstd c) (bs_checks c) (bs_options c) e s peer raw b) as [->|(dat & from & _ & _ & _ & _ & Hn & ->)]; [now left|now right].
  - destruct (receive_fec_cases (bs_prims c) (bs_checks c) (bs_options c) e s peer raw b) as [->|(k & _ & _ & _ & _ & _ & Hc)]; [now left|].
    cbv zeta in Hc.
    assert (Hs1 : br_sent (with_entry (bs_options c) s (bf_fec b) (bf_data_hash b) (node_id (bs_prims c) k)) = br_sent s).
    { unfold with_entry. now destruct (br_owned s !! bf_data_hash b). }
    set (s1 := with_entry _ _ _ _ _) in *.
    destruct Hc as [[-> _]|(t & t' & Hown & _ & Hc)]; [left; exact Hs1|].
    destruct Hc as [[-> _]|(_ & _ & targets & -> & [[_ ->]|(_ & task & _ & _ & ->)])]; cbn; rewrite Hs1; auto.
  - unfold send_broadcast, create_broadcast. cbv zeta. destruct (br_owned s !! _); [now left|now right].
  - left. destruct (send_fec_cases (bs_prims c) (bs_zstd c) (bs_options c) (bs_overlay c) sec s dat targets) as [->|(Hn & ->)]; reflexivity.
  - left. destruct (task_step_cases (bs_prims c) (bs_zstd c) (bs_fec c) s i) as [->|(t & Ht & Hc)]; [reflexivity|].
    destruct Hc as [(Hp & p & rest & r & de & Hq & Hpf & [[_ ->]|[(dat & _ & ->)|[_ ->]]])|[(Hp & Hq & -> & _)|(Hp & m & -> & Hm)]]; reflexivity.
  - left. unfold timer_step. destruct (nth_error _ _) as [t|] eqn:Ht; [|reflexivity]. destruct (_ <? _); [reflexivity|].
    destruct t as [i' due|i' due]; [destruct (match br_owned s !! i' with Some _ => _ | None => _ end)|]; reflexivity.
  - left. unfold push_step. now destruct (nth_error _ _).
  - left. unfold collector_step. destruct (br_collector s); [destruct (_ <? _)|destruct (br_finished s)| |]; reflexivity.
Qed.

Lemma choose_in' : forall (l : list bytes) picks x, In x (choose l picks) -> In x l.
Proof.
  intros l picks x H. unfold choose in H. induction picks as [|i r IH]; cbn in H; [contradiction|].
  destruct (nth_error l i) as [y|] eqn:E; cbn in H.
  - destruct H as [<-|H]; [eapply nth_error_In, E|auto].
  - auto.
Qed.

Lemma forward_targets : forall s amount peer picks p, In p (get_random_peers s amount (Some peer) picks) ->
  In p (ps_members s) /\ p <> peer.
Proof.
  intros s amount peer picks p H. unfold get_random_peers in H.
  assert (Hin : In p (List.filter (fun x => negb (bytes_eqb x peer)) (choose (ps_index s) picks))).
  { rewrite <- (firstn_skipn (N.to_nat amount)). apply in_or_app. now left. }
  apply filter_In in Hin as [H1 H2]. split; [eapply choose_in', H1|]. intros ->. rewrite bytes_eqb_refl in H2. discriminate.
Qed.

Theorem sent_unchanged : forall c clock evs targets m,
  let s0 := bstate_new clock in
  In (targets, m) (br_sent (bc_run c s0 evs)) ->
  exists s e, happened c s0 evs s e /\
  match e with
  | EvBroadcast en peer raw _ =>
    m = raw /\ (length targets <= N.to_nat (bo_secondary (bs_options c)))%nat
    /\ (forall p, In p targets -> In p (ps_members (be_neighbours en)) /\ p <> peer)
  | EvFec en peer raw _ =>
    m = raw /\ (length targets <= N.to_nat (bo_secondary_fec (bs_options c)))%nat
    /\ (forall p, In p targets -> In p (ps_members (be_neighbours en)) /\ p <> peer)
  | EvSend secret data to =>
    targets = to
    /\ m = overlay_message (bs_overlay c)
             (BBroadcast (own_broadcast (bs_prims c) (bs_zstd c) (bs_options c) secret data (now_sec s)))
  | _ => False
  end.
Proof.
  intros c clock evs targets m s0. induction evs as [|e evs IH] using rev_ind; [intros []|].
  rewrite bc_run_last. intros H.
  assert (Hold : In (targets, m) (br_sent (bc_run c s0 evs)) -> exists s e0, happened c s0 (evs ++ [e]) s e0 /\
    match e0 with
  | EvBroadcast en peer raw _ =>
    m = raw /\ (length targets <= N.to_nat (bo_secondary (bs_options c)))%nat
    /\ (forall p, In p targets -> In p (ps_members (be_neighbours en)) /\ p <> peer)
  | EvFec en peer raw _ =>
    m = raw /\ (length targets <= N.to_nat (bo_secondary_fec (bs_options c)))%nat
    /\ (forall p, In p targets -> In p (ps_members (be_neighbours en)) /\ p <> peer)
  | EvSend secret data to =>
    targets = to
    /\ m = overlay_message (bs_overlay c)
             (BBroadcast (own_broadcast (bs_prims c) (bs_zstd c) (bs_options c) secret data (now_sec s)))
  | _ => False
  end).
  { intros Hin. destruct (IH Hin) as (s & e' & Hh & Hm). exists s, e'. split; [now apply happened_more|exact Hm]. }
  destruct (sent_cases c (bc_run c s0 evs) e) as [He|He]; [rewrite He in H; now apply Hold|].
  destruct e as [ms|e peer raw b|e peer raw b|sec dat to|sec dat to|i|i|i|]; try contradiction; rewrite He in H; apply in_app_or in H as [H|[H|[]]];
    try (now apply Hold); injection H as <- <-; exists (bc_run c s0 evs); eexists; (split; [apply happened_last|]); cbv iota beta.
  - split; [reflexivity|]. split; [apply firstn_le_length|]. intros p. apply forward_targets.
  - split; [reflexivity|]. split; [apply firstn_le_length|]. intros p. apply forward_targets.
  - split; reflexivity.
Qed.

(** ** Repetitions *)
Lemma forwards_app : forall c id n evs s e,
  forwards c id n s (evs ++ [e]) = (forwards c id n s evs + if forwarded c id n (bc_run c s evs) e then 1 else 0)%nat.
Proof.
  intros c id n evs. induction evs as [|a evs IH]; intros s e; cbn [forwards app bc_run fold_left].
  - lia.
  - rewrite IH. fold (bc_run c (bc_step c s a) evs). lia.
Qed.

(** What the node remembers of the packets of [x]. *)
Definition hist_of (o : option owned) : history :=
  match o with Some (Incoming t) => ic_history t | _ => history_new end.

Lemma not_forwarded : forall c x n s e, br_sent (bc_step c s e) = br_sent s -> forwarded c x n s e = false.
Proof.
  intros c x n s e H. unfold forwarded. destruct e; try reflexivity. rewrite H, Nat.ltb_irrefl. apply andb_false_r.
Qed.

Lemma not_fec : forall c x n s e, (forall en peer raw b, e = EvFec en peer raw b -> bf_data_hash b <> x) -> forwarded c x n s e = false.
Proof.
  intros c x n s e H. unfold forwarded. destruct e as [ms|e peer raw b|e peer raw b|sec dat targets|sec dat targets|i|i|i|]; try reflexivity.
  destruct (bytes_eqb (bf_data_hash b) x) eqn:E; [|reflexivity]. apply bytes_eqb_eq in E. exfalso. now apply (H e peer raw b).
Qed.

Lemma hist_step : forall c x s e, is_Some (br_owned (bc_step c s e) !! x) ->
  (hist_of (br_owned (bc_step c s e) !! x) = hist_of (br_owned s !! x) /\ forall n, forwarded c x n s e = false)
  \/ exists en peer raw b, e = EvFec en peer raw b /\ bf_data_hash b = x
     /\ deliver (bs_checks c) (hist_of (br_owned s !! x)) (bf_seqno b) = (Accepted, hist_of (br_owned (bc_step c s e) !! x)).
Proof.
  intros c x s e Hs.
  assert (Hsame : br_owned (bc_step c s e) !! x = br_owned s !! x ->
    (forall en peer raw b, e = EvFec en peer raw b -> bf_data_hash b <> x) ->
    (hist_of (br_owned (bc_step c s e) !! x) = hist_of (br_owned s !! x) /\ forall n, forwarded c x n s e = false)).
  { intros H1 H2. rewrite H1. split; [reflexivity|]. intros n. now apply not_fec. }
  destruct e as [ms|e peer raw b|e peer raw b|secret data targets|secret data targets|i|i|i|]; cbn [bc_step] in *.
  - left. now apply Hsame.
  - left. split; [|reflexivity]. destruct (receive_broadcast_cases (bs_prims c) (bs_zstd c) (bs_checks c) (bs_options c) e s peer raw b) as [->|(data & from & _ & _ & _ & _ & Hn & ->)]; [reflexivity|].
    cbn [accepted_state br_owned]. destruct (decide (x = sha256 (bs_prims c) (broadcast_claim (bs_prims c) (ob_flags b) from data (ob_date b)))) as [->|Hne].
    + rewrite lookup_insert, Hn. reflexivity.
    + now rewrite lookup_insert_ne by congruence.
  - destruct (receive_fec_cases (bs_prims c) (bs_checks c) (bs_options c) e s peer raw b) as [He|(key & _ & _ & _ & _ & _ & Hc)].
    { left. rewrite He. split; [reflexivity|]. intros n. apply not_forwarded. cbn [bc_step]. now rewrite He. }
    cbv zeta in Hc.
    assert (Hs1 : br_sent (with_entry (bs_options c) s (bf_fec b) (bf_data_hash b) (node_id (bs_prims c) key)) = br_sent s).
    { unfold with_entry. now destruct (br_owned s !! bf_data_hash b). }
    assert (Ho1 : hist_of (br_owned (with_entry (bs_options c) s (bf_fec b) (bf_data_hash b) (node_id (bs_prims c) key)) !! bf_data_hash b) = hist_of (br_owned s !! bf_data_hash b)).
    { unfold with_entry. destruct (br_owned s !! bf_data_hash b) eqn:E; [now rewrite E|].
      unfold spawn_fec_receiver. cbn [set_timers set_tasks set_owned br_owned]. now rewrite lookup_insert. }
    assert (Ho2 : x <> bf_data_hash b -> br_owned (with_entry (bs_options c) s (bf_fec b) (bf_data_hash b) (node_id (bs_prims c) key)) !! x = br_owned s !! x).
    { intros Hne. unfold with_entry. destruct (br_owned s !! bf_data_hash b) eqn:E; [reflexivity|].
      unfold spawn_fec_receiver. cbn [set_timers set_tasks set_owned br_owned]. now rewrite lookup_insert_ne by congruence. }
    set (s1 := with_entry _ _ _ _ _) in *.
    destruct (decide (x = bf_data_hash b)) as [->|Hne].
    2:{ left. apply Hsame; [|intros ? ? ? ? [= <- <- <- <-]; congruence].
        destruct Hc as [[-> _]|(t & t' & Hown & _ & Hc)]; [now apply Ho2|].
        destruct Hc as [[-> _]|(_ & _ & targets & _ & [[_ ->]|(_ & task & _ & _ & ->)])]; cbn; rewrite lookup_insert_ne by congruence; now apply Ho2. }
    destruct Hc as [[He Ho]|(t & t' & Hown & _ & Hc)].
    { left. rewrite He. split; [exact Ho1|]. intros n. apply not_forwarded. cbn [bc_step]. now rewrite He. }
    rewrite Hown in Ho1. cbn [hist_of] in Ho1.
    destruct Hc as [[He [Hh _]]|(_ & Hd & targets & _ & [[_ He]|(_ & task & _ & _ & He)])]; rewrite He; unfold distribute, set_tasks, set_owned; cbn [br_owned]; rewrite lookup_insert; cbn [hist_of].
    + destruct Hh as [Hh|(h & Hd & Hh & _)].
      * left. rewrite <- Ho1. split; [exact Hh|]. intros n. apply not_forwarded. cbn [bc_step]. now rewrite He.
      * right. exists e, peer, raw, b. split; [reflexivity|]. split; [reflexivity|]. rewrite <- Ho1, Hh. exact Hd.
    + right. exists e, peer, raw, b. split; [reflexivity|]. split; [reflexivity|]. rewrite <- Ho1. exact Hd.
    + right. exists e, peer, raw, b. split; [reflexivity|]. split; [reflexivity|]. rewrite <- Ho1. exact Hd.
  - left. split; [|reflexivity]. destruct (send_broadcast_cases (bs_prims c) (bs_zstd c) (bs_options c) (bs_overlay c) secret s data targets) as [He|(Hn & m & He)]; rewrite He in *; [reflexivity|].
    cbn [br_owned] in *. apply lookup_insert_is_Some in Hs as Hs'. destruct Hs' as [<-|[Hne _]].
    + rewrite lookup_insert, Hn. reflexivity.
    + now rewrite lookup_insert_ne by congruence.
  - left. split; [|reflexivity]. destruct (send_fec_cases (bs_prims c) (bs_zstd c) (bs_options c) (bs_overlay c) secret s data targets) as [He|(Hn & He)]; rewrite He in *; [reflexivity|].
    cbn [br_owned] in *. apply lookup_insert_is_Some in Hs as Hs'. destruct Hs' as [<-|[Hne _]].
    + rewrite lookup_insert, Hn. reflexivity.
    + now rewrite lookup_insert_ne by congruence.
  - left. split; [|reflexivity]. destruct (task_step_cases (bs_prims c) (bs_zstd c) (bs_fec c) s i) as [He|(t & Ht & Hc)]; [now rewrite He|].
    destruct Hc as [(Hp & p & rest & r & d & Hq & Hpf & [[_ He]|[(data & _ & He)|[_ He]]])|[(Hp & Hq & He & _)|(Hp & m & He & Hm)]]; rewrite He; try reflexivity.
    cbn [set_tasks set_owned br_owned]. destruct Hm as [->|(k & Hk & ->)]; [reflexivity|].
    destruct (decide (x = tk_id t)) as [->|Hne]; [rewrite lookup_insert, Hk; reflexivity|now rewrite lookup_insert_ne by congruence].
  - left. split; [|reflexivity]. unfold timer_step. destruct (nth_error _ _) as [t|]; [|reflexivity]. destruct (_ <? _); [reflexivity|].
    destruct t as [i' due|i' due]; [destruct (match br_owned s !! i' with Some _ => _ | None => _ end)|]; reflexivity.
  - left. split; [|reflexivity]. unfold push_step. now destruct (nth_error _ _).
  - left. split; [|reflexivity]. unfold collector_step in *. destruct (br_collector s); [destruct (_ <? _)|destruct (br_finished s)| |]; try reflexivity.
    cbn [set_collector set_owned br_owned] in *. apply lookup_delete_is_Some in Hs as [Hne _]. now rewrite lookup_delete_ne by congruence.
Qed.

Lemma forwarded_timely : forall c x n s e, forwarded c x n s e = true ->
  exists en peer raw b, e = EvFec en peer raw b /\ bf_data_hash b = x /\ bf_seqno b = n
  /\ now_sec s <= bf_date b + bo_timeout (bs_options c) /\ is_Some (br_owned (bc_step c s e) !! x).
Proof.
  intros c x n s e H. unfold forwarded in H.
  destruct e as [ms|e peer raw b|e peer raw b|sec dat targets|sec dat targets|i|i|i|]; try discriminate H.
  apply andb_true_iff in H as [H H3]. apply andb_true_iff in H as [H1 H2]. apply bytes_eqb_eq in H1. apply N.eqb_eq in H2. apply Nat.ltb_lt in H3.
  exists e, peer, raw, b. split; [reflexivity|]. split; [exact H1|]. split; [exact H2|]. cbn [bc_step] in *.
  destruct (receive_fec_cases (bs_prims c) (bs_checks c) (bs_options c) e s peer raw b) as [He|(key & _ & _ & _ & Ht & _ & Hc)]; [rewrite He in H3; lia|].
  split; [exact Ht|]. cbv zeta in Hc. subst x.
  destruct Hc as [[-> ->]|(t & t' & Hown & _ & Hc)]; [eauto|].
  destruct Hc as [[-> _]|(_ & _ & targets & _ & [[_ ->]|(_ & task & _ & _ & ->)])]; cbn; rewrite lookup_insert; eauto.
Qed.

Definition repeats (c : bc_setup) (x : bytes) (limit n : N) (s : bstate) (k : nat) : Prop :=
  (br_owned s !! x = None /\ k = 0%nat)
  \/ exists T, limit * 1000 <= T /\ T <= br_clock s /\ (k <= 1)%nat
     /\ ((young (bs_options c) T x s /\ exists known, inv (hist_of (br_owned s !! x)) known /\ (k = 1%nat -> In n known))
         \/ T + bo_timeout (bs_options c) * 1000 <= br_clock s).

(** The part of [repeats] about the history, through one step that keeps the entry. *)
Lemma known_step : forall c x n s e k known, small_seqno x e -> is_Some (br_owned (bc_step c s e) !! x) ->
  inv (hist_of (br_owned s !! x)) known -> (k <= 1)%nat -> (k = 1%nat -> In n known) ->
  let k' := (k + if forwarded c x n s e then 1 else 0)%nat in
  (k' <= 1)%nat /\ exists known', inv (hist_of (br_owned (bc_step c s e) !! x)) known' /\ (k' = 1%nat -> In n known').
Proof.
  intros c x n s e k known Hsm Hs Hi Hk Hin k'. subst k'.
  destruct (hist_step c x s e Hs) as [[Hh Hf]|(en & peer & raw & b & -> & Hx & Hd)].
  - rewrite Hf, Hh, Nat.add_0_r. split; [exact Hk|]. exists known. auto.
  - cbn [small_seqno] in Hsm. specialize (Hsm Hx).
    destruct (deliver_spec (bs_checks c) _ known (bf_seqno b) Hi) as (o & h & Ed & _ & Hb & Hinv & _); [lia|lia|].
    rewrite Ed in Hd; cbn [bc_step] in Hd |- *. injection Hd as -> Hh. rewrite Hh in Hinv. cbn [bool_of] in Hb.
    assert (Hsd : ~ In (bf_seqno b) known /\ snd (spec_deliver known (bf_seqno b)) = bf_seqno b :: known).
    { unfold spec_deliver in *. destruct (256 <=? bf_seqno b) eqn:E2; [lia|].
      destruct (existsb (N.eqb (bf_seqno b)) known) eqn:E3; [discriminate Hb|]. split; [|reflexivity].
      intros Hc. assert (Ht : existsb (N.eqb (bf_seqno b)) known = true); [|congruence].
      apply existsb_exists. exists (bf_seqno b). split; [exact Hc|apply N.eqb_refl]. }
    destruct Hsd as [Hni Hsd]. rewrite Hsd in Hinv.
    destruct (forwarded c x n s (EvFec en peer raw b)) eqn:Ef.
    + apply forwarded_timely in Ef as (? & ? & ? & ? & [= <- <- <- <-] & _ & Hn & _). subst n.
      assert (k = 0%nat) by (destruct (Nat.eq_dec k 1%nat) as [E|]; [exfalso; auto|lia]).
      split; [lia|]. eexists. split; [exact Hinv|]. intros _. now left.
    + rewrite Nat.add_0_r. split; [exact Hk|]. eexists. split; [exact Hinv|]. intros E. right. auto.
Qed.

Lemma repeats_step : forall c x limit n s e k, log_ok s -> limit * 1000 <= br_clock s -> br_clock s < 2 ^ 32 * 1000 ->
  dated_before c x limit e -> small_seqno x e -> repeats c x limit n s k ->
  repeats c x limit n (bc_step c s e) (k + if forwarded c x n s e then 1 else 0).
Proof.
  intros c x limit n s e k Hlog Hlim Hclk Hd Hsm [[Hn Hk]|(T & HT1 & HT2 & Hk & Hy)].
  - subst k. destruct (br_owned (bc_step c s e) !! x) eqn:Eo.
    + assert (Hs : is_Some (br_owned (bc_step c s e) !! x)) by (rewrite Eo; eauto).
      right. exists (br_clock s). split; [exact Hlim|]. split; [apply clock_step|].
      assert (Hnew : inv (hist_of (br_owned s !! x)) []) by (rewrite Hn; apply inv_new).
      destruct (known_step c x n s e 0 [] Hsm Hs Hnew) as [H1 H2]; [lia|lia|].
      split; [exact H1|]. left. split; [now apply new_young|exact H2].
    + left. split; [exact Eo|]. destruct (forwarded c x n s e) eqn:Ef; [|reflexivity].
      apply forwarded_timely in Ef as (? & ? & ? & ? & _ & _ & _ & _ & Hs). rewrite Eo in Hs. now destruct Hs.
  - right. exists T. split; [exact HT1|]. pose proof (proj1 (clock_step c s e)) as Hc. split; [lia|].
    assert (Hold : T + bo_timeout (bs_options c) * 1000 <= br_clock s -> forwarded c x n s e = false).
    { intros Hy'. destruct (forwarded c x n s e) eqn:Ef; [exfalso|reflexivity].
      apply forwarded_timely in Ef as (en & peer & raw & b & -> & Hx & _ & Ht & _). cbn [dated_before] in Hd.
      unfold now_sec in Ht. eapply too_old; eauto. }
    destruct Hy as [[Hy (known & Hi & Hin)]|Hy]; [|rewrite (Hold Hy), Nat.add_0_r; split; [exact Hk|right; lia]].
    destruct (young_step c T x s e HT2 Hy) as [Hy'|Hy'].
    + assert (Hs : is_Some (br_owned (bc_step c s e) !! x)) by (eapply young_owned; [apply log_step, Hlog|exact Hy']).
      destruct (known_step c x n s e k known Hsm Hs Hi Hk Hin) as [H1 H2]. split; [exact H1|]. left. auto.
    + rewrite (Hold Hy'), Nat.add_0_r. split; [exact Hk|right; lia].
Qed.

Lemma forwards_more : forall c id n a b s, forwards c id n s (a ++ b) = (forwards c id n s a + forwards c id n (bc_run c s a) b)%nat.
Proof.
  intros c id n a. induction a as [|e a IH]; intros b s; cbn [forwards app]; [reflexivity|]. rewrite IH. cbn [bc_run fold_left]. unfold bc_run. lia.
Qed.

Theorem forwarded_once : forall c clock before after id limit seqno,
  never_about c id before ->
  limit * 1000 <= br_clock (bc_run c (bstate_new clock) before) ->
  Forall (dated_before c id limit) after ->
  Forall (small_seqno id) after ->
  br_clock (bc_run c (bstate_new clock) (before ++ after)) < 2 ^ 32 * 1000 ->
  (forwards c id seqno (bstate_new clock) (before ++ after) <= 1)%nat.
Proof.
  intros c clock before after id limit n Hn Hl Hd Hsm Hc.
  assert (H : repeats c id limit n (bc_run c (bstate_new clock) (before ++ after)) (forwards c id n (bstate_new clock) (before ++ after))).
  { revert Hc. induction after as [|e after IH] using rev_ind.
    - intros _. rewrite app_nil_r. left. split; [now apply fresh_run|].
      assert (Hz : forall evs s, never_about c id evs -> forwards c id n s evs = 0%nat).
      { intros evs. induction evs as [|e evs IHe]; intros s Hne; [reflexivity|]. cbn [forwards]. rewrite IHe; [|intros e' now' Hi; apply Hne; now right].
        rewrite not_fec; [reflexivity|]. intros en peer raw b -> Hx. apply (Hne (EvFec en peer raw b) 0); [now left|exact Hx]. }
      now apply Hz.
    - apply List.Forall_app in Hd as [Hd1 Hd2]. apply List.Forall_app in Hsm as [Hs1 Hs2]. rewrite app_assoc, bc_run_last, forwards_app. intros Hc.
      pose proof (proj1 (clock_step c (bc_run c (bstate_new clock) (before ++ after)) e)) as Hm.
      apply repeats_step; [apply log_run| |lia|now apply List.Forall_cons_iff in Hd2|now apply List.Forall_cons_iff in Hs2|apply IH; [exact Hd1|exact Hs1|lia]].
      unfold bc_run in *. rewrite fold_left_app. pose proof (clock_run c after (fold_left (bc_step c) before (bstate_new clock))) as Hr. unfold bc_run in Hr. lia. }
  destruct H as [[_ H]|(T & _ & _ & H & _)]; lia.
Qed.

(** Numbers from 256 on are never recognised. *)
Lemma big_step : forall c s en peer raw b key known t task,
  bf_src b = PkEd25519 key -> valid_pub (bs_prims c) key = true -> length (bf_signature b) = 64%nat ->
  timely c s (bf_date b) -> 256 <= bf_seqno b -> bf_seqno b < 2 ^ 32 ->
  let e := EvFec en peer raw b in
  let s1 := with_entry (bs_options c) s (bf_fec b) (bf_data_hash b) (node_id (bs_prims c) key) in
  br_owned s1 !! bf_data_hash b = Some (Incoming t) -> ic_source t = node_id (bs_prims c) key -> ic_completed t = false ->
  inv (ic_history t) known -> nth_error (br_tasks s1) (ic_task t) = Some task -> tk_phase task = Running ->
  forwarded c (bf_data_hash b) (bf_seqno b) s e = true
  /\ br_clock (bc_step c s e) = br_clock s
  /\ exists t' task', br_owned (bc_step c s e) !! bf_data_hash b = Some (Incoming t') /\ ic_source t' = node_id (bs_prims c) key
     /\ ic_completed t' = false /\ inv (ic_history t') [] /\ nth_error (br_tasks (bc_step c s e)) (ic_task t') = Some task' /\ tk_phase task' = Running.
Proof.
  intros c s en peer raw b key known t task Hsrc Hv Hlen Ht H1 H2 e s1 Ho Hso Hcm Hi Htk Hp.
  assert (Hsent : br_sent s1 = br_sent s) by (unfold s1, with_entry; now destruct (br_owned s !! _)).
  assert (Hclk : br_clock s1 = br_clock s) by (unfold s1, with_entry; now destruct (br_owned s !! _)).
  destruct (deliver_spec (bs_checks c) (ic_history t) known (bf_seqno b) Hi) as (o & h & Ed & _ & Hb & Hinv & _); [lia|lia|].
  unfold spec_deliver in *. assert (E256 : (256 <=? bf_seqno b) = true) by lia. rewrite E256 in *. cbn [fst snd] in *.
  destruct o; try discriminate Hb.
  assert (He : bc_step c s e = snd (receive_fec (bs_prims c) (bs_checks c) (bs_options c) en s peer raw b)) by reflexivity.
  unfold receive_fec in He. rewrite (timely_not_outdated c s _ Ht), Hsrc in He. unfold full_id in He. rewrite Hv, Hlen in He.
  cbn [Nat.eqb negb] in He. change (short_id (bs_prims c) key) with (node_id (bs_prims c) key) in He.
  change (match br_owned s !! bf_data_hash b with Some _ => s | None => spawn_fec_receiver (bs_options c) s (bf_fec b) (bf_data_hash b) (node_id (bs_prims c) key) end) with s1 in He.
  rewrite Ho, Hso, bytes_eqb_refl in He. cbn [negb] in He. rewrite Ed, Hcm in He. cbn [set_owned br_tasks] in He. rewrite Htk, Hp in He.
  split.
  { unfold forwarded, e. fold e. rewrite bytes_eqb_refl, N.eqb_refl, He. cbn [andb].
    cbn [snd distribute set_tasks set_owned br_sent]. rewrite app_length, Hsent. cbn [length]. apply Nat.ltb_lt. lia. }
  rewrite He. cbn [snd distribute set_tasks set_owned br_clock br_owned br_tasks].
  split; [exact Hclk|]. rewrite lookup_insert. eexists. eexists. split; [reflexivity|]. cbn [ic_source ic_completed ic_history ic_task].
  split; [solve [exact Hso|reflexivity]|]. split; [solve [exact Hcm|reflexivity]|]. split; [exact Hinv|].
  split; [rewrite (update_task_nth _ _ _ _ _ Htk), Nat.eqb_refl; reflexivity|exact Hp].
Qed.

Theorem always_forwarded : forall c clock en peer raw b key n,
  bf_src b = PkEd25519 key -> valid_pub (bs_prims c) key = true -> length (bf_signature b) = 64%nat ->
  timely c (bstate_new clock) (bf_date b) -> 256 <= bf_seqno b -> bf_seqno b < 2 ^ 32 ->
  forwards c (bf_data_hash b) (bf_seqno b) (bstate_new clock) (repeat (EvFec en peer raw b) n) = n.
Proof.
  intros c clock en peer raw b key n Hsrc Hv Hlen Ht H1 H2.
  assert (Hgo : forall n s t task known, br_clock s = clock -> br_owned s !! bf_data_hash b = Some (Incoming t) -> ic_source t = node_id (bs_prims c) key ->
    ic_completed t = false -> inv (ic_history t) known -> nth_error (br_tasks s) (ic_task t) = Some task -> tk_phase task = Running ->
    forwards c (bf_data_hash b) (bf_seqno b) s (repeat (EvFec en peer raw b) n) = n).
  { clear n. intros n. induction n as [|n IH]; intros s t task known Hclk Ho Hso Hcm Hi Htk Hp; [reflexivity|]. cbn [repeat forwards].
    assert (Hs1 : with_entry (bs_options c) s (bf_fec b) (bf_data_hash b) (node_id (bs_prims c) key) = s) by (unfold with_entry; now rewrite Ho).
    destruct (big_step c s en peer raw b key known t task) as (Hf & Hc & t' & task' & H3 & H4 & H5 & H6 & H7 & H8); try assumption; try (rewrite Hs1; assumption).
    { unfold timely, now_sec in *. rewrite Hclk. exact Ht. }
    rewrite Hf. rewrite (IH _ t' task' []); try assumption; [lia|congruence]. }
  destruct n as [|n]; [reflexivity|]. cbn [repeat forwards].
  destruct (big_step c (bstate_new clock) en peer raw b key [] (mk_incoming 0 false history_new (node_id (bs_prims c) key) clock 0)
              (mk_fec_task (bf_data_hash b) (node_id (bs_prims c) key) [] (decoder_new (bf_fec b)) 0 Running)) as (Hf & Hc & t' & task' & H3 & H4 & H5 & H6 & H7 & H8); try assumption; try reflexivity.
  - unfold with_entry. cbn [bstate_new br_owned]. rewrite lookup_empty. unfold spawn_fec_receiver. cbn [set_timers set_tasks set_owned br_owned]. now rewrite lookup_insert.
  - apply inv_new.
  - rewrite Hf. rewrite (Hgo n _ t' task' []); try assumption; reflexivity.
Qed.
