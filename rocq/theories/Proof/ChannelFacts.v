(** How channels are keyed, and when they are replaced. *)
From stdpp Require Import gmap.
From Coq Require Import NArith ZArith Lia.
From Coq Require Import ZifyBool ZifyNat ZifyN.
From Verif.Base Require Import Bytes BytesFacts Res.
From Verif.Model Require Import Crypto Tl ProtoAdnl Channel Peer AdnlNode Queries NodeQueries.
From Verif.Spec Require Import CryptoSpec ChannelSpec NodeSpec.
From Verif.Proof Require Import TalkFacts.
Open Scope N_scope.

Lemma swap_pairs_spec : forall n s, (length s <= n)%nat -> pairs_exchanged s (swap_pairs s).
Proof.
  induction n as [|n IH]; intros s Hn.
  - destruct s; [|cbn in Hn; lia]. split; [reflexivity|]. intros i Hi. cbn in Hi. lia.
  - destruct s as [|x [|y r]]; [split; [reflexivity|intros i Hi; cbn in Hi; lia]|split; [reflexivity|intros i Hi; cbn in Hi; lia]|].
    destruct (IH r) as [H1 H2]; [cbn in Hn; lia|]. cbn [swap_pairs]. split; [cbn [length]; lia|].
    intros [|i] Hi; [split; reflexivity|]. cbn [length] in Hi.
    replace (2 * S i)%nat with (S (S (2 * i))) by lia. cbn [nth_error Nat.add].
    replace (S (2 * i + 1)) with (S (2 * i + 1))%nat by lia. cbn [nth_error]. apply H2. lia.
Qed.

Lemma known_as_id : forall P s, known_as P s = compute_channel_id P s.
Proof. reflexivity. Qed.

Lemma smaller_lt : forall a b, smaller a b -> bytes_cmp a b = Lt.
Proof.
  intros a b (same & x & y & ra & rb & -> & -> & H). induction same as [|z same IH]; cbn [app bytes_cmp].
  - apply N.compare_lt_iff in H. now rewrite H.
  - now rewrite N.compare_refl.
Qed.

(** One side of a channel is keyed by this secret. *)
Lemma side_keyed : forall P s,
  sc_secret (pick false (side_from_secret P s)) = s
  /\ pairs_exchanged s (sc_secret (pick true (side_from_secret P s)))
  /\ forall priority, sc_id (pick priority (side_from_secret P s)) = known_as P (sc_secret (pick priority (side_from_secret P s))).
Proof.
  intros P s. split; [reflexivity|]. split; [exact (swap_pairs_spec (length s) s (le_n _))|]. intros [|]; reflexivity.
Qed.

Lemma channel_keyed : forall P local peer secret key date ctx,
  let c := channel_new P local peer secret key date ctx in
  let s := dh P secret key in
  (smaller local peer -> ch_in c = side_from_secret P s /\ ch_out c = side_from_secret P (rev s))
  /\ (smaller peer local -> ch_in c = side_from_secret P (rev s) /\ ch_out c = side_from_secret P s)
  /\ (local = peer -> ch_in c = side_from_secret P s /\ ch_out c = side_from_secret P s).
Proof.
  intros P local peer secret key date ctx c s. unfold c, channel_new. split; [|split]; intros H.
  - rewrite (smaller_lt _ _ H). split; reflexivity.
  - rewrite bytes_cmp_antisym, (smaller_lt _ _ H). split; reflexivity.
  - rewrite (proj2 (bytes_cmp_eq local peer) H). split; reflexivity.
Qed.

Lemma keys_derived : forall P local peer secret key date ctx,
  let c := channel_new P local peer secret key date ctx in
  let s := dh P secret key in
  (smaller local peer -> sc_secret (pick false (ch_in c)) = s /\ sc_secret (pick false (ch_out c)) = rev s)
  /\ (smaller peer local -> sc_secret (pick false (ch_in c)) = rev s /\ sc_secret (pick false (ch_out c)) = s)
  /\ (local = peer -> sc_secret (pick false (ch_in c)) = s /\ sc_secret (pick false (ch_out c)) = s)
  /\ pairs_exchanged (sc_secret (pick false (ch_in c))) (sc_secret (pick true (ch_in c)))
  /\ pairs_exchanged (sc_secret (pick false (ch_out c))) (sc_secret (pick true (ch_out c)))
  /\ forall priority, sc_id (pick priority (ch_in c)) = known_as P (sc_secret (pick priority (ch_in c)))
      /\ sc_id (pick priority (ch_out c)) = known_as P (sc_secret (pick priority (ch_out c))).
Proof.
  intros P local peer secret key date ctx c s.
  destruct (channel_keyed P local peer secret key date ctx) as (H1 & H2 & H3). fold c s in H1, H2, H3.
  split; [intros H; destruct (H1 H) as [-> ->]; split; reflexivity|].
  split; [intros H; destruct (H2 H) as [-> ->]; split; reflexivity|].
  split; [intros H; destruct (H3 H) as [-> ->]; split; reflexivity|].
  assert (E : exists i o, ch_in c = side_from_secret P i /\ ch_out c = side_from_secret P o).
  { unfold c, channel_new. destruct (bytes_cmp local peer); eexists; eexists; split; reflexivity. }
  destruct E as (i & o & -> & ->). destruct (side_keyed P i) as (_ & I1 & I2). destruct (side_keyed P o) as (_ & O1 & O2).
  split; [exact I1|]. split; [exact O1|]. intros priority. split; [apply I2|apply O2].
Qed.

(** ** Replacement *)
Lemma proposal : forall P fuel n local peer key date ps p,
  n_peers n !! local = Some ps -> ps !! peer = Some p -> valid_pub P key = true ->
  forall m, (m = MCreateChannel key date \/ exists own, m = MConfirmChannel key own date) ->
  let n' := snd (process_message P fuel n local peer m) in
  let confirmed := match m with MConfirmChannel _ _ _ => true | _ => false end in
  let new := channel_new P local peer (p_channel_secret p) key date (if confirmed then CtxConfirm else CtxCreate) in
  (forall h c, current n peer h c -> key = ch_peer_key c \/ date <= ch_peer_date c ->
     current n' peer h (if confirmed then set_ready c else c))
  /\ (forall h c, current n peer h c -> key <> ch_peer_key c -> ch_peer_date c < date ->
     exists h', n_heap n !! h' = None /\ current n' peer h' new)
  /\ (n_by_peer n !! peer = None -> exists h', n_heap n !! h' = None /\ current n' peer h' new).
Proof.
  intros P fuel n local peer key date ps p Hps Hp Hv m Hm n' confirmed new.
  assert (E : n' = snd (create_channel P n local peer key date (if confirmed then CtxConfirm else CtxCreate))).
  { unfold n', confirmed. destruct Hm as [->|[own ->]]; cbn [process_message process_whole]; rewrite Hv.
    - destruct (create_channel P n local peer key date CtxCreate) as [[|] ?]; reflexivity.
    - destruct (create_channel P n local peer key date CtxConfirm) as [[|] ?]; reflexivity. }
  rewrite E. unfold create_channel. rewrite Hps, Hp. fold new.
  assert (Hf : n_heap n !! fresh (dom (n_heap n)) = None) by (apply not_elem_of_dom, is_fresh).
  split; [|split].
  - intros h c [H1 H2] Hold. rewrite H1, H2. unfold is_still_valid.
    assert (Ev : bytes_eqb (ch_peer_key c) key || (date <=? ch_peer_date c) = true).
    { destruct Hold as [->|Hd]; [now rewrite bytes_eqb_refl|]. apply orb_true_iff. right. now apply N.leb_le. }
    rewrite Ev. destruct confirmed; cbn [snd]; split; cbn [set_channels n_by_peer n_heap]; try assumption. apply lookup_insert.
  - intros h c [H1 H2] Hk Hd. rewrite H1, H2. unfold is_still_valid.
    assert (Ev : bytes_eqb (ch_peer_key c) key || (date <=? ch_peer_date c) = false).
    { apply orb_false_iff. split; [apply bytes_eqb_neq; congruence|now apply N.leb_gt]. }
    rewrite Ev. exists (fresh (dom (n_heap n))). split; [exact Hf|]. cbn [snd]. split; cbn [set_channels n_by_peer n_heap]; apply lookup_insert.
  - intros H1. rewrite H1. exists (fresh (dom (n_heap n))). split; [exact Hf|]. cbn [snd]. split; cbn [set_channels n_by_peer n_heap]; apply lookup_insert.
Qed.

(** ** A query that cannot be sent *)
Lemma failed_start : forall P x now local peer id query priority rs e,
  q_table (qn_queries x) !! id = None ->
  fst (query_start P x now local peer id query priority rs) = Err e ->
  let x' := snd (query_start P x now local peer id query priority rs) in
  q_table (qn_queries x') = q_table (qn_queries x) /\ qn_node x' = qn_node x /\ qn_handed x' = qn_handed x
  /\ q_sent (qn_queries x') = q_sent (qn_queries x).
Proof.
  intros P x now local peer id query priority rs e Hid He x'. unfold x', query_start in *. clear x'.
  destruct (send_message P (qn_node x) now local peer (MQuery id query) priority rs) as [[u|e'] n] eqn:Es; [discriminate He|].
  apply send_error in Es. subst n. cbn [snd qn_queries qn_node qn_handed]. split; [|split; [reflexivity|split; [reflexivity|]]].
  - cbn [query_run fold_left query_step]. rewrite Hid. cbn [close q_list q_table q_sent].
    assert (El : (q_list (qn_queries x) ++ [(id, Waiting)]) !! length (q_list (qn_queries x)) = Some (id, Waiting)) by (rewrite list_lookup_middle by reflexivity; reflexivity).
    rewrite El. cbn [q_list q_table q_sent].
    unfold set_phase. rewrite list_lookup_imap, El. cbn [fmap option_fmap option_map fst]. rewrite Nat.eqb_refl.
    cbn [q_table]. apply delete_insert. exact Hid.
  - cbn [query_run fold_left query_step]. rewrite Hid. cbn [close q_list q_table q_sent].
    assert (El : (q_list (qn_queries x) ++ [(id, Waiting)]) !! length (q_list (qn_queries x)) = Some (id, Waiting)) by (rewrite list_lookup_middle by reflexivity; reflexivity).
    rewrite El. cbn [q_list q_table q_sent].
    unfold set_phase. rewrite list_lookup_imap, El. cbn [fmap option_fmap option_map fst]. rewrite Nat.eqb_refl. reflexivity.
Qed.
