(** Channel tables (C18) and channel resets (C25) over all histories. *)
From stdpp Require Import gmap.
From Coq Require Import NArith Lia.
From Coq Require Import ZifyBool ZifyNat ZifyN.
From Verif.Base Require Import Bytes BytesFacts Res.
From Verif.Model Require Import Crypto Tl ProtoAdnl History Channel Handshake Peer Transfer AdnlNode.
From Verif.Spec Require Import NodeSpec.
From Verif.Proof Require Import NodeFacts NodeAuth.
Open Scope N_scope.

(** Channels are never forgotten by the model's heap and keep their identity. *)
Definition heap_ext (a b : node) : Prop :=
  forall h c, n_heap a !! h = Some c -> exists c', n_heap b !! h = Some c' /\ ch_in c' = ch_in c /\ ch_peer c' = ch_peer c.
Definition keeps (a b : node) : Prop :=
  heap_ext a b /\ (no_id_collision b -> tables_consistent a -> tables_consistent b).

Lemma heap_ext_refl : forall a, heap_ext a a.
Proof. intros a h c H. eauto. Qed.
Lemma heap_ext_trans : forall a b c, heap_ext a b -> heap_ext b c -> heap_ext a c.
Proof.
  intros a b c H1 H2 h x Hx. destruct (H1 h x Hx) as (y & Hy & E1 & E2).
  destruct (H2 h y Hy) as (z & Hz & E3 & E4). exists z. repeat split; congruence.
Qed.
Lemma heap_ext_collision : forall a b, heap_ext a b -> no_id_collision b -> no_id_collision a.
Proof.
  intros a b H Hb h1 c1 b1 h2 c2 b2 H1 H2 He.
  destruct (H _ _ H1) as (d1 & D1 & E1 & E2). destruct (H _ _ H2) as (d2 & D2 & E3 & E4).
  rewrite <- E2, <- E4. apply (Hb h1 d1 b1 h2 d2 b2 D1 D2).
  unfold channel_in_id in *. now rewrite E1, E3.
Qed.
Lemma keeps_trans : forall a b c, keeps a b -> keeps b c -> keeps a c.
Proof.
  intros a b c [H1 H2] [H3 H4]. split; [eapply heap_ext_trans; eauto|].
  intros Hc Ha. apply H4; [assumption|]. apply H2; [|assumption]. eapply heap_ext_collision; eauto.
Qed.
Lemma keeps_refl : forall a, keeps a a.
Proof. intros a. split; [apply heap_ext_refl|auto]. Qed.
Lemma keeps_same : forall a b, same_channels a b -> keeps a b.
Proof.
  intros a b (H1 & H2 & H3). split.
  - intros h c H. rewrite <- H1. eauto.
  - intros _ H. unfold tables_consistent, current in *. now rewrite <- H1, <- H2, <- H3.
Qed.

Lemma keeps_update : forall (a b : node) h c c',
  n_heap a !! h = Some c -> n_heap b = <[h := c']> (n_heap a) -> ch_in c' = ch_in c -> ch_peer c' = ch_peer c ->
  n_by_id b = n_by_id a -> n_by_peer b = n_by_peer a -> keeps a b.
Proof.
  intros a b h c c' Hc Hb Hin Hpeer Hid Hbp.
  assert (Hext : heap_ext a b).
  { intros k x Hx. rewrite Hb. destruct (decide (k = h)) as [->|Hne].
    - rewrite lookup_insert. rewrite Hc in Hx. injection Hx as <-. eauto.
    - rewrite lookup_insert_ne by congruence. eauto. }
  split; [exact Hext|]. intros _ [T1 T2]. split.
  - intros id pr k H. rewrite Hid in H. destruct (T1 _ _ _ H) as (peer & x & [X1 X2] & X3).
    destruct (Hext _ _ X2) as (y & Y1 & Y2 & Y3). exists peer, y. unfold current. rewrite Hbp.
    repeat split; try assumption. unfold channel_in_id in *. now rewrite Y2.
  - intros peer k H. rewrite Hbp in H. destruct (T2 _ _ H) as (x & X1 & X2 & X3).
    destruct (Hext _ _ X1) as (y & Y1 & Y2 & Y3). exists y. repeat split; try congruence.
    intros pr. rewrite Hid. unfold channel_in_id. rewrite Y2. apply X3.
Qed.

Lemma drop_keeps : forall n i, keeps n (drop_channel n i).
Proof.
  intros n i. unfold drop_channel.
  destruct (n_by_peer n !! i) as [h|] eqn:Eh; [|apply keeps_refl].
  destruct (n_heap n !! h) as [c|] eqn:Ec; [|apply keeps_refl].
  split; [intros k x Hx; eauto|]. intros Hno [T1 T2].
  unfold tables_consistent, current, set_channels. cbn [n_by_id n_by_peer n_heap].
  assert (Hcur : forall j k x b b', n_by_peer n !! j = Some k -> n_heap n !! k = Some x -> j <> i ->
    channel_in_id x b <> channel_in_id c b').
  { intros j k x b b' Hj Hk Hne He. destruct (Hno k x b h c b' Hk Ec He) as [Hp _].
    destruct (T2 _ _ Hj) as (x' & X1 & X2 & _). destruct (T2 _ _ Eh) as (c' & C1 & C2 & _).
    assert (x' = x) by congruence. assert (c' = c) by congruence. subst. congruence. }
  split.
  - intros id pr k H. apply lookup_delete_Some in H as [N1 H]. apply lookup_delete_Some in H as [N2 H].
    destruct (T1 _ _ _ H) as (peer & x & [X1 X2] & X3). exists peer, x. repeat split; try assumption.
    apply lookup_delete_Some. split; [|assumption]. intros ->.
    assert (k = h) by congruence. subst k. assert (x = c) by congruence. subst x. destruct pr; congruence.
  - intros peer k H. apply lookup_delete_Some in H as [N1 H].
    destruct (T2 _ _ H) as (x & X1 & X2 & X3). exists x. split; [assumption|]. split; [assumption|].
    intros pr. rewrite !lookup_delete_ne; [apply X3|..].
    + intros E. symmetry in E. revert E. eapply Hcur; eauto.
    + intros E. symmetry in E. revert E. eapply Hcur; eauto.
Qed.

(** Installing a new channel of a peer that has none. *)
Lemma install_keeps : forall n h i new,
  n_heap n !! h = None -> ch_peer new = i -> n_by_peer n !! i = None ->
  keeps n (set_channels n (<[h := new]> (n_heap n))
    (<[channel_in_id new true := (true, h)]> (<[channel_in_id new false := (false, h)]> (n_by_id n)))
    (<[i := h]> (n_by_peer n))).
Proof.
  intros n h i new Hh Hp Hi.
  set (n' := set_channels _ _ _ _).
  assert (Hext : heap_ext n n').
  { intros k x Hx. unfold n', set_channels. cbn [n_heap]. rewrite lookup_insert_ne by congruence. eauto. }
  split; [exact Hext|]. intros Hno [T1 T2].
  assert (Hnew : n_heap n' !! h = Some new) by apply lookup_insert.
  assert (Hcur : forall j k x b b', n_by_peer n !! j = Some k -> n_heap n !! k = Some x ->
    channel_in_id x b <> channel_in_id new b').
  { intros j k x b b' Hj Hk He. destruct (T2 _ _ Hj) as (x' & X1 & X2 & _). assert (x' = x) by congruence. subst x'.
    destruct (Hext _ _ Hk) as (y & Y1 & Y2 & Y3).
    destruct (Hno k y b h new b' Y1 Hnew) as [E _]. { unfold channel_in_id in *. now rewrite Y2. }
    congruence. }
  assert (Hself : channel_in_id new true <> channel_in_id new false).
  { intros E. destruct (Hno h new true h new false Hnew Hnew E). discriminate. }
  split.
  - intros id pr k H. unfold n', set_channels in H. cbn [n_by_id] in H.
    apply lookup_insert_Some in H as [[<- E]|[N1 H]].
    { injection E as <- <-. exists i, new. unfold current. cbn. rewrite !lookup_insert. auto. }
    apply lookup_insert_Some in H as [[<- E]|[N2 H]].
    { injection E as <- <-. exists i, new. unfold current. cbn. rewrite !lookup_insert. auto. }
    destruct (T1 _ _ _ H) as (peer & x & [X1 X2] & X3). exists peer, x. unfold current. cbn.
    rewrite !lookup_insert_ne by congruence. auto.
  - intros peer k H. unfold n', set_channels in *. cbn [n_by_peer n_heap n_by_id] in *.
    apply lookup_insert_Some in H as [[<- <-]|[N1 H]].
    { exists new. split; [exact Hnew|]. split; [exact Hp|].
      intros []; [now rewrite lookup_insert|]. rewrite lookup_insert_ne by assumption. now rewrite lookup_insert. }
    destruct (T2 _ _ H) as (x & X1 & X2 & X3). exists x. rewrite lookup_insert_ne by congruence.
    split; [assumption|]. split; [assumption|]. intros pr.
    rewrite !lookup_insert_ne; [apply X3|..]; intros E; symmetry in E; revert E; eapply Hcur; eauto.
Qed.

Lemma create_keeps : forall P n l i k d ctx, keeps n (snd (create_channel P n l i k d ctx)).
Proof.
  intros P n l i k d ctx. unfold create_channel.
  destruct (n_peers n !! l) as [ps|]; [|apply keeps_refl]. destruct (ps !! i) as [p|]; [|apply keeps_refl].
  cbv zeta. set (new := channel_new P l i (p_channel_secret p) k d ctx).
  assert (Hnp : ch_peer new = i).
  { unfold new, channel_new. destruct (bytes_cmp l i); reflexivity. }
  assert (Hfresh : n_heap n !! fresh (dom (n_heap n)) = None).
  { apply not_elem_of_dom. apply is_fresh. }
  set (h := fresh (dom (n_heap n))) in *. clearbody new h.
  destruct (n_by_peer n !! i) as [oh|] eqn:Eo; [|cbn [snd]; apply install_keeps; assumption].
  destruct (n_heap n !! oh) as [c|] eqn:Ec.
  - destruct (is_still_valid c k d); cbn [snd].
    + destruct ctx; [apply keeps_refl|].
      eapply (keeps_update n _ oh c (set_ready c)); [exact Ec|reflexivity..].
    + (* the replacement is a removal followed by an installation *)
      pose proof (drop_keeps n i) as Hd. unfold drop_channel in Hd. rewrite Eo, Ec in Hd.
      set (m := set_channels n (n_heap n) _ _) in Hd.
      eapply keeps_trans; [exact Hd|].
      pose proof (install_keeps m h i new Hfresh Hnp) as Hi. unfold m in Hi at 1. cbn [n_by_peer set_channels] in Hi.
      rewrite lookup_delete in Hi. specialize (Hi eq_refl).
      unfold m, set_channels in *. cbn [n_by_peer n_by_id n_heap n_addr n_start n_opts n_filter n_keys n_peers n_transfers n_out] in *.
      rewrite insert_delete_insert in Hi. exact Hi.
  - (* a handle without channel: the tables were not consistent *)
    cbn [snd]. split.
    + intros x y Hx. unfold set_channels. cbn [n_heap]. rewrite lookup_insert_ne by congruence. eauto.
    + intros _ [_ T2]. destruct (T2 _ _ Eo) as (x & X & _). congruence.
Qed.

Lemma process_message_keeps : forall P fuel n l i m, keeps n (snd (process_message P fuel n l i m)).
Proof.
  assert (Hw : forall P n l i m, keeps n (snd (process_whole P n l i m))).
  { intros P n l i m. destruct m; cbn [process_whole snd]; try apply keeps_refl.
    - destruct (valid_pub P key); [|apply keeps_refl].
      pose proof (create_keeps P n l i key date CtxConfirm) as H.
      destruct (create_channel _ _ _ _ _ _ _) as [[|] ?]; exact H.
    - destruct (valid_pub P key); [|apply keeps_refl].
      pose proof (create_keeps P n l i key date CtxCreate) as H.
      destruct (create_channel _ _ _ _ _ _ _) as [[|] ?]; exact H. }
  intros P fuel n l i m. destruct m; cbn [process_message]; try apply Hw.
  destruct (process_part P fuel (n_transfers n) hash total_size offset data) as [r ts].
  assert (Ht : keeps n (set_transfers n ts)) by (apply keeps_same; unfold same_channels; auto).
  destruct r; try exact Ht. destruct (deserialize get_message message); [|exact Ht].
  eapply keeps_trans; [exact Ht|apply Hw].
Qed.

Lemma process_messages_keeps : forall P fuel ms n l i, keeps n (snd (process_messages P fuel n l i ms)).
Proof.
  intros P fuel ms. induction ms as [|m ms IH]; intros n l i; cbn [process_messages]; [apply keeps_refl|].
  pose proof (process_message_keeps P fuel n l i m) as H.
  destruct (process_message P fuel n l i m) as [[ds|e] n1]; cbn [snd] in *; [|exact H].
  specialize (IH n1 l i). destruct (process_messages P fuel n1 l i ms) as [[o ds2] n2]. cbn [snd] in *.
  eapply keeps_trans; eassumption.
Qed.

Lemma open_keeps : forall P n data, keeps n (snd (open_datagram P n data)).
Proof.
  intros P n data. destruct (open_datagram_effect P n data) as (_ & _ & _ & Hid & Hbp & [->|(pr & h & c & H1 & H2 & H3)]).
  - apply keeps_refl.
  - eapply keeps_update; eauto; reflexivity.
Qed.

Lemma source_same_channels : forall P n now raw packet l cp f,
  same_channels n (snd (packet_source P n now raw packet l cp f)).
Proof. intros. apply packet_source_frame. Qed.

Lemma receive_keeps : forall P fuel n now data f rs, keeps n (snd (handle_received_data P fuel n now data f rs)).
Proof.
  intros. pose proof (open_keeps P n data) as H1. unfold handle_received_data.
  destruct (open_datagram P n data) as [[[o|]|e] n1]; cbn [snd] in *; try exact H1.
  destruct (match od_version o with Some _ => _ | None => false end); [exact H1|].
  destruct (parse_packet (od_contents o)) as [packet|]; [|exact H1].
  pose proof (check_packet_effect P n1 now (od_contents o) packet (od_local o) (od_channel_peer o) (od_priority o) f rs) as Hq.
  pose proof (source_same_channels P n1 now (od_contents o) packet (od_local o) (od_channel_peer o) f) as H2.
  assert (H3 : keeps n (snd (check_packet P n1 now (od_contents o) packet (od_local o) (od_channel_peer o) (od_priority o) f rs))).
  { eapply keeps_trans; [exact H1|]. apply keeps_same. eapply same_channels_trans; [exact H2|apply Hq]. }
  destruct (check_packet P n1 now _ packet _ _ _ f rs) as [[[i|]|e] n2]; cbn [snd] in *; try exact H3.
  eapply keeps_trans; [exact H3|]. apply process_messages_keeps.
Qed.

Lemma set_peers_channels : forall n x, same_channels n (set_peers n x).
Proof. intros. unfold same_channels. auto. Qed.

Lemma reset_keeps : forall n l i f, keeps n (snd (reset_peer n l i f)).
Proof.
  intros. unfold reset_peer. destruct (n_peers n !! l) as [ps|]; [|apply keeps_refl].
  destruct (ps !! i); [|apply keeps_refl]. cbn [snd]. eapply keeps_trans; [apply drop_keeps|].
  apply keeps_same, put_peer_channels.
Qed.

Lemma timeout_keeps : forall n now l i h f, keeps n (snd (query_timed_out n now l i h f)).
Proof.
  intros n now l i [h|] f; cbn [query_timed_out snd]; [|apply keeps_refl].
  destruct (n_heap n !! h) as [c|] eqn:Ec; [|apply keeps_refl].
  destruct (update_drop_timeout _ _ _) as [b t].
  set (n' := set_channels _ _ _ _).
  assert (H : keeps n n') by (eapply keeps_update; [exact Ec|reflexivity..]).
  destruct b; [|exact H]. eapply keeps_trans; [exact H|apply reset_keeps].
Qed.

Lemma step_keeps : forall P fuel n o, keeps n (step P fuel n o).
Proof.
  intros P fuel n o. destruct o; cbn [step].
  - apply keeps_same. apply add_peer_effect.
  - unfold remove_peer. destruct (n_peers n !! local_id) as [ps|]; [|apply keeps_refl]. cbn [snd].
    eapply keeps_trans; [apply drop_keeps|]. apply keeps_same, set_peers_channels.
  - apply keeps_same. apply quiet_send.
  - apply receive_keeps.
  - apply timeout_keeps.
  - apply keeps_same. unfold same_channels. auto.
Qed.

Lemma run_keeps : forall P fuel ops n, keeps n (run P fuel n ops).
Proof.
  intros P fuel ops. induction ops as [|o ops IH]; intros n; [apply keeps_refl|].
  cbn [run fold_left]. eapply keeps_trans; [apply step_keeps|apply IH].
Qed.

Lemma tables_always_consistent : forall P fuel addr start opts filter keys ops,
  let n := run P fuel (node_new addr start opts filter keys) ops in
  no_id_collision n -> tables_consistent n.
Proof.
  intros. apply run_keeps; [assumption|]. split.
  - intros id pr h H'. cbn in H'. rewrite lookup_empty in H'. discriminate.
  - intros p h H'. cbn in H'. rewrite lookup_empty in H'. discriminate.
Qed.
