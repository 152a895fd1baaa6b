(** When channels are reset (C25). *)
From stdpp Require Import gmap.
From Coq Require Import NArith Lia.
From Coq Require Import ZifyBool ZifyNat ZifyN.
From Verif.Base Require Import Bytes BytesFacts Res.
From Verif.Model Require Import Crypto Tl ProtoAdnl History Channel Handshake Peer Transfer AdnlNode.
From Verif.Spec Require Import NodeSpec.
From Verif.Proof Require Import NodeFacts NodeAuth NodeTables.
Open Scope N_scope.

(** A drop date that is set was set before. *)
Definition drops (a b : node) : Prop :=
  forall h c', n_heap b !! h = Some c' -> 0 < ch_drop c' -> exists c, n_heap a !! h = Some c /\ ch_drop c = ch_drop c'.

Lemma drops_refl : forall a, drops a a.
Proof. intros a h c H _. eauto. Qed.
Lemma drops_trans : forall a b c, drops a b -> drops b c -> drops a c.
Proof.
  intros a b c H1 H2 h z Hz Hd. destruct (H2 h z Hz Hd) as (y & Hy & E).
  rewrite <- E in Hd |- *. apply (H1 h y Hy Hd).
Qed.
Lemma drops_same : forall a b, n_heap b = n_heap a -> drops a b.
Proof. intros a b H h c Hc _. rewrite H in Hc. eauto. Qed.

Lemma create_drops : forall P n l i k d ctx, drops n (snd (create_channel P n l i k d ctx)).
Proof.
  intros P n l i k d ctx. unfold create_channel.
  destruct (n_peers n !! l) as [ps|]; [|apply drops_refl]. destruct (ps !! i) as [p|]; [|apply drops_refl].
  cbv zeta. set (new := channel_new P l i (p_channel_secret p) k d ctx).
  assert (Hnew : ch_drop new = 0).
  { unfold new, channel_new. destruct (bytes_cmp l i); reflexivity. }
  set (h := fresh (dom (n_heap n))) in *. clearbody new h.
  assert (Hins : forall a b, drops n (set_channels n (<[h := new]> (n_heap n)) a b)).
  { intros a b k' c Hc Hd. unfold set_channels in Hc. cbn [n_heap] in Hc.
    apply lookup_insert_Some in Hc as [[<- <-]|[_ Hc]]; [lia|eauto]. }
  destruct (n_by_peer n !! i) as [oh|]; [|apply Hins].
  destruct (n_heap n !! oh) as [c|] eqn:Ec; [|apply Hins].
  destruct (is_still_valid c k d); [|apply Hins]. cbn [snd]. destruct ctx; [apply drops_refl|].
  intros k' c' Hc Hd. unfold set_channels in Hc. cbn [n_heap] in Hc.
  apply lookup_insert_Some in Hc as [[<- <-]|[_ Hc]]; [|eauto]. exists c. auto.
Qed.

Lemma process_message_drops : forall P fuel n l i m, drops n (snd (process_message P fuel n l i m)).
Proof.
  assert (Hw : forall P n l i m, drops n (snd (process_whole P n l i m))).
  { intros P n l i m. destruct m; cbn [process_whole snd]; try apply drops_refl.
    - destruct (valid_pub P key); [|apply drops_refl].
      pose proof (create_drops P n l i key date CtxConfirm) as H.
      destruct (create_channel _ _ _ _ _ _ _) as [[|] ?]; exact H.
    - destruct (valid_pub P key); [|apply drops_refl].
      pose proof (create_drops P n l i key date CtxCreate) as H.
      destruct (create_channel _ _ _ _ _ _ _) as [[|] ?]; exact H. }
  intros P fuel n l i m. destruct m; cbn [process_message]; try apply Hw.
  destruct (process_part P fuel (n_transfers n) hash total_size offset data) as [r ts].
  assert (Ht : drops n (set_transfers n ts)) by (now apply drops_same).
  destruct r; try exact Ht. destruct (deserialize get_message message); [|exact Ht].
  eapply drops_trans; [exact Ht|apply Hw].
Qed.

Lemma process_messages_drops : forall P fuel ms n l i, drops n (snd (process_messages P fuel n l i ms)).
Proof.
  intros P fuel ms. induction ms as [|m ms IH]; intros n l i; cbn [process_messages]; [apply drops_refl|].
  pose proof (process_message_drops P fuel n l i m) as H.
  destruct (process_message P fuel n l i m) as [[ds|e] n1]; cbn [snd] in *; [|exact H].
  specialize (IH n1 l i). destruct (process_messages P fuel n1 l i ms) as [[o ds2] n2]. cbn [snd] in *.
  eapply drops_trans; eassumption.
Qed.

Lemma open_drops : forall P n data, drops n (snd (open_datagram P n data)).
Proof.
  intros P n data. destruct (open_datagram_effect P n data) as (_ & _ & _ & _ & _ & [->|(pr & h & c & H1 & H2 & H3)]).
  - apply drops_refl.
  - intros k x Hx Hd. rewrite H3 in Hx. apply lookup_insert_Some in Hx as [[<- <-]|[_ Hx]]; [cbn in Hd; lia|eauto].
Qed.

Lemma open_received : forall P n data h c', received_over P n data h ->
  n_heap (snd (open_datagram P n data)) !! h = Some c' -> ch_drop c' = 0.
Proof.
  intros P n data h c' (Hp & pr & c & v & ct & H1 & H2 & H3) H. unfold open_datagram in H.
  rewrite Hp, H1, H2, H3 in H. cbn in H. rewrite lookup_insert in H. injection H as <-. reflexivity.
Qed.

Lemma receive_after_open : forall P fuel n now data f rs,
  drops (snd (open_datagram P n data)) (snd (handle_received_data P fuel n now data f rs)).
Proof.
  intros. unfold handle_received_data.
  destruct (open_datagram P n data) as [[[o|]|e] n1]; cbn [snd] in *; try apply drops_refl.
  destruct (match od_version o with Some _ => _ | None => false end); [apply drops_refl|].
  destruct (parse_packet (od_contents o)) as [packet|]; [|apply drops_refl].
  pose proof (check_packet_effect P n1 now (od_contents o) packet (od_local o) (od_channel_peer o) (od_priority o) f rs) as Hq.
  pose proof (source_same_channels P n1 now (od_contents o) packet (od_local o) (od_channel_peer o) f) as H2.
  assert (H3 : drops n1 (snd (check_packet P n1 now (od_contents o) packet (od_local o) (od_channel_peer o) (od_priority o) f rs))).
  { apply drops_same. destruct Hq as [_ (Q & _) _ _]. destruct H2 as (Q2 & _). congruence. }
  destruct (check_packet P n1 now _ packet _ _ _ f rs) as [[[i|]|e] n2]; cbn [snd] in *; try exact H3.
  eapply drops_trans; [exact H3|]. apply process_messages_drops.
Qed.

Lemma reset_heap : forall n l i f, n_heap (snd (reset_peer n l i f)) = n_heap n.
Proof.
  intros. unfold reset_peer. destruct (n_peers n !! l) as [ps|]; [|reflexivity].
  destruct (ps !! i); [|reflexivity]. cbn [snd].
  destruct (put_peer_channels (drop_channel n i) l i (peer_reset p f)) as (H & _). rewrite <- H.
  apply drop_channel_effect.
Qed.

Lemma step_drop_cases : forall P fuel n o h c', n_heap (step P fuel n o) !! h = Some c' -> 0 < ch_drop c' ->
  (exists c, n_heap n !! h = Some c /\ ch_drop c = ch_drop c'
     /\ (forall now data f rs, o = OReceive now data f rs -> ~ received_over P n data h))
  \/ exists now l i f, o = OTimeout now l i (Some h) f
     /\ ch_drop c' = (now + o_channel_reset_timeout (n_opts n)) mod 2 ^ 32.
Proof.
  intros P fuel n o h c' H Hd.
  assert (Hs : (forall now data f rs, o <> OReceive now data f rs) -> drops n (step P fuel n o) ->
     (exists c, n_heap n !! h = Some c /\ ch_drop c = ch_drop c'
     /\ (forall now data f rs, o = OReceive now data f rs -> ~ received_over P n data h))).
  { intros Ho Hx. destruct (Hx h c' H Hd) as (c & C1 & C2). exists c. split; [assumption|]. split; [assumption|].
    intros. now apply Ho in H0. }
  destruct o; cbn [step] in *.
  - left. apply Hs; [discriminate|]. apply drops_same. destruct (add_peer_effect n ctx local_id peer_id addr key fresh) as (_ & (E & _) & _). congruence.
  - left. apply Hs; [discriminate|]. unfold remove_peer. destruct (n_peers n !! local_id); [|apply drops_refl].
    apply drops_same. apply (drop_channel_effect n peer_id).
  - left. apply Hs; [discriminate|]. apply drops_same. destruct (quiet_send P n now local_id peer_id m priority rs) as [_ (E & _) _ _]. congruence.
  - left. destruct (receive_after_open P fuel n now data fresh rs h c' H Hd) as (c1 & C1 & E1).
    assert (D1 : 0 < ch_drop c1) by lia.
    destruct (open_drops P n data h c1 C1 D1) as (c & C2 & E2). exists c. split; [assumption|]. split; [congruence|].
    intros now' data' f' rs' E. injection E as <- <- <- <-. intros Hr. pose proof (open_received _ _ _ _ _ Hr C1). lia.
  - destruct sent_over as [h0|]; cbn [query_timed_out] in *.
    2:{ left. apply Hs; [discriminate|apply drops_refl]. }
    destruct (n_heap n !! h0) as [c|] eqn:Ec.
    2:{ left. apply Hs; [discriminate|apply drops_refl]. }
    unfold update_drop_timeout in *. cbv zeta beta iota in *.
    set (n' := set_channels _ _ _ _) in *.
    assert (Hh : n_heap n' !! h = Some c').
    { destruct (_ && _); [|exact H]. rewrite reset_heap in H. exact H. }
    unfold n', set_channels in Hh. cbn [n_heap] in Hh.
    apply lookup_insert_Some in Hh as [[<- <-]|[Hne Hh]].
    + cbn [ch_drop] in *. destruct (ch_drop c =? 0) eqn:E0.
      * right. exists now, local_id, peer_id, fresh. auto.
      * left. exists c. split; [assumption|]. split; [reflexivity|]. discriminate.
    + left. exists c'. split; [assumption|]. split; [reflexivity|]. discriminate.
  - left. apply Hs; [discriminate|]. now apply drops_same.
Qed.

Lemma run_app : forall P fuel n a b, run P fuel n (a ++ b) = run P fuel (run P fuel n a) b.
Proof. intros. apply fold_left_app. Qed.

Lemma step_opts : forall P fuel n o, n_opts (step P fuel n o) = n_opts n.
Proof.
  intros P fuel m o. destruct o; cbn [step].
  - destruct (add_peer_effect m ctx local_id peer_id addr key fresh) as ((_ & _ & E & _) & _). auto.
  - unfold remove_peer. destruct (n_peers m !! local_id); [|auto with node]. cbn [snd set_peers n_opts].
    destruct (drop_channel_effect m peer_id) as ((_ & _ & E & _) & _). auto.
  - destruct (quiet_send P m now local_id peer_id m0 priority rs) as [(_ & _ & E & _) _ _ _]. auto.
  - pose proof (open_datagram_effect P m data) as (Hs & _). destruct Hs as (_ & _ & Hs & _). unfold handle_received_data.
    destruct (open_datagram P m data) as [[[od|]|e] n1]; cbn [snd] in *; try (symmetry; exact Hs).
    destruct (match od_version od with Some _ => _ | None => false end); [symmetry; exact Hs|].
    destruct (parse_packet (od_contents od)) as [packet|]; [|symmetry; exact Hs].
    pose proof (check_packet_effect P n1 now (od_contents od) packet (od_local od) (od_channel_peer od) (od_priority od) fresh rs) as Hq.
    pose proof (packet_source_frame P n1 now (od_contents od) packet (od_local od) (od_channel_peer od) fresh) as [Hf _].
    assert (H3 : n_opts (snd (check_packet P n1 now (od_contents od) packet (od_local od) (od_channel_peer od) (od_priority od) fresh rs)) = n_opts m).
    { destruct Hq as [(_ & _ & Q & _) _ _ _]. destruct Hf as (_ & _ & F & _). congruence. }
    destruct (check_packet P n1 now _ packet _ _ _ fresh rs) as [[[j|]|e] n2]; cbn [snd] in *; try exact H3.
    destruct (process_messages_effect P fuel (ip_messages packet) n2 (od_local od) j) as ((_ & _ & E & _) & _). congruence.
  - destruct sent_over as [h|]; cbn [query_timed_out]; [|reflexivity].
    destruct (n_heap m !! h) as [c|]; [|reflexivity].
    destruct (update_drop_timeout _ _ _) as [b t]. set (n' := set_channels _ _ _ _).
    assert (H' : n_opts n' = n_opts m) by reflexivity.
    destruct b; [|exact H']. unfold reset_peer.
    destruct (n_peers n' !! local_id) as [ps|]; [|exact H'].
    destruct (ps !! peer_id); [|exact H']. cbn [snd].
    destruct (put_peer_setup (drop_channel n' peer_id) local_id peer_id (peer_reset p fresh)) as (_ & _ & E & _).
    destruct (drop_channel_effect n' peer_id) as ((_ & _ & E2 & _) & _). congruence.
  - reflexivity.
Qed.

Lemma run_opts : forall P fuel ops n, n_opts (run P fuel n ops) = n_opts n.
Proof.
  intros P fuel ops. induction ops as [|o ops IH]; intros n; [reflexivity|].
  cbn [run fold_left]. rewrite <- (step_opts P fuel n o). apply IH.
Qed.

(** A drop date in a history, and where it comes from. *)
Lemma drop_origin : forall P fuel addr start opts filter keys ops h c,
  let n0 := node_new addr start opts filter keys in
  n_heap (run P fuel n0 ops) !! h = Some c -> 0 < ch_drop c ->
  exists before t l i f after, ops = before ++ OTimeout t l i (Some h) f :: after
  /\ ch_drop c = (t + o_channel_reset_timeout opts) mod 2 ^ 32
  /\ forall between now data f' rs rest, after = between ++ OReceive now data f' rs :: rest ->
     ~ received_over P (run P fuel n0 (before ++ OTimeout t l i (Some h) f :: between)) data h.
Proof.
  intros P fuel addr start opts filter keys ops h c n0. revert c.
  induction ops as [|o ops IH] using rev_ind; intros c H Hd.
  { cbn in H. rewrite lookup_empty in H. discriminate. }
  rewrite run_app in H. cbn [run fold_left] in H.
  apply step_drop_cases in H; [|assumption]. change (fold_left (step P fuel) ops n0) with (run P fuel n0 ops) in H.
  destruct H as [(c1 & H1 & H2 & H3)|(now & l & i & f & -> & H)].
  - destruct (IH c1 H1 ltac:(lia)) as (before & t & l & i & f & after & -> & E & Hno).
    exists before, t, l, i, f, (after ++ [o]). split; [now rewrite <- app_assoc|]. split; [congruence|].
    intros between now data f' rs rest Hsplit.
    destruct rest as [|x rest] using rev_ind.
    + apply app_inj_tail in Hsplit as [-> ->]. apply (H3 now data f' rs eq_refl).
    + clear IHrest. change (between ++ OReceive now data f' rs :: rest ++ [x])
        with (between ++ (OReceive now data f' rs :: rest) ++ [x]) in Hsplit.
      rewrite app_assoc in Hsplit. apply app_inj_tail in Hsplit as [-> _]. now apply (Hno between now data f' rs rest).
  - exists ops, now, l, i, f, []. split; [reflexivity|]. rewrite run_opts in H. split; [exact H|].
    intros between now' data f' rs rest E. destruct between; discriminate.
Qed.

Lemma reset_after_silence : forall P fuel addr start opts filter keys ops now l i h f,
  let n0 := node_new addr start opts filter keys in
  let n := run P fuel n0 ops in
  let n' := step P fuel n (OTimeout now l i (Some h) f) in
  (forall t l i h f, In (OTimeout t l i h f) ops -> t + o_channel_reset_timeout opts < 2 ^ 32) ->
  n_peers n' <> n_peers n \/ n_by_peer n' <> n_by_peer n \/ n_by_id n' <> n_by_id n ->
  exists before t l' i' f' after, ops = before ++ OTimeout t l' i' (Some h) f' :: after
  /\ t + o_channel_reset_timeout opts < now
  /\ forall between now' data f'' rs rest, after = between ++ OReceive now' data f'' rs :: rest ->
     ~ received_over P (run P fuel n0 (before ++ OTimeout t l' i' (Some h) f' :: between)) data h.
Proof.
  intros P fuel addr start opts filter keys ops now l i h f n0 n n' Hclock Hch.
  unfold n' in Hch. cbn [step query_timed_out] in Hch.
  destruct (n_heap n !! h) as [c|] eqn:Ec; [|exfalso; destruct Hch as [H|[H|H]]; now apply H].
  unfold update_drop_timeout in Hch. cbv beta iota in Hch.
  destruct ((0 <? ch_drop c) && (ch_drop c <? now)) eqn:Ed;
    [|exfalso; destruct Hch as [H|[H|H]]; now apply H].
  destruct (drop_origin P fuel addr start opts filter keys ops h c Ec ltac:(lia))
    as (before & t & l' & i' & f' & after & E & Hd & Hno).
  exists before, t, l', i', f', after. split; [exact E|]. split; [|exact Hno].
  rewrite N.mod_small in Hd; [lia|].
  apply (Hclock t l' i' (Some h) f'). rewrite E. apply in_app_iff. right. now left.
Qed.
