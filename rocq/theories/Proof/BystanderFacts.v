(** Operations that do not concern a peer leave the connection with it alone (C96). *)
From stdpp Require Import gmap.
From Coq Require Import NArith Lia.
From Coq Require Import ZifyBool ZifyNat ZifyN.
From Verif.Base Require Import Bytes BytesFacts Res.
From Verif.Model Require Import Crypto Tl ProtoAdnl History Channel Handshake Peer Transfer AdnlNode.
From Verif.Spec Require Import NodeSpec BystanderSpec.
From Verif.Proof Require Import NodeFacts NodeAuth NodeTables.
Open Scope N_scope.

(** The channel of a peer is a channel with that peer. *)
Definition own (n : node) : Prop :=
  forall q h, n_by_peer n !! q = Some h -> exists c, n_heap n !! h = Some c /\ ch_peer c = q.
(** The ids [K] are not ids of channels with others. *)
Definition apart (K : bytes -> Prop) (y : bytes) (n : node) : Prop :=
  forall h c pr, n_heap n !! h = Some c -> ch_peer c <> y -> ~ K (channel_in_id c pr).
Record framed (K : bytes -> Prop) (x y : bytes) (n n' : node) : Prop := mk_framed
  { fr_setup : same_setup n n';
    fr_peer : get_peer n' x y = get_peer n x y;
    fr_by_peer : n_by_peer n' !! y = n_by_peer n !! y;
    fr_heap : forall h c, current n y h c -> n_heap n' !! h = Some c;
    fr_by_id : forall i, K i -> n_by_id n' !! i = n_by_id n !! i;
    fr_own : own n' }.

Lemma own_new : forall a s o f k, own (node_new a s o f k).
Proof. intros a s o f k q h H. cbn in H. rewrite lookup_empty in H. discriminate H. Qed.
Lemma own_ext : forall a b, own a -> heap_ext a b -> n_by_peer b = n_by_peer a -> own b.
Proof.
  intros a b Ho He Hb q h H. rewrite Hb in H. destruct (Ho q h H) as (c & C1 & C2).
  destruct (He h c C1) as (c' & D1 & _ & D2). exists c'. split; [exact D1|congruence].
Qed.
Lemma own_same : forall a b, own a -> same_channels a b -> own b.
Proof. intros a b H (E1 & E2 & E3) q h Hq. rewrite <- E3 in Hq. rewrite <- E1. auto. Qed.
Lemma apart_back : forall K y a b, heap_ext a b -> apart K y b -> apart K y a.
Proof.
  intros K y a b He Hb h c pr Hc Hne Hk. destruct (He h c Hc) as (c' & D1 & D2 & D3).
  apply (Hb h c' pr D1); [congruence|]. unfold channel_in_id in *. now rewrite D2.
Qed.

Section frame.
Variables (K : bytes -> Prop) (x y : bytes).
Notation framed := (framed K x y).

Lemma framed_refl : forall n, own n -> framed n n.
Proof. intros n H. constructor; auto using same_setup_refl. intros h c [_ Hc]. exact Hc. Qed.
Lemma framed_trans : forall a b c, framed a b -> framed b c -> framed a c.
Proof.
  intros a b c [A1 A2 A3 A4 A5 A6] [B1 B2 B3 B4 B5 B6]. constructor; try congruence; auto.
  - eapply same_setup_trans; eassumption.
  - intros h d Hd. apply B4. split; [rewrite A3; apply Hd|apply A4; exact Hd].
  - intros i Hi. rewrite B5 by assumption. auto.
Qed.
Lemma framed_same : forall n n', own n -> same_setup n n' -> same_channels n n' ->
  get_peer n' x y = get_peer n x y -> framed n n'.
Proof.
  intros n n' Ho Hs (E1 & E2 & E3) Hg. constructor; auto.
  - now rewrite E3.
  - intros h c [_ Hc]. now rewrite <- E1.
  - intros i _. now rewrite E2.
  - eapply own_same; [exact Ho|]. now repeat split.
Qed.

Lemma framed_put : forall n l i p, own n -> (l <> x \/ i <> y) -> framed n (put_peer n l i p).
Proof.
  intros n l i p Ho Hne. apply framed_same; [assumption|apply put_peer_setup|apply put_peer_channels|].
  apply get_put_other. intros E. injection E as E1 E2. destruct Hne; congruence.
Qed.

(** The channel of another peer is another one. *)
Lemma other_handle : forall n h c h' c', own n -> current n y h c -> n_heap n !! h' = Some c' ->
  ch_peer c' <> y -> h' <> h.
Proof.
  intros n h c h' c' Ho [Hb Hc] Hc' Hne ->. destruct (Ho y h Hb) as (d & D1 & D2). congruence.
Qed.

Lemma framed_update : forall n h c c', own n -> n_heap n !! h = Some c -> ch_peer c <> y ->
  ch_in c' = ch_in c -> ch_peer c' = ch_peer c ->
  framed n (set_channels n (<[h := c']> (n_heap n)) (n_by_id n) (n_by_peer n)).
Proof.
  intros n h c c' Ho Hc Hne Hi Hp. set (n' := set_channels _ _ _ _).
  assert (Hk : keeps n n') by (eapply (keeps_update n n' h c c'); [exact Hc|reflexivity|exact Hi|exact Hp|reflexivity..]).
  constructor; try reflexivity.
  - now repeat split.
  - intros k d Hd. unfold n', set_channels. cbn [n_heap]. rewrite lookup_insert_ne; [apply Hd|].
    eapply other_handle; eassumption.
  - eapply own_ext; [exact Ho|apply Hk|reflexivity].
Qed.

Lemma framed_drop : forall n q, own n -> apart K y n -> q <> y -> framed n (drop_channel n q).
Proof.
  intros n q Ho Ha Hne. unfold drop_channel.
  destruct (n_by_peer n !! q) as [h|] eqn:Eh; [|now apply framed_refl].
  destruct (n_heap n !! h) as [c|] eqn:Ec; [|now apply framed_refl].
  assert (Hp : ch_peer c <> y). { destruct (Ho q h Eh) as (d & D1 & D2). congruence. }
  constructor.
  - now repeat split.
  - reflexivity.
  - cbn [set_channels n_by_peer]. now rewrite lookup_delete_ne.
  - intros k d [_ Hd]. exact Hd.
  - intros i Hi. cbn [set_channels n_by_id]. rewrite !lookup_delete_ne; [reflexivity|..]; intros <-.
    + exact (Ha h c _ Ec Hp Hi).
    + exact (Ha h c _ Ec Hp Hi).
  - intros q' k Hk. cbn [set_channels n_by_peer n_heap] in *. apply lookup_delete_Some in Hk as [_ Hk]. auto.
Qed.

(** A new channel with another peer. *)
Lemma framed_install : forall n h q new, own n -> n_heap n !! h = None -> ch_peer new = q -> q <> y ->
  (forall pr, ~ K (channel_in_id new pr)) ->
  framed n (set_channels n (<[h := new]> (n_heap n))
    (<[channel_in_id new true := (true, h)]> (<[channel_in_id new false := (false, h)]> (n_by_id n)))
    (<[q := h]> (n_by_peer n))).
Proof.
  intros n h q new Ho Hh Hq Hne Hk. constructor.
  - now repeat split.
  - reflexivity.
  - cbn [set_channels n_by_peer]. now rewrite lookup_insert_ne.
  - intros k c [_ Hc]. cbn [set_channels n_heap]. rewrite lookup_insert_ne; [exact Hc|congruence].
  - intros i Hi. cbn [set_channels n_by_id]. rewrite !lookup_insert_ne; [reflexivity|..]; intros <-.
    + exact (Hk _ Hi).
    + exact (Hk _ Hi).
  - intros q' k Hk'. cbn [set_channels n_by_peer n_heap] in *.
    apply lookup_insert_Some in Hk' as [[<- <-]|[_ Hk']].
    + exists new. now rewrite lookup_insert.
    + destruct (Ho q' k Hk') as (c & C1 & C2). exists c. rewrite lookup_insert_ne by congruence. auto.
Qed.

Lemma framed_create : forall P n l q k d ctx, own n -> q <> y ->
  apart K y (snd (create_channel P n l q k d ctx)) -> framed n (snd (create_channel P n l q k d ctx)).
Proof.
  intros P n l q k d ctx Ho Hne. unfold create_channel.
  destruct (n_peers n !! l) as [ps|]; [|intros _; now apply framed_refl].
  destruct (ps !! q) as [p|]; [|intros _; now apply framed_refl].
  cbv zeta. set (new := channel_new P l q (p_channel_secret p) k d ctx).
  assert (Hnp : ch_peer new = q). { unfold new, channel_new. destruct (bytes_cmp l q); reflexivity. }
  assert (Hfresh : n_heap n !! fresh (dom (n_heap n)) = None). { apply not_elem_of_dom. apply is_fresh. }
  set (h := fresh (dom (n_heap n))) in *. clearbody new h.
  destruct (n_by_peer n !! q) as [oh|] eqn:Eo; cbn [snd].
  2: { intros Ha. apply framed_install; try assumption.
       intros pr. apply (Ha h new pr); [apply lookup_insert|congruence]. }
  destruct (Ho q oh Eo) as (c & Ec & Hc). rewrite Ec.
  destruct (is_still_valid c k d); cbn [snd].
  - destruct ctx; [intros _; now apply framed_refl|]. intros _.
    apply (framed_update n oh c); [assumption|assumption|congruence|reflexivity..].
  - intros Ha.
    assert (Hn : forall pr, ~ K (channel_in_id new pr)).
    { intros pr. apply (Ha h new pr); [apply lookup_insert|congruence]. }
    assert (Ha0 : apart K y n).
    { intros k' c' pr Hk' Hc'. apply (Ha k' c' pr); [|exact Hc'].
      cbn [set_channels n_heap]. rewrite lookup_insert_ne; [exact Hk'|congruence]. }
    pose proof (framed_drop n q Ho Ha0 Hne) as Hd. unfold drop_channel in Hd. rewrite Eo, Ec in Hd.
    set (m := set_channels n (n_heap n) _ _) in Hd.
    eapply framed_trans; [exact Hd|].
    pose proof (framed_install m h q new (fr_own _ _ _ _ _ Hd) Hfresh Hnp Hne Hn) as Hi.
    unfold m, set_channels in *. cbn [n_by_peer n_by_id n_heap n_addr n_start n_opts n_filter n_keys n_peers n_transfers n_out] in *.
    rewrite insert_delete_insert in Hi. exact Hi.
Qed.

Lemma framed_whole : forall P n l q m, own n -> q <> y ->
  apart K y (snd (process_whole P n l q m)) -> framed n (snd (process_whole P n l q m)).
Proof.
  intros P n l q m Ho Hne. destruct m; cbn [process_whole snd]; try (intros _; now apply framed_refl).
  - destruct (valid_pub P key); [|intros _; now apply framed_refl].
    pose proof (framed_create P n l q key date CtxConfirm Ho Hne) as H.
    destruct (create_channel _ _ _ _ _ _ _) as [[|] ?]; exact H.
  - destruct (valid_pub P key); [|intros _; now apply framed_refl].
    pose proof (framed_create P n l q key date CtxCreate Ho Hne) as H.
    destruct (create_channel _ _ _ _ _ _ _) as [[|] ?]; exact H.
Qed.

Lemma framed_transfers : forall n ts, own n -> framed n (set_transfers n ts).
Proof. intros n ts Ho. apply framed_same; [assumption|now repeat split|now repeat split|reflexivity]. Qed.

Lemma framed_message : forall P fuel n l q m, own n -> q <> y ->
  apart K y (snd (process_message P fuel n l q m)) -> framed n (snd (process_message P fuel n l q m)).
Proof.
  intros P fuel n l q m Ho Hne.
  destruct m; cbn [process_message]; try (apply framed_whole; assumption).
  destruct (process_part P fuel (n_transfers n) hash total_size offset data) as [r ts].
  pose proof (framed_transfers n ts Ho) as Ht.
  destruct r; try (intros _; exact Ht). destruct (deserialize get_message message); [|intros _; exact Ht].
  intros Ha. eapply framed_trans; [exact Ht|]. apply framed_whole; [apply Ht|assumption|exact Ha].
Qed.

Lemma framed_messages : forall P fuel ms n l q, own n -> q <> y ->
  apart K y (snd (process_messages P fuel n l q ms)) -> framed n (snd (process_messages P fuel n l q ms)).
Proof.
  intros P fuel ms. induction ms as [|m ms IH]; intros n l q Ho Hne; cbn [process_messages];
    [intros _; now apply framed_refl|].
  pose proof (framed_message P fuel n l q m Ho Hne) as H.
  destruct (process_message P fuel n l q m) as [[ds|e] n1] eqn:E1; cbn [snd] in *; [|exact H].
  pose proof (process_messages_keeps P fuel ms n1 l q) as [Hx _].
  specialize (IH n1 l q). destruct (process_messages P fuel n1 l q ms) as [[o ds2] n2]. cbn [snd] in *.
  intros Ha. specialize (H (apart_back _ _ _ _ Hx Ha)). eapply framed_trans; [exact H|].
  apply IH; [apply H|assumption..].
Qed.

(** Sending changes only the peer it is for. *)
Lemma framed_packets : forall P now l q s ms rs k n p, own n -> (l <> x \/ q <> y) ->
  framed n (send_packets P n now l q p s ms rs k).
Proof.
  intros P now l q s ms rs. induction ms as [|m ms IH]; intros k n p Ho Hne; cbn [send_packets];
    [now apply framed_refl|].
  destruct (send_packet P n now q p s m (rs k)) as [p' d].
  assert (H : framed n (push_out (put_peer n l q p') d)).
  { eapply framed_trans; [apply (framed_put n l q p' Ho Hne)|].
    apply framed_same; [|now repeat split..]. exact (fr_own _ _ _ _ _ (framed_put n l q p' Ho Hne)). }
  eapply framed_trans; [exact H|]. apply IH; [apply H|assumption].
Qed.
Lemma framed_send : forall P n now l q m pr rs, own n -> (l <> x \/ q <> y) ->
  framed n (snd (send_message P n now l q m pr rs)).
Proof.
  intros P n now l q m pr rs Ho Hne. unfold send_message.
  destruct (n_peers n !! l) as [ps|]; [|now apply framed_refl].
  destruct (ps !! q) as [p|]; [|now apply framed_refl].
  destruct (n_keys n !! l) as [secret|]; [|now apply framed_refl]. cbv zeta.
  destruct (message_size m) as [size|]; [|now apply framed_refl].
  destruct (plan P _ m size) as [ms|]; [|now apply framed_refl]. cbn [snd].
  now apply framed_packets.
Qed.
Lemma framed_add : forall n ctx l q a k f, own n -> (l <> x \/ q <> y) ->
  framed n (snd (add_peer n ctx l q a k f)).
Proof.
  intros n ctx l q a k f Ho Hne. unfold add_peer.
  destruct (_ || _); [now apply framed_refl|].
  destruct (match n_filter n with Some _ => _ | None => false end); [now apply framed_refl|].
  destruct (n_peers n !! l) as [ps|]; [|now apply framed_refl].
  destruct (ps !! q); cbn [snd]; now apply framed_put.
Qed.

(** Whom a packet is from. *)
Definition from_other (P : prims) (n : node) (raw : bytes) (packet : in_packet) (cp : option bytes) : Prop :=
  match cp with
  | Some q => q <> y
  | None => ~ (names P packet y /\ forall key, ip_from packet = Some (PkEd25519 key) ->
      o_signature_required (n_opts n) = true -> signed_by P raw packet key)
  end.
Lemma source_other : forall P n now raw packet l cp f, own n -> from_other P n raw packet cp ->
  framed n (snd (packet_source P n now raw packet l cp f))
  /\ forall q chk n1, packet_source P n now raw packet l cp f = (Ok (q, chk), n1) -> q <> y.
Proof.
  intros P n now raw packet l cp f Ho Hf. unfold packet_source, from_other in *.
  destruct cp as [q|].
  - destruct (ip_from packet); [|destruct (ip_from_short packet)]; cbn [snd];
      (split; [now apply framed_refl|]); intros q' chk n1 H; try discriminate H.
    injection H as <- _ _. assumption.
  - unfold names in Hf. destruct (ip_from packet) as [k|].
    + destruct k as [key|s|s|s]; cbn [full_id];
        try (split; [now apply framed_refl|intros q chk n1 H; discriminate H]).
      destruct (valid_pub P key); [|split; [now apply framed_refl|intros q chk n1 H; discriminate H]].
      cbv zeta.
      destruct (match ip_from_short packet with Some _ => _ | None => false end);
        [split; [now apply framed_refl|intros q chk n1 H; discriminate H]|].
      destruct (verify_packet P raw (ip_signature packet) key _) eqn:Ev; [split; [now apply framed_refl|intros q chk n1 H; discriminate H]|].
      assert (Hq : short_id P key <> y).
      { intros E. apply Hf. split; [exists key; split; [reflexivity|now rewrite <- E]|].
        intros k' Hk Hr. injection Hk as <-. eapply verify_packet_none; [exact Ev|]. now left. }
      destruct (ip_address packet) as [al|].
      2: { split; [now apply framed_refl|]. intros q chk n1 H. injection H as <- _ _. exact Hq. }
      destruct (parse_address_list _ _ _) as [a|e];
        [|split; [now apply framed_refl|intros q chk n1 H; discriminate H]].
      pose proof (framed_add n CtxAdnlPacket l (short_id P key) a key f Ho (or_intror Hq)) as Ha.
      destruct (add_peer _ _ _ _ _ _ _) as [[|] n']; (split; [exact Ha|]); intros q chk n1 H; try discriminate H.
      injection H as <- _ _. exact Hq.
    + destruct (ip_from_short packet) as [q|].
      * split; [now apply framed_refl|]. intros q' chk n1 H. injection H as <- _ _. intros ->. apply Hf.
        split; [reflexivity|]. intros k' Hk. discriminate Hk.
      * split; [now apply framed_refl|]. intros q' chk n1 H. discriminate H.
Qed.

Lemma framed_reinit : forall P n now l q p dates rs, own n -> q <> y ->
  framed n (snd (check_reinit P n now l q p dates rs)).
Proof.
  intros P n now l q p dates rs Ho Hne. unfold check_reinit.
  destruct dates as [d|]; [|now apply framed_refl].
  destruct (_ <? _); [now apply framed_refl|]. destruct (_ <? _); [now apply framed_refl|].
  destruct (try_reinit_sender p (rd_local d)) as [[|] p']; [|now apply framed_refl]. cbv zeta.
  pose proof (framed_put n l q p' Ho (or_intror Hne)) as H1.
  destruct (_ && _); [|exact H1].
  pose proof (framed_send P (put_peer n l q p') now l q MNop false rs (fr_own _ _ _ _ _ H1) (or_intror Hne)) as H2.
  destruct (send_message _ _ _ _ _ _ _ _) as [[|] n2]; cbn [snd] in *; eapply framed_trans; eassumption.
Qed.

Lemma framed_check : forall P n now raw packet l cp pr f rs, own n -> from_other P n raw packet cp ->
  framed n (snd (check_packet P n now raw packet l cp pr f rs))
  /\ forall q n1, check_packet P n now raw packet l cp pr f rs = (Ok (Some q), n1) -> q <> y.
Proof.
  intros P n now raw packet l cp pr f rs Ho Hf. unfold check_packet.
  destruct (source_other P n now raw packet l cp f Ho Hf) as [Hs Hq].
  destruct (packet_source P n now raw packet l cp f) as [[[q chk]|e] n1]; cbn [snd] in *.
  2: { split; [exact Hs|]. intros q n2 H. discriminate H. }
  specialize (Hq q chk n1 eq_refl).
  destruct (n_peers n1 !! l) as [ps|]; [|split; [exact Hs|intros q' n2 H; discriminate H]].
  destruct (match cp with Some _ => _ | None => false end); [split; [exact Hs|intros q' n2 H; discriminate H]|].
  destruct (ps !! q) as [p|]; [|split; [exact Hs|intros q' n2 H; discriminate H]].
  destruct (if chk then _ else None); [split; [exact Hs|intros q' n2 H; discriminate H]|].
  pose proof (framed_reinit P n1 now l q p (ip_reinit_dates packet) rs (fr_own _ _ _ _ _ Hs) Hq) as Hr.
  destruct (check_reinit P n1 now l q p (ip_reinit_dates packet) rs) as [[p2|e] n2]; cbn [snd] in Hr.
  2: { split; [eapply framed_trans; eassumption|intros q' n3 H; discriminate H]. }
  pose proof (framed_trans _ _ _ Hs Hr) as H2. cbv zeta.
  match goal with |- context [put_peer n2 l q ?z] => set (p3 := z) end.
  assert (H3 : framed n (put_peer n2 l q p3)).
  { eapply framed_trans; [exact H2|]. apply framed_put; [apply H2|now right]. }
  destruct (fst _).
  - destruct (ip_confirm_seqno packet) as [c|].
    + destruct (_ <? c); (split; [exact H3|]); intros q' n3 H; [discriminate H|]. injection H as <- _. exact Hq.
    + split; [exact H3|]. intros q' n3 H. injection H as <- _. exact Hq.
  - split; [exact H3|]. intros q' n3 H. discriminate H.
  - split; [exact H2|]. intros q' n3 H. discriminate H.
Qed.

Lemma framed_receive : forall P fuel n now data f rs, own n ->
  ~ concerns P n (OReceive now data f rs) x y ->
  apart K y (snd (handle_received_data P fuel n now data f rs)) ->
  framed n (snd (handle_received_data P fuel n now data f rs)).
Proof.
  intros P fuel n now data f rs Ho Hc. cbn [concerns] in Hc. unfold handle_received_data.
  assert (Ho1 : framed n (snd (open_datagram P n data))
    /\ forall o n1 packet, open_datagram P n data = (Ok (Some o), n1) -> parse_packet (od_contents o) = Some packet ->
       from_other P n1 (od_contents o) packet (od_channel_peer o)).
  { unfold open_datagram. destruct (parse_handshake P _ data) as [[[[l v] ct]|]|e] eqn:Eh.
    - split; [now apply framed_refl|]. intros o n1 packet H Hp. injection H as <- <-. cbn [od_channel_peer od_contents from_other] in *.
      intros Hn. apply Hc. left. exists l, ct, packet. split; [exists v; exact Eh|]. auto.
    - destruct (n_by_id n !! firstn 32 data) as [[pr h]|] eqn:Ei.
      2: { split; [now apply framed_refl|]. intros o n1 packet H. discriminate H. }
      destruct (n_heap n !! h) as [c|] eqn:Ec.
      2: { split; [now apply framed_refl|]. intros o n1 packet H. discriminate H. }
      destruct (channel_decrypt P c data pr) as [[v ct]|e] eqn:Ed.
      2: { split; [now apply framed_refl|]. intros o n1 packet H. discriminate H. }
      assert (Hne : ch_peer c <> y).
      { intros E. apply Hc. right. exists (ch_local c), ct, pr, h, c, v. auto. }
      split; [cbn [snd]; apply (framed_update n h c); [assumption..|reflexivity|reflexivity]|].
      intros o n1 packet H _. injection H as <- _. cbn [od_channel_peer from_other]. exact Hne.
    - split; [now apply framed_refl|]. intros o n1 packet H. discriminate H. }
  destruct Ho1 as [H1 Hf].
  destruct (open_datagram P n data) as [[[o|]|e] n1]; cbn [snd] in H1; cbn [snd]; try (intros _; exact H1).
  destruct (match od_version o with Some _ => _ | None => false end); [intros _; exact H1|].
  destruct (parse_packet (od_contents o)) as [packet|] eqn:Ep; [|intros _; exact H1].
  destruct (framed_check P n1 now (od_contents o) packet (od_local o) (od_channel_peer o) (od_priority o) f rs
    (fr_own _ _ _ _ _ H1) (Hf o n1 packet eq_refl Ep)) as [H2 Hq].
  destruct (check_packet P n1 now _ packet _ _ _ f rs) as [[[q|]|e] n2]; cbn [snd] in *;
    try (intros _; eapply framed_trans; eassumption).
  specialize (Hq q n2 eq_refl). pose proof (framed_trans _ _ _ H1 H2) as H3. intros Ha.
  eapply framed_trans; [exact H3|]. apply framed_messages; [apply H3|assumption..].
Qed.

Lemma step_framed : forall P fuel n o, own n -> ~ concerns P n o x y -> apart K y (step P fuel n o) ->
  framed n (step P fuel n o).
Proof.
  intros P fuel n o Ho Hc Ha. destruct o; cbn [step concerns] in *.
  - apply framed_add; [assumption|]. destruct (decide (local_id = x)) as [E|E]; [|now left].
    destruct (decide (peer_id = y)) as [F|F]; [|now right]. exfalso. auto.
  - unfold remove_peer in *. destruct (n_peers n !! local_id) as [ps|] eqn:El; [|now apply framed_refl]. cbn [snd] in *.
    assert (Ha0 : apart K y n).
    { eapply apart_back; [|exact Ha]. eapply heap_ext_trans; [apply (drop_keeps n peer_id)|].
      apply keeps_same. apply set_peers_channels. }
    pose proof (framed_drop n peer_id Ho Ha0 Hc) as H1. eapply framed_trans; [exact H1|].
    apply framed_same; [apply H1|now repeat split|now repeat split|].
    unfold get_peer. cbn [set_peers n_peers].
    destruct (drop_channel_effect n peer_id) as (_ & Hp & _). rewrite Hp.
    destruct (decide (local_id = x)) as [E|E].
    + rewrite E in *. rewrite lookup_insert, El. now rewrite lookup_delete_ne.
    + now rewrite lookup_insert_ne.
  - apply framed_send; [assumption|]. destruct (decide (local_id = x)) as [E|E]; [|now left].
    destruct (decide (peer_id = y)) as [F|F]; [|now right]. exfalso. auto.
  - now apply framed_receive.
  - destruct sent_over as [h|]; cbn [query_timed_out] in *; [|now apply framed_refl].
    destruct (n_heap n !! h) as [c|] eqn:Ec; [|now apply framed_refl].
    destruct (update_drop_timeout _ _ _) as [b t].
    set (n' := set_channels _ _ _ _) in *.
    assert (H1 : framed n n').
    { constructor; try reflexivity.
      - now repeat split.
      - intros k d [Hb Hd]. unfold n', set_channels. cbn [n_heap]. rewrite lookup_insert_ne; [exact Hd|].
        intros ->. apply Hc. right. eauto.
      - eapply own_ext; [exact Ho| |reflexivity].
        eapply (keeps_update n n' h c _ Ec); reflexivity. }
    destruct b; [|exact H1]. eapply framed_trans; [exact H1|]. unfold reset_peer in *.
    destruct (n_peers n' !! local_id) as [ps|]; [|apply framed_refl, H1].
    destruct (ps !! peer_id) as [p|]; [|apply framed_refl, H1]. cbn [snd] in *.
    assert (Hne : peer_id <> y) by (intros E; apply Hc; now left).
    assert (Ha0 : apart K y n').
    { eapply apart_back; [|exact Ha]. eapply heap_ext_trans; [apply (drop_keeps n' peer_id)|].
      apply keeps_same. apply put_peer_channels. }
    pose proof (framed_drop n' peer_id (fr_own _ _ _ _ _ H1) Ha0 Hne) as H2.
    eapply framed_trans; [exact H2|]. apply framed_put; [apply H2|now right].
  - apply framed_same; [assumption|now repeat split|now repeat split|reflexivity].
Qed.
End frame.

(** Whatever happens, the channel of a peer is a channel with that peer. *)
Lemma own_drop : forall n q, own n -> own (drop_channel n q).
Proof.
  intros n q Ho. unfold drop_channel. destruct (n_by_peer n !! q) as [h|]; [|exact Ho].
  destruct (n_heap n !! h) as [c|]; [|exact Ho]. intros q' k Hk. cbn [set_channels n_by_peer n_heap] in *.
  apply lookup_delete_Some in Hk as [_ Hk]. auto.
Qed.
Lemma own_create : forall P n l q k d ctx, own n -> own (snd (create_channel P n l q k d ctx)).
Proof.
  intros P n l q k d ctx Ho. unfold create_channel.
  destruct (n_peers n !! l) as [ps|]; [|exact Ho]. destruct (ps !! q) as [p|]; [|exact Ho].
  cbv zeta. set (new := channel_new P l q (p_channel_secret p) k d ctx).
  assert (Hnp : ch_peer new = q). { unfold new, channel_new. destruct (bytes_cmp l q); reflexivity. }
  assert (Hfresh : n_heap n !! fresh (dom (n_heap n)) = None). { apply not_elem_of_dom. apply is_fresh. }
  set (h := fresh (dom (n_heap n))) in *. clearbody new h.
  assert (Hnew : forall by_id, own (set_channels n (<[h := new]> (n_heap n)) by_id (<[q := h]> (n_by_peer n)))).
  { intros by_id q' k' Hk. cbn [set_channels n_by_peer n_heap] in *.
    apply lookup_insert_Some in Hk as [[<- <-]|[_ Hk]].
    - exists new. now rewrite lookup_insert.
    - destruct (Ho q' k' Hk) as (c & C1 & C2). exists c. rewrite lookup_insert_ne by congruence. auto. }
  destruct (n_by_peer n !! q) as [oh|] eqn:Eo; cbn [snd]; [|apply Hnew].
  destruct (Ho q oh Eo) as (c & Ec & Hc). rewrite Ec.
  destruct (is_still_valid c k d); cbn [snd]; [|apply Hnew].
  destruct ctx; [exact Ho|]. eapply own_ext; [exact Ho| |reflexivity].
  eapply (keeps_update n _ oh c (set_ready c) Ec); reflexivity.
Qed.
Lemma own_message : forall P fuel n l q m, own n -> own (snd (process_message P fuel n l q m)).
Proof.
  assert (Hw : forall P n l q m, own n -> own (snd (process_whole P n l q m))).
  { intros P n l q m Ho. destruct m; cbn [process_whole snd]; try exact Ho.
    - destruct (valid_pub P key); [|exact Ho].
      pose proof (own_create P n l q key date CtxConfirm Ho) as H.
      destruct (create_channel _ _ _ _ _ _ _) as [[|] ?]; exact H.
    - destruct (valid_pub P key); [|exact Ho].
      pose proof (own_create P n l q key date CtxCreate Ho) as H.
      destruct (create_channel _ _ _ _ _ _ _) as [[|] ?]; exact H. }
  intros P fuel n l q m Ho. destruct m; cbn [process_message]; try (apply Hw; exact Ho).
  destruct (process_part P fuel (n_transfers n) hash total_size offset data) as [r ts].
  assert (Ht : own (set_transfers n ts)) by exact Ho.
  destruct r; try exact Ht. destruct (deserialize get_message message); [|exact Ht]. now apply Hw.
Qed.
Lemma own_messages : forall P fuel ms n l q, own n -> own (snd (process_messages P fuel n l q ms)).
Proof.
  intros P fuel ms. induction ms as [|m ms IH]; intros n l q Ho; cbn [process_messages]; [exact Ho|].
  pose proof (own_message P fuel n l q m Ho) as H.
  destruct (process_message P fuel n l q m) as [[ds|e] n1]; cbn [snd] in *; [|exact H].
  specialize (IH n1 l q H). destruct (process_messages P fuel n1 l q ms) as [[o ds2] n2]. exact IH.
Qed.
Lemma own_receive : forall P fuel n now data f rs, own n -> own (snd (handle_received_data P fuel n now data f rs)).
Proof.
  intros P fuel n now data f rs Ho. unfold handle_received_data.
  assert (H1 : own (snd (open_datagram P n data))).
  { pose proof (open_keeps P n data) as [Hx _].
    destruct (open_datagram_effect P n data) as (_ & _ & _ & _ & Hb & _). eapply own_ext; eauto. }
  destruct (open_datagram P n data) as [[[o|]|e] n1]; cbn [snd] in *; try exact H1.
  destruct (match od_version o with Some _ => _ | None => false end); [exact H1|].
  destruct (parse_packet (od_contents o)) as [packet|]; [|exact H1].
  pose proof (check_packet_effect P n1 now (od_contents o) packet (od_local o) (od_channel_peer o) (od_priority o) f rs) as Hq.
  pose proof (source_same_channels P n1 now (od_contents o) packet (od_local o) (od_channel_peer o) f) as H2.
  assert (H3 : own (snd (check_packet P n1 now (od_contents o) packet (od_local o) (od_channel_peer o) (od_priority o) f rs))).
  { eapply own_same; [exact H1|]. eapply same_channels_trans; [exact H2|apply Hq]. }
  destruct (check_packet P n1 now _ packet _ _ _ f rs) as [[[i|]|e] n2]; cbn [snd] in *; try exact H3.
  now apply own_messages.
Qed.
Lemma own_step : forall P fuel n o, own n -> own (step P fuel n o).
Proof.
  intros P fuel n o Ho. destruct o; cbn [step].
  - eapply own_same; [exact Ho|]. apply add_peer_effect.
  - unfold remove_peer. destruct (n_peers n !! local_id) as [ps|]; [|exact Ho]. cbn [snd].
    eapply own_same; [apply (own_drop n peer_id Ho)|]. apply set_peers_channels.
  - eapply own_same; [exact Ho|]. apply quiet_send.
  - now apply own_receive.
  - destruct sent_over as [h|]; cbn [query_timed_out]; [|exact Ho].
    destruct (n_heap n !! h) as [c|] eqn:Ec; [|exact Ho].
    destruct (update_drop_timeout _ _ _) as [b t]. set (n' := set_channels _ _ _ _).
    assert (H1 : own n').
    { eapply own_ext; [exact Ho| |reflexivity]. eapply (keeps_update n n' h c _ Ec); reflexivity. }
    destruct b; [|exact H1]. unfold reset_peer.
    destruct (n_peers n' !! local_id) as [ps|]; [|exact H1].
    destruct (ps !! peer_id) as [p|]; [|exact H1]. cbn [snd].
    eapply own_same; [apply (own_drop n' peer_id H1)|]. apply put_peer_channels.
  - exact Ho.
Qed.
Lemma own_run : forall P fuel ops n, own n -> own (run P fuel n ops).
Proof.
  intros P fuel ops. induction ops as [|o ops IH]; intros n Ho; [exact Ho|]. cbn [run fold_left]. apply IH. now apply own_step.
Qed.

(** C96 *)
Lemma same_connection_trans : forall a b c x y,
  same_connection a b x y -> same_connection b c x y -> same_connection a c x y.
Proof.
  intros a b c x y (A1 & A2 & A3) (B1 & B2 & B3). split; [congruence|]. split.
  - intros h d. rewrite B2. apply A2.
  - intros h d pr Hd. rewrite (B3 h d pr); [now apply A3 with h|]. now apply A2.
Qed.
Lemma step_connection : forall P fuel n o x y, own n -> ~ concerns P n o x y ->
  no_id_collision (step P fuel n o) -> same_setup n (step P fuel n o) /\ same_connection n (step P fuel n o) x y.
Proof.
  intros P fuel n o x y Ho Hc Hno.
  set (K := fun id => exists h c pr, current n y h c /\ id = channel_in_id c pr).
  assert (Ha : apart K y (step P fuel n o)).
  { intros h c pr Hh Hne (h' & c' & pr' & [Hb Hh'] & E).
    destruct (step_keeps P fuel n o) as [Hx _]. destruct (Hx h' c' Hh') as (d & D1 & D2 & D3).
    destruct (Hno h c pr h' d pr' Hh D1) as [Ep _].
    { unfold channel_in_id in *. now rewrite D2. }
    apply Hne. rewrite Ep, D3. destruct (Ho y h' Hb) as (e & E1 & E2). congruence. }
  destruct (step_framed K x y P fuel n o Ho Hc Ha) as [F1 F2 F3 F4 F5 F6].
  split; [exact F1|]. split; [exact F2|]. split.
  - intros h c. split.
    + intros [Hb Hh]. rewrite F3 in Hb. destruct (Ho y h Hb) as (d & D1 & D2).
      split; [exact Hb|]. rewrite (F4 h d) in Hh by (split; assumption). congruence.
    + intros Hcur. split; [rewrite F3; apply Hcur|auto].
  - intros h c pr Hcur. apply F5. exists h, c, pr. auto.
Qed.
Lemma bystanders : forall P fuel others n x y, own n -> unconcerned P fuel n others x y ->
  no_id_collision (run P fuel n others) ->
  same_setup n (run P fuel n others) /\ same_connection n (run P fuel n others) x y.
Proof.
  intros P fuel others. induction others as [|o r IH]; intros n x y Ho Hu Hno.
  - split; [apply same_setup_refl|]. split; [reflexivity|]. split; [reflexivity|reflexivity].
  - cbn [unconcerned] in Hu. destruct Hu as [Hc Hu]. cbn [run fold_left] in *.
    fold (run P fuel (step P fuel n o) r) in *.
    destruct (IH _ x y (own_step P fuel n o Ho) Hu Hno) as [I1 I2].
    destruct (step_connection P fuel n o x y Ho Hc) as [S1 S2].
    { eapply heap_ext_collision; [apply (run_keeps P fuel r (step P fuel n o))|exact Hno]. }
    split; [eapply same_setup_trans; eassumption|eapply same_connection_trans; eassumption].
Qed.
