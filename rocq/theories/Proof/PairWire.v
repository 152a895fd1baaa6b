(** What one of two nodes that know each other sends to the other, and what the other makes of it. *)
From stdpp Require Import gmap.
From Coq Require Import NArith Lia.
From Coq Require Import ZifyBool ZifyNat ZifyN.
From Verif.Base Require Import Bytes BytesFacts Res.
From Verif.Model Require Import Crypto Encryption Tl Scheme ProtoAdnl History Channel Handshake Peer Transfer AdnlNode.
From Verif.Spec Require Import Codec CryptoSpec ChannelSpec HistorySpec TransferSpec NodeSpec PairSpec.
From Verif.Proof Require Import TlFacts TransferFacts HistoryFacts CipherFacts PacketFacts PeerFacts SplitFacts NodeFacts NodeSize.
Open Scope N_scope.

Section wire.
Variable P : prims.
Variable HP : prims_ok P.
Local Notation idp := (party_id P).

Lemma idp_len : forall x, length (idp x) = 32%nat.
Proof. intros. apply (sha_len P HP). Qed.

Definition new_chan (x y : party) : channel :=
  channel_new P (idp x) (idp y) (pa_channel x) (pub_of P (pa_channel y)) 0 CtxCreate.
Definition chan_good (x y : party) (c : channel) : Prop :=
  ch_out c = ch_out (new_chan x y) /\ ch_in c = ch_in (new_chan x y) /\ ch_local c = idp x /\ ch_peer c = idp y
  /\ ch_peer_key c = pub_of P (pa_channel y) /\ u32_ok (ch_peer_date c).
Definition chan_of (n : node) (i : bytes) : option channel :=
  match n_by_peer n !! i with Some h => n_heap n !! h | None => None end.
Definition has (n : node) (i : bytes) : Prop := exists c, chan_of n i = Some c.
Definition ready (n : node) (i : bytes) : Prop := exists c, chan_of n i = Some c /\ ch_ready c = true.

Record ways_ok (x y : party) : Prop := mk_ways_ok
  { wo_x : party_ok x; wo_y : party_ok y; wo_addr : pa_addr x <> pa_addr y; wo_id : idp x <> idp y;
    wo_in : channel_in_id (new_chan x y) true <> channel_in_id (new_chan x y) false;
    wo_local : forall pr, channel_in_id (new_chan x y) pr <> idp x }.

Record node_good (x y : party) (n : node) (p : peer) : Prop := mk_node_good
  { ng_addr : n_addr n = pa_addr x; ng_start : n_start n = pa_start x; ng_opts : n_opts n = pa_opts x;
    ng_filter : n_filter n = None; ng_keys : n_keys n = {[idp x := pa_secret x]};
    ng_peer : get_peer n (idp x) (idp y) = Some p;
    ng_key : p_key p = party_key P y; ng_secret : p_channel_secret p = pa_channel x;
    ng_paddr : p_addr p = pack_addr (pa_addr y);
    ng_date : ss_reinit (p_send p) = 0 \/ ss_reinit (p_send p) = pa_start y;
    ng_chan : forall h, n_by_peer n !! idp y = Some h -> exists c, n_heap n !! h = Some c /\ chan_good x y c
      /\ forall pr, n_by_id n !! channel_in_id c pr = Some (pr, h) }.

(** How a letter was made. *)
Inductive kind := KCreate | KConfirm | KChannel.
Inductive wire (x y : party) (t : N) (m : message) (d : bytes) : bool -> N -> N -> kind -> Prop :=
| w_hand : forall temp packet e date target k,
    out_packet_ok packet -> carries (op_messages packet) [e; m] ->
    N.of_nat (length (put_out_packet packet)) < 2 ^ 16 ->
    match e with
    | MCreateChannel key d => k = KCreate /\ key = pub_of P (pa_channel x) /\ d = date
    | MConfirmChannel key _ d => k = KConfirm /\ key = pub_of P (pa_channel x) /\ d = date
    | _ => False
    end ->
    u32_ok date -> (k = KCreate -> date = t) ->
    op_from packet = Some (PkEd25519 (party_key P x)) ->
    op_address packet = mk_address_list (Some (address_of (pa_addr x))) t (pa_start x)
      ((t + o_address_list_timeout (pa_opts x)) mod 2 ^ 32) ->
    op_reinit_dates packet = Some (mk_reinit_dates (pa_start x) target) ->
    (target = 0 \/ target = pa_start y) ->
    op_signature packet = Some (sign P (pa_secret x) (put_out_packet (unsigned packet))) ->
    d = build_handshake P temp (idp y) (party_key P y) (put_out_packet packet) (o_version (pa_opts x)) ->
    wire x y t m d false (op_seqno packet) (op_confirm_seqno packet) k
| w_chan : forall packet pr,
    out_packet_ok packet -> carries (op_messages packet) [m] ->
    op_from packet = None -> op_reinit_dates packet = None -> op_signature packet = None ->
    d = channel_encrypt P (new_chan x y) (put_out_packet packet) pr (o_version (pa_opts x)) ->
    wire x y t m d pr (op_seqno packet) (op_confirm_seqno packet) KChannel.

Lemma chan_encrypt_eq : forall x y c data pr v, chan_good x y c ->
  channel_encrypt P c data pr v = channel_encrypt P (new_chan x y) data pr v.
Proof. intros x y c data pr v (H & _). unfold channel_encrypt. now rewrite H. Qed.
Lemma chan_decrypt_eq : forall x y c d pr, chan_good x y c ->
  channel_decrypt P c d pr = channel_decrypt P (new_chan x y) d pr.
Proof. intros x y c d pr (_ & H & _). unfold channel_decrypt. now rewrite H. Qed.
Lemma chan_in_eq : forall x y c pr, chan_good x y c -> channel_in_id c pr = channel_in_id (new_chan x y) pr.
Proof. intros x y c pr (_ & H & _). unfold channel_in_id. now rewrite H. Qed.

Lemma small_size : forall m, small_payload m -> message_ok m /\ ids_sized m
  /\ exists size, message_size m = Some size /\ size <= 952.
Proof.
  intros m [H1 H2]. split; [exact H1|].
  destruct m; cbn [message_ok] in H1; try (exfalso; exact H2); cbn [ids_sized message_size];
    unfold MSG_ANSWER_SIZE, MSG_CUSTOM_SIZE, MSG_QUERY_SIZE, MSG_NOP_SIZE, len, hash_ok in *;
    (split; [solve [tauto|exact I]|eexists; split; [reflexivity|lia]]).
Qed.

Lemma node_good_put : forall x y n p p', node_good x y n p ->
  p_key p' = party_key P y -> p_channel_secret p' = pa_channel x -> p_addr p' = pack_addr (pa_addr y) ->
  (ss_reinit (p_send p') = 0 \/ ss_reinit (p_send p') = pa_start y) ->
  node_good x y (put_peer n (idp x) (idp y) p') p'.
Proof.
  intros x y n p p' [] H1 H2 H3 H4.
  destruct (put_peer_setup n (idp x) (idp y) p') as (E1 & E2 & E3 & E4 & E5).
  destruct (put_peer_channels n (idp x) (idp y) p') as (E6 & E7 & E8).
  split; try congruence.
  - apply get_put_same. unfold get_peer in ng_peer0. destruct (n_peers n !! idp x); [eexists; reflexivity|discriminate].
  - now rewrite <- E6, <- E7, <- E8.
Qed.
Lemma push_good : forall x y n p d, node_good x y n p -> node_good x y (push_out n d) p.
Proof. intros x y n p d []. split; assumption. Qed.

(** Sending. *)
Lemma send_good : forall x y n p now m priority r, ways_ok x y -> node_good x y n p ->
  u32_ok now -> small_payload m -> length (r_bytes r) = 10%nat ->
  (forall pr, ss_seqno pr (p_send p) < 2 ^ 63) -> (forall pr, h_seqno (rs_history pr (p_recv p)) < 2 ^ 63) ->
  exists pr d k p' n',
    send_message P n now (idp x) (idp y) m priority (fun _ => r) = (Ok tt, n')
    /\ n_out n' = n_out n ++ [(pa_addr y, d)]
    /\ node_good x y n' p' /\ p_recv p' = p_recv p
    /\ p_send p' = set_ss_seqno pr (ss_seqno pr (p_send p) + 1) (p_send p)
    /\ same_channels n n'
    /\ wire x y now m d pr (ss_seqno pr (p_send p) + 1) (h_seqno (rs_history pr (p_recv p))) k
    /\ (has n (idp y) -> k <> KCreate) /\ (k = KConfirm -> has n (idp y)) /\ (k = KChannel -> ready n (idp y)).
Proof.
  intros x y n p now m priority r HW HG Hnow Hm Hr Hsn Hhn.
  destruct (small_size m Hm) as (Hmok & Hids & size & Hsz & Hsmall).
  pose proof HG as HG0. destruct HG as [G1 G2 G3 G4 G5 G6 G7 G8 G9 G10 G11].
  destruct (wo_x _ _ HW) as (Xa & Xs & Xl & Xv). destruct (wo_y _ _ HW) as (Ya & Ys & Yl & Yv).
  assert (Haddr : peer_addr p = pa_addr y) by (unfold peer_addr; rewrite G9; now apply unpack_pack).
  assert (R1 : length (firstn 3 (r_bytes r)) = 3%nat) by (rewrite firstn_length; lia).
  assert (R2 : length (skipn 3 (r_bytes r)) = 7%nat) by (rewrite skipn_length; lia).
  assert (B1 : len (put_bytes (firstn 3 (r_bytes r))) = 4).
  { unfold len. rewrite put_bytes_length, R1. reflexivity. }
  assert (B2 : len (put_bytes (skipn 3 (r_bytes r))) = 8).
  { unfold len. rewrite put_bytes_length, R2. reflexivity. }
  unfold send_message.
  unfold get_peer in G6. destruct (n_peers n !! idp x) as [ps|] eqn:Eps; [|discriminate]. rewrite G6.
  rewrite G5, lookup_singleton, Hsz.
  assert (Hal : address_list_ok (mk_address_list (Some (address_of (pa_addr x))) now (pa_start x)
            ((now + o_address_list_timeout (pa_opts x)) mod 2 ^ 32))).
  { destruct Xa as [Xa1 Xa2]. unfold address_list_ok, address_of. cbn.
    unfold address_ok, u32_ok in *. cbn [ad_ip ad_port]. repeat split; try assumption; [lia|].
    apply N.mod_lt. discriminate. }
  assert (Hwrap : forall pr, (ss_seqno pr (p_send p) + 1) mod 2 ^ 64 = ss_seqno pr (p_send p) + 1).
  { intros pr. apply N.mod_small. specialize (Hsn pr). lia. }
  (* the handshake case *)
  assert (Hhand : forall extra k date,
    match extra with
    | MCreateChannel key d => k = KCreate /\ key = pub_of P (pa_channel x) /\ d = date
    | MConfirmChannel key pk d => k = KConfirm /\ key = pub_of P (pa_channel x) /\ d = date /\ length pk = 32%nat
    | _ => False
    end -> u32_ok date -> (k = KCreate -> date = now) ->
    exists d p' n',
      send_packets P n now (idp x) (idp y) p (SRandom (pa_secret x)) [OmPair (put_message extra ++ put_message m)]
        (fun _ => r) 0 = n'
      /\ n_out n' = n_out n ++ [(pa_addr y, d)]
      /\ node_good x y n' p' /\ p_recv p' = p_recv p
      /\ p_send p' = set_ss_seqno false (ss_seqno false (p_send p) + 1) (p_send p)
      /\ same_channels n n'
      /\ wire x y now m d false (ss_seqno false (p_send p) + 1) (h_seqno (rs_history false (p_recv p))) k).
  { intros extra k date He Hdate Hcreate.
    assert (Hek : message_ok extra /\ len (put_message extra) <= 72).
    { destruct extra; try (exfalso; exact He).
      - destruct He as (-> & -> & -> & Hpk). split.
        + cbn [message_ok]. unfold hash_ok. repeat split; try assumption. apply (pub_len P HP).
        + cbn [put_message]. rewrite !len_app, !put_u32_len. unfold put_hash, len. rewrite (pub_len P HP). lia.
      - destruct He as (-> & -> & ->). split.
        + cbn [message_ok]. unfold hash_ok. split; [apply (pub_len P HP)|assumption].
        + cbn [put_message]. rewrite !len_app, !put_u32_len. unfold put_hash, len. rewrite (pub_len P HP). lia. }
    destruct Hek as [Hek Helen].
    cbn [send_packets]. unfold send_packet. cbv zeta. rewrite G3, Xl, Haddr. cbn [andb].
    rewrite G1, G2, G7. cbn [op_rand1 op_from op_messages op_address op_seqno op_confirm_seqno op_reinit_dates op_rand2].
    rewrite (Hwrap false).
    match goal with |- context [sign P (pa_secret x) (put_out_packet ?u)] => set (un := u) end.
    match goal with |- context [build_handshake P _ _ _ (put_out_packet ?u) _] => set (packet := u) end.
    eexists _, _, _. split; [reflexivity|]. split; [|split; [|split; [|split; [|split]]]].
    - cbn [push_out n_out]. now rewrite put_peer_out.
    - apply push_good. eapply node_good_put; [exact HG0|..]; cbn [p_key p_channel_secret p_addr p_send]; try assumption.
      + reflexivity.
    - reflexivity.
    - reflexivity.
    - unfold push_out, same_channels. cbn. apply put_peer_channels.
    - assert (Hsize : N.of_nat (length (put_out_packet packet)) < 2 ^ 16).
      { assert (Hb : len (put_out_messages (OmPair (put_message extra ++ put_message m))) <= body_bound).
        { pose proof (size_estimate m size Hids Hsz). cbn [put_out_messages]. rewrite !len_app, put_u32_len.
          unfold body_bound. lia. }
        pose proof (out_packet_size (firstn 3 (r_bytes r)) (Some (PkEd25519 (pub_of P (pa_secret x)))) _
          (op_address un) (op_seqno un) (op_confirm_seqno un) (op_reinit_dates un)
          (Some (sign P (pa_secret x) (put_out_packet un))) (skipn 3 (r_bytes r)) B1 B2 Hb (pub_len P HP _) (sign_len P HP _ _)) as Hp.
        unfold len in Hp. unfold packet, un in *. cbn [op_address op_seqno op_confirm_seqno op_reinit_dates] in *. lia. }
      eapply (w_hand x y now m _ (r_temp r) packet extra date (ss_reinit (p_send p)) k).
      + unfold out_packet_ok, packet. cbn. unfold blob_ok, u64_ok. rewrite R1, R2.
        repeat split; try lia; try assumption.
        * apply (pub_len P HP).
        * destruct Xa as [Xa1 Xa2]. unfold address_of. cbn. unfold address_ok, u32_ok. cbn. lia.
        * destruct Xa as [Xa1 Xa2]. unfold address_of. cbn. unfold address_ok, u32_ok. cbn. lia.
        * apply N.mod_lt. discriminate.
        * specialize (Hsn false). cbn in Hsn. lia.
        * specialize (Hhn false). cbn in Hhn. lia.
        * destruct G10 as [-> | ->]; [reflexivity|assumption].
        * apply (sign_len P HP).
      + exact (carries_two extra m Hek Hmok).
      + exact Hsize.
      + destruct extra; try (exfalso; exact He); intuition.
      + exact Hdate.
      + exact Hcreate.
      + reflexivity.
      + reflexivity.
      + reflexivity.
      + exact G10.
      + reflexivity.
      + reflexivity. }
  (* the three situations *)
  assert (Hch : (n_by_peer n !! idp y = None /\ chan_of n (idp y) = None)
      \/ exists h c, n_by_peer n !! idp y = Some h /\ n_heap n !! h = Some c /\ chan_good x y c /\ chan_of n (idp y) = Some c).
  { unfold chan_of. destruct (n_by_peer n !! idp y) as [h|] eqn:Eh; [right|left; now split].
    destruct (G11 h eq_refl) as (c & Hc & Hg & _). exists h, c. now rewrite Hc. }
  destruct Hch as [[Hb Hco]|(h & c & Hb & Hc & Hg & Hco)]; rewrite Hb; [|rewrite Hc].
  - (* no channel *)
    assert (Hnone : ~ has n (idp y)) by (intros [c Hc]; congruence).
    unfold plan. unfold MSG_CREATE_CHANNEL_SIZE. replace (40 + size <=? MAX_ADNL_MESSAGE_SIZE) with true by (unfold MAX_ADNL_MESSAGE_SIZE; lia).
    rewrite G8.
    destruct (Hhand (MCreateChannel (pub_of P (pa_channel x)) now) KCreate now) as (d & p' & n' & H0 & H1 & H2 & H3 & H4 & H5 & H6);
      [repeat split|exact Hnow|reflexivity|].
    exists false, d, KCreate, p', n'. rewrite H0. repeat (split; [assumption || reflexivity|]).
    split; [intros; contradiction|split; discriminate].
  - assert (Hhas : has n (idp y)) by (exists c; exact Hco).
    destruct (ch_ready c) eqn:Er.
    + (* over the channel *)
      unfold plan. replace (0 + size <=? MAX_ADNL_MESSAGE_SIZE) with true by (unfold MAX_ADNL_MESSAGE_SIZE; lia).
      cbn [send_packets]. unfold send_packet. cbv zeta.
      match goal with |- context [if ?b then SChannel c false else SChannel c priority] =>
        set (pr := if b then false else priority);
        replace (if b then SChannel c false else SChannel c priority) with (SChannel c pr) by (unfold pr; now destruct b) end.
      rewrite G3, Xl, Haddr. cbn [andb]. rewrite G1, G2.
      cbn [op_rand1 op_from op_messages op_address op_seqno op_confirm_seqno op_reinit_dates op_rand2].
      rewrite (Hwrap pr).
      match goal with |- context [channel_encrypt P c (put_out_packet ?u) _ _] => set (packet := u) end.
      eexists pr, _, KChannel, _, _. split; [reflexivity|]. split; [|split; [|split; [|split; [|split; [|split]]]]].
      * cbn [push_out n_out]. now rewrite put_peer_out.
      * apply push_good. eapply node_good_put; [exact HG0|..]; cbn [p_key p_channel_secret p_addr p_send]; try assumption.
        unfold set_ss_seqno. now destruct pr.
      * reflexivity.
      * reflexivity.
      * unfold push_out, same_channels. cbn. apply put_peer_channels.
      * eapply (w_chan x y now m _ packet pr).
        -- unfold out_packet_ok, packet. cbn. unfold blob_ok, u64_ok. rewrite R1, R2.
           repeat split; try lia; try assumption.
           ++ destruct Xa as [Xa1 Xa2]. unfold address_of. cbn. unfold address_ok, u32_ok. cbn. lia.
           ++ destruct Xa as [Xa1 Xa2]. unfold address_of. cbn. unfold address_ok, u32_ok. cbn. lia.
           ++ apply N.mod_lt. discriminate.
           ++ specialize (Hsn pr). lia.
           ++ specialize (Hhn pr). lia.
        -- exact (carries_one m Hmok).
        -- reflexivity.
        -- reflexivity.
        -- reflexivity.
        -- now apply chan_encrypt_eq.
      * split; [intros _; discriminate|]. split; [discriminate|]. intros _. exists c. now split.
    + (* the other side's proposal is to be confirmed *)
      unfold plan. unfold MSG_CONFIRM_CHANNEL_SIZE. replace (72 + size <=? MAX_ADNL_MESSAGE_SIZE) with true by (unfold MAX_ADNL_MESSAGE_SIZE; lia).
      rewrite G8. destruct Hg as (Hg1 & Hg2 & Hg3 & Hg4 & Hg5 & Hg6).
      destruct (Hhand (MConfirmChannel (pub_of P (pa_channel x)) (ch_peer_key c) (ch_peer_date c)) KConfirm (ch_peer_date c))
        as (d & p' & n' & H0 & H1 & H2 & H3 & H4 & H5 & H6);
        [repeat split; rewrite Hg5; apply (pub_len P HP)|exact Hg6|discriminate|].
      exists false, d, KConfirm, p', n'. rewrite H0. repeat (split; [assumption || reflexivity|]).
      split; [intros; discriminate|split; [now intros|discriminate]].
Qed.
End wire.
