(** What one of two nodes makes of a letter of the other. *)
From stdpp Require Import gmap.
From Coq Require Import NArith Lia.
From Coq Require Import ZifyBool ZifyNat ZifyN.
From Verif.Base Require Import Bytes BytesFacts Res.
From Verif.Model Require Import Crypto Encryption Tl Scheme ProtoAdnl History Channel Handshake Peer Transfer AdnlNode.
From Verif.Spec Require Import Codec CryptoSpec ChannelSpec HistorySpec TransferSpec NodeSpec PairSpec.
From Verif.Proof Require Import HistoryFacts CipherFacts PacketFacts PeerFacts SplitFacts NodeFacts NodeSize PairWire.
Open Scope N_scope.

Section receive.
Variable P : prims.
Variable HP : prims_ok P.
Variable fuel : nat.
Local Notation idp := (party_id P).
Local Notation ways_ok := (ways_ok P).
Local Notation node_good := (node_good P).
Local Notation chan_good := (chan_good P).
Local Notation new_chan := (new_chan P).

Definition shows (to from : bytes) (m : message) : list delivery :=
  match delivered_as to from m with Some d => [d] | None => [] end.

Lemma process_payload : forall n l i m, small_payload m ->
  process_message P fuel n l i m = (Ok (shows l i m), n).
Proof. intros n l i m [_ H]. destruct m; try (exfalso; exact H); reflexivity. Qed.

(** The history of received numbers and its specification. *)
Definition spec_receive (enabled : bool) (known : remembered) (s : N) : bool * remembered :=
  if enabled then spec_deliver known s else (true, known).

(** The peer's entry after a packet with number [s] was looked at. *)
Record seen (y x : party) (pr : bool) (known : remembered) (s : N) (p p' : peer) : Prop := mk_seen
  { sn_send : forall q, ss_seqno q (p_send p') = ss_seqno q (p_send p);
    sn_inv : inv (rs_history pr (p_recv p')) (snd (spec_receive (o_history_enabled (pa_opts y)) known s));
    sn_other : rs_history (negb pr) (p_recv p') = rs_history (negb pr) (p_recv p);
    sn_max : h_seqno (rs_history pr (p_recv p')) <= N.max (h_seqno (rs_history pr (p_recv p))) s;
    sn_off : o_history_enabled (pa_opts y) = false -> rs_history pr (p_recv p') = rs_history pr (p_recv p) }.

Lemma get_peer_table : forall n l i p, get_peer n l i = Some p -> exists ps, n_peers n !! l = Some ps /\ ps !! i = Some p.
Proof. intros n l i p H. unfold get_peer in H. destruct (n_peers n !! l) as [ps|]; [eauto|discriminate]. Qed.

Lemma sockaddr_eqb_neq : forall a b, a <> b -> sockaddr_eqb a b = false.
Proof.
  intros [i p] [j q] H. unfold sockaddr_eqb. cbn. destruct (i =? j) eqn:E1, (p =? q) eqn:E2; cbn; try reflexivity.
  exfalso. apply H. f_equal; lia.
Qed.
Lemma bytes_eqb_neq : forall a b, a <> b -> bytes_eqb a b = false.
Proof. intros a b H. destruct (bytes_eqb a b) eqn:E; [|reflexivity]. now apply bytes_eqb_eq in E. Qed.

(** From the number of the packet on: the end of [check_packet]. *)
Lemma history_good : forall y x n p pr known s c,
  node_good y x n p -> inv (rs_history pr (p_recv p)) known -> s < 2 ^ 63 -> c <= ss_seqno pr (p_send p) ->
  let history :=
    if o_history_enabled (n_opts n) then deliver (o_overflow_checks (n_opts n)) (rs_history pr (p_recv p)) s
    else (Accepted, rs_history pr (p_recv p)) in
  let p3 := mk_peer (p_key p) (p_addr p) (p_channel_secret p) (set_rs_history pr (snd history) (p_recv p)) (p_send p) in
  fst history = (if fst (spec_receive (o_history_enabled (pa_opts y)) known s) then Accepted else Rejected)
  /\ node_good y x (put_peer n (idp y) (idp x) p3) p3
  /\ seen y x pr known s p p3
  /\ (ss_seqno pr (p_send p3) <? c) = false.
Proof.
  intros y x n p pr known s c HG Hinv Hs Hc history p3.
  assert (Hh : fst history = (if fst (spec_receive (o_history_enabled (pa_opts y)) known s) then Accepted else Rejected)
    /\ inv (snd history) (snd (spec_receive (o_history_enabled (pa_opts y)) known s))
    /\ h_seqno (snd history) <= N.max (h_seqno (rs_history pr (p_recv p))) s).
  { unfold history, spec_receive. rewrite (ng_opts _ _ _ _ _ HG). destruct (o_history_enabled (pa_opts y)).
    - destruct (deliver_spec (o_overflow_checks (pa_opts y)) _ known s Hinv) as (o & h' & E1 & E2 & E3 & E4 & E5); [lia|lia|].
      rewrite E1. cbn [fst snd]. rewrite <- E3. split; [|split; [exact E4|]].
      + destruct o; [reflexivity|reflexivity|now destruct E2].
      + rewrite E5. destruct (bool_of o); lia.
    - cbn [fst snd]. split; [reflexivity|]. split; [exact Hinv|lia]. }
  destruct Hh as (H1 & H2 & H3).
  assert (Hrs : forall h, rs_history pr (set_rs_history pr h (p_recv p)) = h /\ rs_history (negb pr) (set_rs_history pr h (p_recv p)) = rs_history (negb pr) (p_recv p)).
  { intros h. now destruct pr. }
  split; [exact H1|]. split; [|split].
  - destruct HG. eapply node_good_put; [split; eassumption|..]; cbn; assumption.
  - unfold p3. split; cbn [p_recv p_send].
    + reflexivity.
    + rewrite (proj1 (Hrs _)). exact H2.
    + apply (proj2 (Hrs _)).
    + rewrite (proj1 (Hrs _)). exact H3.
    + intros Hoff. rewrite (proj1 (Hrs _)). unfold history. now rewrite (ng_opts _ _ _ _ _ HG), Hoff.
  - unfold p3. cbn [p_send]. lia.
Qed.

Lemma same_trans : forall a b c, same_setup a b /\ same_channels a b -> same_setup b c /\ same_channels b c ->
  same_setup a c /\ same_channels a c.
Proof. intros a b c [H1 H2] [H3 H4]. split; [eapply same_setup_trans|eapply same_channels_trans]; eassumption. Qed.

(** A handshake packet passes the checks. *)
Lemma check_hand : forall x y n p now raw packet q fresh rs known t target,
  ways_ok y x -> node_good y x n p ->
  inv (rs_history false (p_recv p)) known -> op_seqno packet < 2 ^ 63 -> op_confirm_seqno packet <= ss_seqno false (p_send p) ->
  forall msgs, same_packet packet msgs q ->
  op_from packet = Some (PkEd25519 (party_key P x)) ->
  op_address packet = mk_address_list (Some (address_of (pa_addr x))) t (pa_start x)
      ((t + o_address_list_timeout (pa_opts x)) mod 2 ^ 32) ->
  op_reinit_dates packet = Some (mk_reinit_dates (pa_start x) target) -> (target = 0 \/ target = pa_start y) ->
  (exists sg, ip_signature q = Some sg
     /\ extract sg raw = Some (put_out_packet (unsigned packet), sign P (pa_secret x) (put_out_packet (unsigned packet)))) ->
  pa_start x <= now + o_clock_tolerance (pa_opts y) -> now <= t + o_address_list_timeout (pa_opts x) ->
  t + o_address_list_timeout (pa_opts x) < 2 ^ 32 ->
  let spec := spec_receive (o_history_enabled (pa_opts y)) known (op_seqno packet) in
  exists n' p', check_packet P n now raw q (idp y) None false fresh rs
      = (Ok (if fst spec then Some (idp x) else None), n')
    /\ node_good y x n' p' /\ seen y x false known (op_seqno packet) p p' /\ same_channels n n' /\ n_out n' = n_out n.
Proof.
  intros x y n p now raw packet q fresh rs known t target HW HG Hinv Hs Hc msgs Hq Hfrom Haddr Hdates Htarget Hsig T1 T2 T3 spec.
  destruct Hq as (Q1 & Q2 & Q3 & Q4 & Q5 & Q6 & Q7 & Q8).
  destruct Hsig as (sg & Hsg & Hext).
  pose proof (ng_opts _ _ _ _ _ HG) as Ho. pose proof (ng_start _ _ _ _ _ HG) as Hst.
  destruct (wo_y _ _ _ HW) as (Xa & Xs & Xl & Xv).
  unfold check_packet, packet_source. rewrite Q1, Hfrom, Q2. unfold full_id, party_key at 1.
  rewrite (pub_valid P HP). unfold verify_packet at 1. rewrite Hsg, Hext. fold (party_key P x).
  unfold party_key at 1. rewrite (sign_verifies P HP). rewrite Q4, Haddr.
  unfold parse_address_list. cbn [al_address al_reinit_date al_expire_at]. rewrite Ho.
  replace (now + o_clock_tolerance (pa_opts y) <? pa_start x) with false by lia.
  rewrite (N.mod_small (t + _)) by lia.
  replace (t + o_address_list_timeout (pa_opts x) <? now) with false by lia. rewrite andb_false_r.
  assert (Hsa : sockaddr_of (address_of (pa_addr x)) = pa_addr x).
  { destruct Xa as [Xa1 Xa2]. unfold sockaddr_of, address_of. cbn. rewrite !N.mod_small by lia. now destruct (pa_addr x). }
  rewrite Hsa. change (short_id P (party_key P x)) with (idp x).
  unfold add_peer. rewrite (bytes_eqb_neq (idp x) (idp y)) by (apply not_eq_sym, (wo_id _ _ _ HW)).
  rewrite (ng_addr _ _ _ _ _ HG), (sockaddr_eqb_neq (pa_addr x) (pa_addr y)) by (apply not_eq_sym, (wo_addr _ _ _ HW)).
  rewrite (ng_filter _ _ _ _ _ HG). cbn [orb].
  destruct (get_peer_table _ _ _ _ (ng_peer _ _ _ _ _ HG)) as (ps & Hps & Hp). rewrite Hps, Hp.
  assert (G1 : node_good y x (put_peer n (idp y) (idp x) (set_addr p (pa_addr x))) (set_addr p (pa_addr x))).
  { destruct HG. eapply node_good_put; [split; eassumption|..]; cbn; try assumption. reflexivity. }
  set (p1 := set_addr p (pa_addr x)) in *. set (n1 := put_peer n (idp y) (idp x) p1) in *.
  destruct (get_peer_table _ _ _ _ (ng_peer _ _ _ _ _ G1)) as (ps1 & Hps1 & Hp1). rewrite Hps1, Hp1.
  rewrite Q7, Hdates. unfold check_reinit. cbn [rd_local rd_target].
  rewrite (ng_start _ _ _ _ _ G1), (ng_opts _ _ _ _ _ G1).
  replace (pa_start y <? target) with false by (destruct Htarget; lia).
  replace (now + o_clock_tolerance (pa_opts y) <? pa_start x) with false by lia.
  assert (Hre : exists p2, try_reinit_sender p1 (pa_start x) = (true, p2) /\ p_recv p2 = p_recv p
     /\ (forall q, ss_seqno q (p_send p2) = ss_seqno q (p_send p))
     /\ p_key p2 = p_key p1 /\ p_channel_secret p2 = p_channel_secret p1 /\ p_addr p2 = p_addr p1
     /\ (ss_reinit (p_send p2) = 0 \/ ss_reinit (p_send p2) = pa_start x)).
  { unfold try_reinit_sender. change (p_send p1) with (p_send p).
    destruct (ng_date _ _ _ _ _ HG) as [-> | ->].
    - destruct (pa_start x ?= 0) eqn:E.
      + exists p1. apply N.compare_eq_iff in E. repeat split; try reflexivity.
        change (p_send p1) with (p_send p). pose proof (ng_date _ _ _ _ _ HG). lia.
      + apply N.compare_lt_iff in E. destruct (N.nlt_0_r _ E).
      + eexists. split; [reflexivity|]. cbn. repeat split; try reflexivity. now right.
    - rewrite N.compare_refl. exists p1. repeat split; try reflexivity.
      change (p_send p1) with (p_send p). exact (ng_date _ _ _ _ _ HG). }
  destruct Hre as (p2 & Hre & R1 & R2 & R3 & R4 & R5 & R6). rewrite Hre.
  replace (negb (target =? 0) && (target <? pa_start y)) with false by (destruct Htarget; lia).
  assert (G2 : node_good y x (put_peer n1 (idp y) (idp x) p2) p2).
  { destruct G1. eapply node_good_put; [split; eassumption|..]; rewrite ?R3, ?R4, ?R5; assumption. }
  set (n2 := put_peer n1 (idp y) (idp x) p2) in *.
  rewrite Q5.
  replace (pa_opts y) with (n_opts n2) by (exact (ng_opts _ _ _ _ _ G2)). cbv zeta.
  destruct (history_good y x n2 p2 false known (op_seqno packet) (op_confirm_seqno packet) G2) as (K1 & K2 & K3 & K4);
    [now rewrite R1|exact Hs|now rewrite R2|].
  cbv zeta in K1, K2, K3, K4. fold spec in K1.
  match type of K2 with node_good _ _ ?n3 ?p3 => set (n3' := n3) in *; set (p3' := p3) in * end.
  assert (Hsame : same_channels n n3' /\ n_out n3' = n_out n).
  { split.
    - eapply same_channels_trans; [apply put_peer_channels|]. eapply same_channels_trans; [apply put_peer_channels|]. apply put_peer_channels.
    - unfold n3', n2, n1. now rewrite !put_peer_out. }
  exists n3', p3'. rewrite K1. split.
  - destruct (fst spec); [|reflexivity]. rewrite Q6, K4. reflexivity.
  - split; [exact K2|]. split; [|exact Hsame].
    destruct K3 as [S1 S2 S3 S4 S5]. split.
    + intros b. now rewrite S1, R2.
    + exact S2.
    + now rewrite S3, R1.
    + now rewrite R1 in S4.
    + intros Hoff. now rewrite (S5 Hoff), R1.
Qed.

(** A packet of the channel passes the checks. *)
Lemma check_chan : forall x y n p now raw packet q pr fresh rs known,
  node_good y x n p -> is_Some (n_by_peer n !! idp x) ->
  inv (rs_history pr (p_recv p)) known -> op_seqno packet < 2 ^ 63 -> op_confirm_seqno packet <= ss_seqno pr (p_send p) ->
  forall msgs, same_packet packet msgs q ->
  op_from packet = None -> op_reinit_dates packet = None -> op_signature packet = None ->
  let spec := spec_receive (o_history_enabled (pa_opts y)) known (op_seqno packet) in
  exists n' p', check_packet P n now raw q (idp y) (Some (idp x)) pr fresh rs
      = (Ok (if fst spec then Some (idp x) else None), n')
    /\ node_good y x n' p' /\ seen y x pr known (op_seqno packet) p p' /\ same_channels n n' /\ n_out n' = n_out n.
Proof.
  intros x y n p now raw packet q pr fresh rs known HG [h Hh] Hinv Hs Hc msgs Hq Hfrom Hdates Hsig spec.
  destruct Hq as (Q1 & Q2 & Q3 & Q4 & Q5 & Q6 & Q7 & Q8).
  unfold check_packet, packet_source. rewrite Q1, Hfrom, Q2.
  destruct (get_peer_table _ _ _ _ (ng_peer _ _ _ _ _ HG)) as (ps & Hps & Hp). rewrite Hps, Hh, Hp.
  rewrite Hsig in Q8. destruct (ip_signature q); [discriminate|]. unfold verify_packet.
  rewrite Q7, Hdates. unfold check_reinit. rewrite Q5. cbv zeta.
  destruct (history_good y x n p pr known (op_seqno packet) (op_confirm_seqno packet) HG Hinv Hs Hc) as (K1 & K2 & K3 & K4).
  cbv zeta in K1, K2, K3, K4. fold spec in K1.
  match type of K2 with node_good _ _ ?n3 ?p3 => set (n3' := n3) in *; set (p3' := p3) in * end.
  exists n3', p3'. rewrite K1. split.
  - destruct (fst spec); [|reflexivity]. rewrite Q6, K4. reflexivity.
  - split; [exact K2|]. split; [exact K3|]. split; [apply put_peer_channels|apply put_peer_out].
Qed.

Lemma set_ready_good : forall x y c d, chan_good x y c ->
  chan_good x y (mk_channel true (ch_out c) (ch_in c) (ch_local c) (ch_peer c) (ch_peer_key c) (ch_peer_date c) d).
Proof. intros x y c d H. exact H. Qed.

(** The channel of the peer is marked as ready. *)
Lemma ready_good : forall y x n p h c d, node_good y x n p ->
  n_by_peer n !! idp x = Some h -> n_heap n !! h = Some c ->
  let c' := mk_channel true (ch_out c) (ch_in c) (ch_local c) (ch_peer c) (ch_peer_key c) (ch_peer_date c) d in
  let n' := set_channels n (<[h := c']> (n_heap n)) (n_by_id n) (n_by_peer n) in
  node_good y x n' p /\ ready n' (idp x).
Proof.
  intros y x n p h c d HG Hh Hc c' n'. split.
  - destruct HG. split; try assumption. intros h' Hh'. unfold n' in *. cbn [set_channels n_by_peer n_heap n_by_id] in *.
    replace h' with h by congruence. exists c'. rewrite lookup_insert. split; [reflexivity|].
    destruct (ng_chan h Hh) as (c0 & H1 & H2 & H3). replace c0 with c in * by congruence.
    split; [exact H2|exact H3].
  - exists c'. split; [|reflexivity]. unfold chan_of, n'. cbn [set_channels n_by_peer n_heap]. rewrite Hh. apply lookup_insert.
Qed.

(** The peer's channel key arrives. *)
Lemma create_good : forall y x n p date ctx, ways_ok y x -> node_good y x n p -> u32_ok date ->
  exists n', create_channel P n (idp y) (idp x) (pub_of P (pa_channel x)) date ctx = (Ok tt, n')
    /\ node_good y x n' p /\ n_out n' = n_out n /\ has n' (idp x)
    /\ (ctx = CtxConfirm -> ready n' (idp x)) /\ (ready n' (idp x) -> ready n (idp x) \/ ctx = CtxConfirm).
Proof.
  intros y x n p date ctx HW HG Hdate. unfold create_channel.
  destruct (get_peer_table _ _ _ _ (ng_peer _ _ _ _ _ HG)) as (ps & Hps & Hp). rewrite Hps, Hp.
  destruct (n_by_peer n !! idp x) as [h|] eqn:Eh.
  - destruct (ng_chan _ _ _ _ _ HG h Eh) as (c & Hc & Hg & Hid). rewrite Hc.
    unfold is_still_valid. rewrite (proj1 (proj2 (proj2 (proj2 (proj2 Hg))))), bytes_eqb_refl. cbn [orb].
    destruct ctx.
    + exists n. split; [reflexivity|]. split; [exact HG|]. split; [reflexivity|].
      split; [exists c; unfold chan_of; now rewrite Eh|]. split; [discriminate|]. intros H. now left.
    + destruct (ready_good y x n p h c (ch_drop c) HG Eh Hc) as [R1 R2].
      eexists. split; [reflexivity|]. unfold set_ready. split; [exact R1|]. split; [reflexivity|].
      split; [destruct R2 as (c' & R2 & _); exists c'; exact R2|]. split; [intros _; exact R2|]. intros _. now right.
  - rewrite (ng_secret _ _ _ _ _ HG).
    set (new := channel_new P (idp y) (idp x) (pa_channel y) (pub_of P (pa_channel x)) date ctx).
    assert (Hnew : chan_good y x new).
    { unfold chan_good, new, PairWire.new_chan, channel_new. destruct (bytes_cmp (idp y) (idp x)); repeat split; exact Hdate. }
    set (h := fresh (dom (n_heap n))).
    eexists. split; [reflexivity|].
    match goal with |- node_good _ _ ?n' _ /\ _ => set (n1 := n') end.
    assert (Hco : chan_of n1 (idp x) = Some new).
    { unfold chan_of, n1. cbn [set_channels n_by_peer n_heap]. rewrite lookup_insert. apply lookup_insert. }
    assert (Hrd : ch_ready new = match ctx with CtxConfirm => true | CtxCreate => false end).
    { unfold new, channel_new. now destruct (bytes_cmp (idp y) (idp x)). }
    split; [|split; [reflexivity|split; [now exists new|split]]].
    + destruct HG. split; try assumption. intros h' Hh'. unfold n1 in *. cbn [set_channels n_by_peer n_heap n_by_id] in *.
      rewrite lookup_insert in Hh'. injection Hh' as <-. exists new. rewrite lookup_insert. split; [reflexivity|].
      split; [exact Hnew|]. intros [].
      * apply lookup_insert.
      * rewrite lookup_insert_ne; [apply lookup_insert|].
        rewrite !(chan_in_eq P y x new _ Hnew). apply (wo_in _ _ _ HW).
    + intros ->. exists new. now split.
    + intros (c & Hc & Hr). rewrite Hco in Hc. injection Hc as <-. rewrite Hrd in Hr. destruct ctx; [discriminate|now right].
Qed.

Lemma packet_long : forall p, (32 <= length (put_out_packet p))%nat.
Proof.
  intros p. unfold put_out_packet. rewrite !app_length.
  assert (A : (16 <= length (put_address_list (op_address p)))%nat).
  { unfold put_address_list. rewrite !app_length, !put_u32_length. lia. }
  assert (B : forall v, length (put_u64 v) = 8%nat) by (intros; apply le_bytes_length).
  rewrite !put_u32_length, !B. lia.
Qed.

(** Receiving. *)
Lemma receive_good : forall x y n p t m d pr s c k now fresh rs known,
  ways_ok y x -> node_good y x n p -> wire P x y t m d pr s c k -> small_payload m ->
  (o_version (pa_opts x) = None -> ~ accidentally_versioned P 32 d /\ ~ accidentally_versioned P 64 d) ->
  (k = KChannel -> has n (idp x)) ->
  inv (rs_history pr (p_recv p)) known -> s < 2 ^ 63 -> c <= ss_seqno pr (p_send p) ->
  pa_start x <= now + o_clock_tolerance (pa_opts y) -> now <= t + o_address_list_timeout (pa_opts x) ->
  t + o_address_list_timeout (pa_opts x) < 2 ^ 32 ->
  let spec := spec_receive (o_history_enabled (pa_opts y)) known s in
  exists n' p', handle_received_data P fuel n now d fresh rs
      = (Ok tt, if fst spec then shows (idp y) (idp x) m else [], n')
    /\ node_good y x n' p' /\ seen y x pr known s p p' /\ n_out n' = n_out n
    /\ (has n (idp x) -> has n' (idp x)) /\ (ready n (idp x) -> ready n' (idp x))
    /\ (fst spec = true -> has n' (idp x)) /\ (fst spec = true -> k <> KCreate -> ready n' (idp x))
    /\ (ready n' (idp x) -> ready n (idp x) \/ k <> KCreate).
Proof.
  intros x y n p t m d pr s c k now fresh rs known HW HG Hw Hm Hplain Hk Hinv Hs Hc T1 T2 T3 spec.
  destruct (wo_y _ _ _ HW) as (Xa & Xs & Xl & Xv).
  assert (Hver : match o_version (pa_opts x) with Some v => negb (v =? ADNL_INITIAL_VERSION) | None => false end = false).
  { destruct Xv as [-> | ->]; reflexivity. }
  assert (Hne : forall q, put_out_packet q <> []).
  { intros q E. pose proof (packet_long q) as H. rewrite E in H. cbn in H. lia. }
  unfold handle_received_data, open_datagram.
  destruct Hw as [temp packet e date target k Hok Hcar Hlen He Hdate Hcreate Hfrom Haddr Hdates Htarget Hsig ->
                 |packet pr Hok Hcar Hfrom Hdates Hsig ->].
  - (* a handshake *)
    assert (Hparse : parse_handshake P (fun i => n_keys n !! i)
      (build_handshake P temp (idp y) (party_key P y) (put_out_packet packet) (o_version (pa_opts x)))
      = Ok (Some (idp y, o_version (pa_opts x), put_out_packet packet))).
    { apply handshake_round_trip; [exact HP|apply (idp_len P HP)| |].
      - rewrite (ng_keys _ _ _ _ _ HG). apply lookup_singleton.
      - unfold sendable. destruct Xv as [Xv | Xv]; rewrite Xv in *; [now apply Hplain|]. split; [reflexivity|apply Hne]. }
    rewrite Hparse. cbn [od_version od_contents od_local od_channel_peer od_priority]. rewrite Hver.
    destruct (signature_extracted packet _ _ Hok Hcar Hsig Hlen) as (q & sg & Hq & Hsg & Hext).
    destruct (packet_survives packet _ [] Hok Hcar) as (q' & Hq' & Hsame). rewrite app_nil_r, Hq in Hq'.
    injection Hq' as <-. rewrite Hq.
    destruct (check_hand x y n p now (put_out_packet packet) packet q fresh rs known t target HW HG Hinv Hs Hc _ Hsame
      Hfrom Haddr Hdates Htarget (ex_intro _ sg (conj Hsg Hext)) T1 T2 T3) as (n1 & p1 & E1 & G1 & S1 & C1 & O1).
    fold spec in E1. rewrite E1.
    destruct C1 as (C1 & C2 & C3).
    assert (Hco : chan_of n1 (idp x) = chan_of n (idp x)) by (unfold chan_of; now rewrite C1, C3).
    destruct (fst spec) eqn:Esp.
    + rewrite (proj1 (proj2 (proj2 Hsame))). cbn [process_messages].
      assert (Hctx : exists ctx, k = match ctx with CtxCreate => KCreate | CtxConfirm => KConfirm end
         /\ process_message P fuel n1 (idp y) (idp x) e
            = (match create_channel P n1 (idp y) (idp x) (pub_of P (pa_channel x)) date ctx with
              | (Err e, n') => (Err e, n') | (Ok _, n') => (Ok [], n') end)).
      { destruct e; try (exfalso; exact He); destruct He as (-> & -> & ->).
        - exists CtxConfirm. split; [reflexivity|]. cbn [process_message process_whole]. now rewrite (pub_valid P HP).
        - exists CtxCreate. split; [reflexivity|]. cbn [process_message process_whole]. now rewrite (pub_valid P HP). }
      destruct Hctx as (ctx & Hkc & Hpm). rewrite Hpm.
      destruct (create_good y x n1 p1 date ctx HW G1 Hdate) as (n2 & E2 & G2 & O2 & H2 & R2 & B2). rewrite E2.
      rewrite (process_payload n2 _ _ m Hm). exists n2, p1.
      rewrite app_nil_l, app_nil_r. split; [reflexivity|]. split; [exact G2|]. split; [exact S1|].
      split; [now rewrite O2|]. split; [now intros _|]. split; [|split; [now intros _|split]].
      * intros Hr. destruct ctx.
        -- (* the channel stays as it was *)
           unfold create_channel in E2.
           destruct (get_peer_table _ _ _ _ (ng_peer _ _ _ _ _ G1)) as (ps & Hps & Hp). rewrite Hps, Hp in E2.
           destruct Hr as (cc & Hcc & Hrr). pose proof Hcc as Hcc'. rewrite <- Hco in Hcc. unfold chan_of in Hcc.
           destruct (n_by_peer n1 !! idp x) as [h|] eqn:Eh; [|discriminate]. rewrite Hcc in E2.
           destruct (ng_chan _ _ _ _ _ G1 h Eh) as (c0 & Hc0 & Hg & _). replace c0 with cc in * by congruence.
           unfold is_still_valid in E2. rewrite (proj1 (proj2 (proj2 (proj2 (proj2 Hg))))), bytes_eqb_refl in E2.
           cbn [orb] in E2. injection E2 as <-. exists cc. split; [|exact Hrr]. unfold chan_of. now rewrite Eh.
        -- now apply R2.
      * intros _ Hkn. apply R2. destruct ctx; [now subst|reflexivity].
      * intros Hr. destruct (B2 Hr) as [(cc & Hcc & Hrr)|Hb].
        -- left. exists cc. rewrite <- Hco. now split.
        -- right. subst. discriminate.
    + exists n1, p1. split; [reflexivity|]. split; [exact G1|]. split; [exact S1|]. split; [exact O1|].
      unfold has, ready. rewrite Hco. repeat split; auto; discriminate.
  - (* over the channel *)
    specialize (Hk eq_refl). destruct Hk as (ch & Hch). unfold chan_of in Hch.
    destruct (n_by_peer n !! idp x) as [h|] eqn:Eh; [|discriminate].
    destruct (ng_chan _ _ _ _ _ HG h Eh) as (c0 & Hc0 & Hg & Hid). replace c0 with ch in * by congruence. clear c0 Hc0.
    assert (Hrt : firstn 32 (channel_encrypt P (new_chan x y) (put_out_packet packet) pr (o_version (pa_opts x))) = channel_in_id (new_chan y x) pr
      /\ channel_decrypt P (new_chan y x) (channel_encrypt P (new_chan x y) (put_out_packet packet) pr (o_version (pa_opts x))) pr
         = Ok (o_version (pa_opts x), put_out_packet packet)).
    { apply channel_round_trip; [exact HP|]. unfold sendable. fold (new_chan x y).
      destruct Xv as [Xv | Xv]; rewrite Xv in *; [now apply Hplain|]. split; [reflexivity|apply Hne]. }
    destruct Hrt as [F1 F2].
    rewrite handshake_unknown_key.
    2:{ unfold channel_encrypt. rewrite encrypt_with_seal, seal_length by exact HP. pose proof (packet_long packet).
        unfold PairWire.new_chan. rewrite (sc_id_length P HP). lia. }
    2:{ rewrite F1, (ng_keys _ _ _ _ _ HG). apply lookup_singleton_ne. apply not_eq_sym, (wo_local _ _ _ HW). }
    rewrite F1.
    rewrite <- (chan_in_eq P y x ch pr Hg).
    match goal with |- context [n_by_id n !! ?i] =>
      match goal with |- context [@lookup ?A ?B ?C ?D i (n_by_id n)] =>
      replace (@lookup A B C D i (n_by_id n)) with (Some (pr, h)) by (symmetry; exact (Hid pr)) end end.
    rewrite Hch, (chan_decrypt_eq P y x ch _ pr Hg), F2.
    cbn [od_version od_contents od_local od_channel_peer od_priority]. rewrite Hver.
    destruct (packet_survives packet _ [] Hok Hcar) as (q & Hq & Hsame). rewrite app_nil_r in Hq. rewrite Hq.
    destruct (ready_good y x n p h ch (reset_drop_timeout (ch_drop ch)) HG Eh Hch) as [G0 R0].
    match type of G0 with node_good _ _ ?n0 _ => set (n1 := n0) in * end.
    assert (Hby : is_Some (n_by_peer n1 !! idp x)) by (exists h; exact Eh).
    rewrite (proj1 (proj2 (proj2 Hg))), (proj1 (proj2 (proj2 (proj2 Hg)))).
    destruct (check_chan x y n1 p now (put_out_packet packet) packet q pr fresh rs known G0 Hby Hinv Hs Hc _ Hsame Hfrom Hdates Hsig)
      as (n2 & p2 & E2 & G2 & S2 & C2 & O2).
    fold spec in E2. rewrite E2. destruct C2 as (C1 & C2 & C3).
    assert (Hco : chan_of n2 (idp x) = chan_of n1 (idp x)) by (unfold chan_of; now rewrite C1, C3).
    assert (Hres : exists ds, (if fst spec then process_messages P fuel n2 (idp y) (idp x) (ip_messages q) else (Ok tt, [], n2)) = (Ok tt, ds, n2)
      /\ ds = if fst spec then shows (idp y) (idp x) m else []).
    { destruct (fst spec); [|now eexists].
      rewrite (proj1 (proj2 (proj2 Hsame))). cbn [process_messages]. rewrite (process_payload n2 _ _ m Hm).
      eexists. split; [reflexivity|]. apply app_nil_r. }
    destruct Hres as (ds & Hres & Hds). exists n2, p2.
    split; [rewrite <- Hds, <- Hres; now destruct (fst spec)|].
    split; [exact G2|]. split; [exact S2|]. split; [exact O2|].
    assert (R2 : ready n2 (idp x)) by (unfold ready; rewrite Hco; exact R0).
    assert (H2 : has n2 (idp x)) by (destruct R2 as (cc & R2 & _); now exists cc).
    repeat split; try (intros; assumption). intros _. right. discriminate.
Qed.
End receive.
