(** Messages that need several datagrams, between two nodes that know each other. *)
From stdpp Require Import gmap.
From Coq Require Import NArith Lia.
From Coq Require Import Permutation.
From Coq Require Import ZifyBool ZifyNat ZifyN.
From Verif.Base Require Import Bytes BytesFacts Res.
From Verif.Model Require Import Crypto Encryption Tl Scheme ProtoAdnl History Channel Handshake Peer Transfer AdnlNode.
From Verif.Spec Require Import Codec CryptoSpec ChannelSpec HistorySpec TransferSpec NodeSpec PairSpec LongSpec.
From Verif.Proof Require Import TlFacts ProtoFacts TransferFacts HistoryFacts CipherFacts PacketFacts PeerFacts SplitFacts NodeFacts NodeSize HearFacts PairWire PairReceive
  PairFacts.
Open Scope N_scope.

Section long.
Variables (P : prims) (fuel : nat).
Variable HP : prims_ok P.
Local Notation idp := (party_id P).
Local Notation ways_ok := (ways_ok P).
Local Notation node_good := (node_good P).
Local Notation chan_good := (chan_good P).
Local Notation new_chan := (new_chan P).

(** How a datagram was made. *)
Inductive made (x y : party) (t : N) (ms : list message) (d : bytes) : bool -> N -> N -> bool -> Prop :=
| md_hand : forall temp packet target,
    out_packet_ok packet -> carries (op_messages packet) ms ->
    N.of_nat (length (put_out_packet packet)) < 2 ^ 16 ->
    op_from packet = Some (PkEd25519 (party_key P x)) ->
    op_address packet = mk_address_list (Some (address_of (pa_addr x))) t (pa_start x)
      ((t + o_address_list_timeout (pa_opts x)) mod 2 ^ 32) ->
    op_reinit_dates packet = Some (mk_reinit_dates (pa_start x) target) ->
    (target = 0 \/ target = pa_start y) ->
    op_signature packet = Some (sign P (pa_secret x) (put_out_packet (unsigned packet))) ->
    d = build_handshake P temp (idp y) (party_key P y) (put_out_packet packet) (o_version (pa_opts x)) ->
    made x y t ms d false (op_seqno packet) (op_confirm_seqno packet) false
| md_chan : forall packet pr,
    out_packet_ok packet -> carries (op_messages packet) ms ->
    op_from packet = None -> op_reinit_dates packet = None -> op_signature packet = None ->
    d = channel_encrypt P (new_chan x y) (put_out_packet packet) pr (o_version (pa_opts x)) ->
    made x y t ms d pr (op_seqno packet) (op_confirm_seqno packet) true.

(** The signer the sender uses. *)
Definition signer_good (x y : party) (s : signer) : Prop :=
  match s with SRandom k => k = pa_secret x | SChannel c _ => chan_good x y c end.
Definition over_channel (s : signer) : bool := match s with SRandom _ => false | SChannel _ _ => true end.

(** One packet. *)
Lemma packet_good : forall x y n p now s om ms r, ways_ok x y -> node_good x y n p -> u32_ok now ->
  signer_good x y s -> carries om ms -> len (put_out_messages om) <= body_bound -> length (r_bytes r) = 10%nat ->
  (forall pr, ss_seqno pr (p_send p) + 1 < 2 ^ 63) -> (forall pr, h_seqno (rs_history pr (p_recv p)) < 2 ^ 63) ->
  exists pr d p', send_packet P n now (idp y) p s om r = (p', (pa_addr y, d))
    /\ p_recv p' = p_recv p /\ p_send p' = set_ss_seqno pr (ss_seqno pr (p_send p) + 1) (p_send p)
    /\ node_good x y (push_out (put_peer n (idp x) (idp y) p') (pa_addr y, d)) p'
    /\ n_out (push_out (put_peer n (idp x) (idp y) p') (pa_addr y, d)) = n_out n ++ [(pa_addr y, d)]
    /\ made x y now ms d pr (ss_seqno pr (p_send p) + 1) (h_seqno (rs_history pr (p_recv p))) (over_channel s).
Proof.
  intros x y n p now s om ms r HW HG Hnow Hs Hc Hb Hr Hsn Hhn.
  pose proof HG as HG0. destruct HG as [G1 G2 G3 G4 G5 G6 G7 G8 G9 G10 G11].
  destruct (wo_x _ _ _ HW) as (Xa & Xs & Xl & Xv). destruct (wo_y _ _ _ HW) as (Ya & Ys & Yl & Yv).
  assert (Haddr : peer_addr p = pa_addr y) by (unfold peer_addr; rewrite G9; now apply unpack_pack).
  assert (R1 : length (firstn 3 (r_bytes r)) = 3%nat) by (rewrite firstn_length; lia).
  assert (R2 : length (skipn 3 (r_bytes r)) = 7%nat) by (rewrite skipn_length; lia).
  assert (B1 : len (put_bytes (firstn 3 (r_bytes r))) = 4) by (unfold len; now rewrite put_bytes_length, R1).
  assert (B2 : len (put_bytes (skipn 3 (r_bytes r))) = 8) by (unfold len; now rewrite put_bytes_length, R2).
  assert (Hal : address_list_ok (mk_address_list (Some (address_of (pa_addr x))) now (pa_start x)
            ((now + o_address_list_timeout (pa_opts x)) mod 2 ^ 32))).
  { destruct Xa as [Xa1 Xa2]. unfold address_list_ok, address_of. cbn.
    unfold address_ok, u32_ok in *. cbn [ad_ip ad_port]. repeat split; try assumption; [lia|].
    apply N.mod_lt. discriminate. }
  assert (Hwrap : forall pr, (ss_seqno pr (p_send p) + 1) mod 2 ^ 64 = ss_seqno pr (p_send p) + 1).
  { intros pr. apply N.mod_small. specialize (Hsn pr). lia. }
  unfold send_packet. cbv zeta. destruct s as [c priority|secret]; cbn [signer_good over_channel] in *.
  - match goal with |- context [if ?b then SChannel c false else SChannel c priority] =>
      set (pr := if b then false else priority);
      replace (if b then SChannel c false else SChannel c priority) with (SChannel c pr) by (unfold pr; now destruct b) end.
    rewrite G3, Xl, Haddr. cbn [andb]. rewrite G1, G2.
    cbn [op_rand1 op_from op_messages op_address op_seqno op_confirm_seqno op_reinit_dates op_rand2].
    rewrite (Hwrap pr).
    match goal with |- context [channel_encrypt P c (put_out_packet ?u) _ _] => set (packet := u) end.
    eexists pr, _, _. split; [reflexivity|]. split; [reflexivity|]. split; [reflexivity|]. split; [|split].
    + apply push_good. eapply node_good_put; [exact HG0|..]; cbn [p_key p_channel_secret p_addr p_send]; try assumption.
      unfold set_ss_seqno. now destruct pr.
    + cbn [push_out n_out]. now rewrite put_peer_out.
    + eapply (md_chan x y now ms _ packet pr).
      * unfold out_packet_ok, packet. cbn. unfold blob_ok, u64_ok. rewrite R1, R2.
        repeat split; try lia; try assumption.
        -- destruct Xa as [Xa1 Xa2]. unfold address_of. cbn. unfold address_ok, u32_ok. cbn. lia.
        -- destruct Xa as [Xa1 Xa2]. unfold address_of. cbn. unfold address_ok, u32_ok. cbn. lia.
        -- apply N.mod_lt. discriminate.
        -- specialize (Hsn pr). lia.
        -- specialize (Hhn pr). lia.
      * exact Hc.
      * reflexivity.
      * reflexivity.
      * reflexivity.
      * now apply chan_encrypt_eq.
  - subst secret. rewrite G3, Xl, Haddr. cbn [andb].
    rewrite G1, G2, G7. cbn [op_rand1 op_from op_messages op_address op_seqno op_confirm_seqno op_reinit_dates op_rand2].
    rewrite (Hwrap false).
    match goal with |- context [sign P (pa_secret x) (put_out_packet ?u)] => set (un := u) end.
    match goal with |- context [build_handshake P _ _ _ (put_out_packet ?u) _] => set (packet := u) end.
    eexists false, _, _. split; [reflexivity|]. split; [reflexivity|]. split; [reflexivity|]. split; [|split].
    + apply push_good. eapply node_good_put; [exact HG0|..]; cbn [p_key p_channel_secret p_addr p_send]; try assumption.
      reflexivity.
    + cbn [push_out n_out]. now rewrite put_peer_out.
    + assert (Hsize : N.of_nat (length (put_out_packet packet)) < 2 ^ 16).
      { pose proof (out_packet_size (firstn 3 (r_bytes r)) (Some (PkEd25519 (pub_of P (pa_secret x)))) om
          (op_address un) (op_seqno un) (op_confirm_seqno un) (op_reinit_dates un)
          (Some (sign P (pa_secret x) (put_out_packet un))) (skipn 3 (r_bytes r)) B1 B2 Hb (pub_len P HP _) (sign_len P HP _ _)) as Hp.
        unfold len in Hp. unfold packet, un in *. cbn [op_address op_seqno op_confirm_seqno op_reinit_dates] in *. lia. }
      eapply (md_hand x y now ms _ (r_temp r) packet (ss_reinit (p_send p))).
      * unfold out_packet_ok, packet. cbn. unfold blob_ok, u64_ok. rewrite R1, R2.
        repeat split; try lia; try assumption.
        -- apply (pub_len P HP).
        -- destruct Xa as [Xa1 Xa2]. unfold address_of. cbn. unfold address_ok, u32_ok. cbn. lia.
        -- destruct Xa as [Xa1 Xa2]. unfold address_of. cbn. unfold address_ok, u32_ok. cbn. lia.
        -- apply N.mod_lt. discriminate.
        -- specialize (Hsn false). cbn in Hsn. lia.
        -- specialize (Hhn false). cbn in Hhn. lia.
        -- destruct G10 as [-> | ->]; [reflexivity|assumption].
        -- apply (sign_len P HP).
      * exact Hc.
      * exact Hsize.
      * reflexivity.
      * reflexivity.
      * reflexivity.
      * exact G10.
      * reflexivity.
      * reflexivity.
Qed.

(** What is known about a datagram. *)
Record item := mk_item { it_data : bytes; it_messages : list message; it_priority : bool; it_number : N }.
Definition item_ok (x y : party) (t : N) (c : bool -> N) (channel : bool) (i : item) : Prop :=
  made x y t (it_messages i) (it_data i) (it_priority i) (it_number i) (c (it_priority i)) channel.
Definition item_key (i : item) : bool * N := (it_priority i, it_number i).

Lemma ss_set_le : forall pr q v s, ss_seqno q s <= ss_seqno q (set_ss_seqno pr (ss_seqno pr s + v) s)
  /\ ss_seqno q (set_ss_seqno pr (ss_seqno pr s + v) s) <= ss_seqno q s + v.
Proof. intros [] [] v s; cbn; lia. Qed.

(** All packets. *)
Lemma packets_good : forall x y now s, ways_ok x y -> u32_ok now -> signer_good x y s ->
  forall l contents, Forall2 carries l contents -> Forall (fun o => len (put_out_messages o) <= body_bound) l ->
  forall rs, (forall i, length (r_bytes (rs i)) = 10%nat) -> forall n p k, node_good x y n p ->
  (forall pr, ss_seqno pr (p_send p) + N.of_nat (length l) < 2 ^ 63) -> (forall pr, h_seqno (rs_history pr (p_recv p)) < 2 ^ 63) ->
  exists items, n_out (send_packets P n now (idp x) (idp y) p s l rs k) = n_out n ++ map (fun i => (pa_addr y, it_data i)) items
    /\ map it_messages items = contents
    /\ Forall (item_ok x y now (fun pr => h_seqno (rs_history pr (p_recv p))) (over_channel s)) items
    /\ Forall (fun i => ss_seqno (it_priority i) (p_send p) < it_number i < 2 ^ 63) items
    /\ List.NoDup (map item_key items).
Proof.
  intros x y now s HW Hnow Hs l contents HF. induction HF as [|om ms l contents Hc HF IH]; intros Hb rs Hrs n p k HG Hsn Hhn.
  - exists []. cbn. rewrite app_nil_r. repeat split; constructor.
  - apply Forall_cons_iff in Hb as [Hb1 Hb2]. cbn [length] in Hsn.
    destruct (packet_good x y n p now s om ms (rs k) HW HG Hnow Hs Hc Hb1 (Hrs k)) as (pr & d & p' & E & E1 & E2 & E3 & E4 & E5).
    { intros q. specialize (Hsn q). lia. }
    { exact Hhn. }
    cbn [send_packets]. rewrite E.
    assert (Hle : forall q, ss_seqno q (p_send p) <= ss_seqno q (p_send p') <= ss_seqno q (p_send p) + 1).
    { intros q. rewrite E2. apply ss_set_le. }
    assert (Hpr : ss_seqno pr (p_send p') = ss_seqno pr (p_send p) + 1) by (rewrite E2, ss_set, Bool.eqb_reflx; reflexivity).
    destruct (IH Hb2 rs Hrs _ p' (S k) E3) as (items & I1 & I2 & I3 & I4 & I5).
    { intros q. specialize (Hle q). specialize (Hsn q). lia. }
    { intros q. rewrite E1. apply Hhn. }
    exists (mk_item d ms pr (ss_seqno pr (p_send p) + 1) :: items). cbn [map it_data it_messages].
    split; [rewrite I1, E4, <- app_assoc; reflexivity|]. split; [now rewrite I2|]. split; [|split].
    + constructor; [exact E5|]. rewrite E1 in I3. exact I3.
    + constructor; [cbn [it_priority it_number]; specialize (Hsn pr); lia|].
      eapply Forall_impl; [exact I4|]. intros i [Hi1 Hi2]. cbv beta in *. specialize (Hle (it_priority i)). lia.
    + constructor; [|exact I5]. intros Hin. apply in_map_iff in Hin as (i & Hk & Hi).
      unfold item_key in Hk. cbn [it_priority it_number] in Hk. injection Hk as Hk1 Hk2.
      rewrite List.Forall_forall in I4. specialize (I4 i Hi). cbv beta in I4. rewrite Hk1, Hk2 in I4. lia.
Qed.

(** Receiving: the packet passes the checks, and its messages are processed. *)
Lemma check_transfers : forall n now raw packet l cp pr f rs,
  n_transfers (snd (check_packet P n now raw packet l cp pr f rs)) = n_transfers n.
Proof.
  intros n now raw packet l cp pr f rs. rewrite (q_transfers _ _ (check_packet_effect P n now raw packet l cp pr f rs)).
  destruct (packet_source_effect P n now raw packet l cp f) as [->|(key & ad & -> & _)]; [reflexivity|].
  apply (add_peer_effect n CtxAdnlPacket l (short_id P key) ad key f).
Qed.

Lemma received : forall x y n p t ms d pr q c channel now fresh rs known,
  ways_ok y x -> node_good y x n p -> made x y t ms d pr q c channel ->
  (o_version (pa_opts x) = None -> ~ accidentally_versioned P 32 d /\ ~ accidentally_versioned P 64 d) ->
  (channel = true -> has n (idp x)) -> inv (rs_history pr (p_recv p)) known -> ~ In q known -> q < 2 ^ 63 -> c <= ss_seqno pr (p_send p) ->
  pa_start x <= now + o_clock_tolerance (pa_opts y) -> now <= t + o_address_list_timeout (pa_opts x) ->
  t + o_address_list_timeout (pa_opts x) < 2 ^ 32 ->
  exists n' p', handle_received_data P fuel n now d fresh rs = process_messages P fuel n' (idp y) (idp x) ms
    /\ node_good y x n' p' /\ seen y x pr known q p p' /\ n_transfers n' = n_transfers n
    /\ (has n (idp x) -> has n' (idp x)).
Proof.
  intros x y n p t ms d pr q c channel now fresh rs known HW HG Hw Hplain Hk Hinv Hfresh Hs Hc T1 T2 T3.
  destruct (wo_y _ _ _ HW) as (Xa & Xs & Xl & Xv).
  assert (Hver : match o_version (pa_opts x) with Some v => negb (v =? ADNL_INITIAL_VERSION) | None => false end = false).
  { destruct Xv as [-> | ->]; reflexivity. }
  assert (Hacc : fst (spec_receive (o_history_enabled (pa_opts y)) known q) = true) by (now apply spec_fresh).
  assert (Hne : forall q, put_out_packet q <> []).
  { intros z E. pose proof (packet_long z) as H. rewrite E in H. cbn in H. lia. }
  unfold handle_received_data, open_datagram.
  destruct Hw as [temp packet target Hok Hcar Hlen Hfrom Haddr Hdates Htarget Hsig ->|packet pr Hok Hcar Hfrom Hdates Hsig ->].
  - assert (Hparse : parse_handshake P (fun i => n_keys n !! i)
      (build_handshake P temp (idp y) (party_key P y) (put_out_packet packet) (o_version (pa_opts x)))
      = Ok (Some (idp y, o_version (pa_opts x), put_out_packet packet))).
    { apply handshake_round_trip; [exact HP|apply (idp_len P HP)| |].
      - rewrite (ng_keys _ _ _ _ _ HG). apply lookup_singleton.
      - unfold sendable. destruct Xv as [Xv | Xv]; rewrite Xv in *; [now apply Hplain|]. split; [reflexivity|apply Hne]. }
    rewrite Hparse. cbn [od_version od_contents od_local od_channel_peer od_priority]. rewrite Hver.
    destruct (signature_extracted packet _ _ Hok Hcar Hsig Hlen) as (pq & sg & Hq & Hsg & Hext).
    destruct (packet_survives packet _ [] Hok Hcar) as (q' & Hq' & Hsame). rewrite app_nil_r, Hq in Hq'.
    injection Hq' as <-. rewrite Hq.
    destruct (check_hand P HP fuel x y n p now (put_out_packet packet) packet pq fresh rs known t target HW HG Hinv Hs Hc _ Hsame
      Hfrom Haddr Hdates Htarget (ex_intro _ sg (conj Hsg Hext)) T1 T2 T3) as (n1 & p1 & E1 & G1 & S1 & (C1 & C2 & C3) & O1).
    pose proof (check_transfers n now (put_out_packet packet) pq (idp y) None false fresh rs) as Htr.
    rewrite E1 in *. cbn [snd] in Htr. rewrite Hacc.
    exists n1, p1. rewrite (proj1 (proj2 (proj2 Hsame))). split; [reflexivity|]. split; [exact G1|]. split; [exact S1|]. split; [exact Htr|].
    unfold has, chan_of. now rewrite C1, C3.
  - specialize (Hk eq_refl). destruct Hk as (ch & Hch). unfold chan_of in Hch.
    destruct (n_by_peer n !! idp x) as [h|] eqn:Eh; [|discriminate].
    destruct (ng_chan _ _ _ _ _ HG h Eh) as (c0 & Hc0 & Hg & Hid). replace c0 with ch in * by congruence. clear c0 Hc0.
    assert (Hrt : firstn 32 (channel_encrypt P (new_chan x y) (put_out_packet packet) pr (o_version (pa_opts x))) = channel_in_id (new_chan y x) pr
      /\ channel_decrypt P (new_chan y x) (channel_encrypt P (new_chan x y) (put_out_packet packet) pr (o_version (pa_opts x))) pr
         = Ok (o_version (pa_opts x), put_out_packet packet)).
    { apply channel_round_trip; [exact HP|]. unfold sendable. fold (new_chan x y).
      destruct Xv as [Xv | Xv]; rewrite Xv in *; [now apply Hplain|]. split; [reflexivity|apply Hne]. }
    destruct Hrt as [F1 F2].
    rewrite handshake_unknown_key.
    2:{ unfold channel_encrypt. rewrite encrypt_with_seal, seal_length by exact HP. pose proof (packet_long packet).
        unfold PairWire.new_chan. rewrite (sc_id_length P HP). lia. }
    2:{ rewrite F1, (ng_keys _ _ _ _ _ HG). apply lookup_singleton_ne. apply not_eq_sym, (wo_local _ _ _ HW). }
    rewrite F1.
    rewrite <- (chan_in_eq P y x ch pr Hg).
    match goal with |- context [n_by_id n !! ?i] =>
      match goal with |- context [@lookup ?A ?B ?C ?D i (n_by_id n)] =>
      replace (@lookup A B C D i (n_by_id n)) with (Some (pr, h)) by (symmetry; exact (Hid pr)) end end.
    rewrite Hch, (chan_decrypt_eq P y x ch _ pr Hg), F2.
    cbn [od_version od_contents od_local od_channel_peer od_priority]. rewrite Hver.
    destruct (packet_survives packet _ [] Hok Hcar) as (pq & Hq & Hsame). rewrite app_nil_r in Hq. rewrite Hq.
    destruct (ready_good P y x n p h ch (reset_drop_timeout (ch_drop ch)) HG Eh Hch) as [G0 R0].
    match type of G0 with PairWire.node_good _ _ _ ?n0 _ => set (n1 := n0) in * end.
    assert (Hby : is_Some (n_by_peer n1 !! idp x)) by (exists h; exact Eh).
    rewrite (proj1 (proj2 (proj2 Hg))), (proj1 (proj2 (proj2 (proj2 Hg)))).
    destruct (check_chan P x y n1 p now (put_out_packet packet) packet pq pr fresh rs known G0 Hby Hinv Hs Hc _ Hsame Hfrom Hdates Hsig)
      as (n2 & p2 & E2 & G2 & S2 & (C1 & C2 & C3) & O2).
    pose proof (check_transfers n1 now (put_out_packet packet) pq (idp y) (Some (idp x)) pr fresh rs) as Htr.
    rewrite E2 in *. cbn [snd] in Htr. rewrite Hacc.
    exists n2, p2. rewrite (proj1 (proj2 (proj2 Hsame))). split; [reflexivity|]. split; [exact G2|]. split; [exact S2|]. split; [exact Htr|].
    intros _. destruct R0 as (cc & R0 & _). exists cc. rewrite <- R0. unfold chan_of. now rewrite C1, C3.
Qed.

(** The messages of a packet: proposals and confirmations of the channel, and parts of one message. *)
Definition channel_message (x : party) (m : message) : Prop :=
  match m with
  | MCreateChannel key d => key = pub_of P (pa_channel x) /\ u32_ok d
  | MConfirmChannel key _ d => key = pub_of P (pa_channel x) /\ u32_ok d
  | _ => False
  end.
Definition parts_in (ms : list message) : list part := as_parts ms.

Lemma as_parts_app : forall u v, as_parts (u ++ v) = as_parts u ++ as_parts v.
Proof. intros. unfold as_parts. apply flat_map_app. Qed.

Lemma channel_processed : forall x y n p m, ways_ok y x -> node_good y x n p -> channel_message x m ->
  exists n', process_message P fuel n (idp y) (idp x) m = (Ok [], n') /\ node_good y x n' p
    /\ n_transfers n' = n_transfers n /\ has n' (idp x).
Proof.
  intros x y n p m HW HG Hm.
  assert (Hctx : exists date ctx, u32_ok date /\ process_message P fuel n (idp y) (idp x) m
            = (match create_channel P n (idp y) (idp x) (pub_of P (pa_channel x)) date ctx with
              | (Err e, n') => (Err e, n') | (Ok _, n') => (Ok [], n') end)).
  { destruct m; try (exfalso; exact Hm); destruct Hm as [-> Hd].
    - exists date, CtxConfirm. split; [exact Hd|]. cbn [process_message process_whole]. now rewrite (pub_valid P HP).
    - exists date, CtxCreate. split; [exact Hd|]. cbn [process_message process_whole]. now rewrite (pub_valid P HP). }
  destruct Hctx as (date & ctx & Hd & ->).
  destruct (create_good P y x n p date ctx HW HG Hd) as (n' & E & G & O & H & _).
  pose proof (create_channel_transfers P n (idp y) (idp x) (pub_of P (pa_channel x)) date ctx) as Ht.
  rewrite E in *. exists n'. auto.
Qed.

Lemma transfers_good : forall x y n p ts, node_good x y n p -> node_good x y (set_transfers n ts) p.
Proof. intros x y n p ts []. split; assumption. Qed.

Definition given (d : delivery) (os : list (part * part_outcome)) : list delivery :=
  flat_map (fun z => match snd z with Whole _ => [d] | _ => [] end) os.
Definition fine (b : bytes) (os : list (part * part_outcome)) : Prop :=
  forall p o, In (p, o) os -> o = Pending \/ o = Whole b.

Lemma processed : forall x y m d, ways_ok y x -> message_ok m -> delivered_as (idp y) (idp x) m = Some d ->
  forall ms n p, node_good y x n p -> (forall u, In u ms -> channel_message x u \/ exists z, u = part_message z) ->
  let out := arrive P fuel (n_transfers n) (parts_in ms) in
  fine (put_message m) (fst out) ->
  exists n', process_messages P fuel n (idp y) (idp x) ms = (Ok tt, given d (fst out), n') /\ node_good y x n' p
    /\ n_transfers n' = snd out /\ (has n (idp x) -> has n' (idp x)).
Proof.
  intros x y m d HW Hm Hd. induction ms as [|u ms IH]; intros n p HG Hms.
  - cbv zeta. intros _. exists n. cbn. auto.
  - destruct (Hms u (or_introl eq_refl)) as [Hu|[z ->]].
    + assert (E : parts_in (u :: ms) = parts_in ms) by (unfold parts_in, as_parts; cbn [flat_map]; now destruct u).
      rewrite E. cbv zeta. intros Hf. cbn [process_messages].
      destruct (channel_processed x y n p u HW HG Hu) as (n1 & E1 & G1 & T1 & H1). rewrite E1. rewrite <- T1 in *.
      destruct (IH n1 p G1 (fun v Hv => Hms v (or_intror Hv)) Hf) as (n2 & E2 & G2 & T2 & H2).
      rewrite E2. exists n2. auto.
    + assert (E : parts_in (part_message z :: ms) = z :: parts_in ms) by (now destruct z).
      rewrite E. cbv zeta. cbn [arrive]. cbn [process_messages part_message process_message].
      destruct (process_part P fuel (n_transfers n) (pt_hash z) (pt_total z) (pt_offset z) (pt_data z)) as [o ts].
      pose proof (IH (set_transfers n ts) p (transfers_good _ _ _ _ ts HG) (fun v Hv => Hms v (or_intror Hv))) as IH'.
      cbv zeta in IH'. change (n_transfers (set_transfers n ts)) with ts in IH'.
      destruct (arrive P fuel ts (parts_in ms)) as [os ts']. cbn [fst snd] in *. intros Hf.
      destruct IH' as (n2 & E2 & G2 & T2 & H2). { intros q r Hqr. apply (Hf q r). now right. }
      exists n2. destruct (Hf z o (or_introl eq_refl)) as [-> | ->].
      * rewrite E2. auto.
      * unfold deserialize. rewrite <- (app_nil_r (put_message m)), message_reads by assumption.
        rewrite (payload_processed P _ _ _ m d Hd). rewrite E2. rewrite app_nil_r in *. auto.
Qed.

Definition channel_or_part (x : party) (u : message) : Prop := channel_message x u \/ exists z, u = part_message z.

Lemma spec_receive_adds : forall e known q z, In z (snd (spec_receive e known q)) -> In z known \/ z = q.
Proof.
  intros e known q z H. unfold spec_receive, spec_deliver in H. destruct e; [|now left].
  destruct (256 <=? q); [destruct H|]. destruct (existsb _ _); cbn [snd] in H; [now left|]. destruct H as [<-|H]; auto.
Qed.

Lemma given_app : forall d u v, given d (u ++ v) = given d u ++ given d v.
Proof. intros. unfold given. apply flat_map_app. Qed.

(** All datagrams arrive. *)
Lemma all_received : forall x y t c channel m d, ways_ok y x -> message_ok m -> delivered_as (idp y) (idp x) m = Some d ->
  t + o_address_list_timeout (pa_opts x) < 2 ^ 32 ->
  forall l its, Forall2 (fun v i => ar_data v = it_data i) l its -> Forall (in_time P x y t) l ->
  forall n p (known : bool -> remembered), node_good y x n p -> (forall pr, inv (rs_history pr (p_recv p)) (known pr)) ->
  List.Forall (item_ok x y t c channel) its -> List.NoDup (map item_key its) ->
  (forall i, In i its -> ~ In (it_number i) (known (it_priority i)) /\ it_number i < 2 ^ 63) ->
  (forall pr, c pr <= ss_seqno pr (p_send p)) -> (channel = true -> has n (idp x)) ->
  (forall i u, In i its -> In u (it_messages i) -> channel_or_part x u) ->
  let out := arrive P fuel (n_transfers n) (parts_in (concat (map it_messages its))) in
  fine (put_message m) (fst out) ->
  exists n', all_arrive P fuel n l = (map (fun _ => Ok tt) l, given d (fst out), n') /\ n_transfers n' = snd out.
Proof.
  intros x y t c channel m d HW Hm Hd T3 l its HF.
  induction HF as [|v i l its Hvi HF IH]; intros Ht n p known HG Hinv Hits Hnd Hnum Hc Hch Hms.
  - cbv zeta. intros _. exists n. split; reflexivity.
  - apply Forall_cons_iff in Ht as [(T1 & T2 & Hplain) Ht]. apply List.Forall_cons_iff in Hits as [Hi Hits].
    cbn [map] in Hnd. apply List.NoDup_cons_iff in Hnd as [Hni Hnd].
    destruct (Hnum i (or_introl eq_refl)) as [N1 N2].
    rewrite Hvi in Hplain.
    destruct (received x y n p t _ _ _ _ _ channel (ar_time v) (ar_fresh v) (ar_rnds v) (known (it_priority i)) HW HG Hi Hplain Hch (Hinv _) N1 N2 (Hc _) T1 T2 T3)
      as (n1 & p1 & E1 & G1 & [S1 S2 S3 S4 S5] & R1 & H1).
    cbn [map concat]. unfold parts_in. rewrite as_parts_app. cbv zeta. rewrite arrive_app. rewrite <- R1.
    pose proof (processed x y m d HW Hm Hd (it_messages i) n1 p1 G1 (fun u Hu => Hms i u (or_introl eq_refl) Hu)) as Hp.
    cbv zeta in Hp. unfold parts_in in Hp.
    destruct (arrive P fuel (n_transfers n1) (as_parts (it_messages i))) as [oa ts1]. cbn [fst snd] in Hp.
    cbn [all_arrive]. rewrite Hvi, E1.
    set (known' := fun q => if Bool.eqb q (it_priority i) then snd (spec_receive (o_history_enabled (pa_opts y)) (known (it_priority i)) (it_number i)) else known q).
    destruct (arrive P fuel ts1 (as_parts (concat (map it_messages its)))) as [ob ts2] eqn:Eb. cbn [fst snd]. intros Hf.
    destruct Hp as (n2 & E2 & G2 & R2 & H2). { intros q o Hq. apply (Hf q o). apply in_or_app. now left. }
    rewrite E2.
    pose proof (IH Ht n2 p1 known' G2) as IH'. cbv zeta in IH'. unfold parts_in in IH'. rewrite R2, Eb in IH'. cbn [fst snd] in IH'.
    destruct IH' as (n3 & E3 & R3).
    + intros q. unfold known'. destruct (Bool.eqb q (it_priority i)) eqn:Eq.
      * apply Bool.eqb_prop in Eq as ->. exact S2.
      * assert (q = negb (it_priority i)) as -> by (destruct q, (it_priority i); (reflexivity || discriminate)).
        rewrite S3. apply Hinv.
    + exact Hits.
    + exact Hnd.
    + intros j Hj. destruct (Hnum j (or_intror Hj)) as [M1 M2]. split; [|exact M2]. unfold known'.
      destruct (Bool.eqb (it_priority j) (it_priority i)) eqn:Eq; [|exact M1]. apply Bool.eqb_prop in Eq.
      intros Hin. apply spec_receive_adds in Hin as [Hin|Hin]; [rewrite <- Eq in Hin; exact (M1 Hin)|].
      apply Hni. apply in_map_iff. exists j. split; [|exact Hj]. unfold item_key. congruence.
    + intros q. rewrite S1. apply Hc.
    + intros E. apply H2, H1, Hch, E.
    + intros j u Hj. apply Hms. now right.
    + intros q o Hq. apply (Hf q o). apply in_or_app. now right.
    + exists n3. rewrite E3, given_app. split; [reflexivity|exact R3].
Qed.

(** The whole message in one packet. *)
Lemma one_received : forall x y t c channel m d i v n p known, ways_ok y x -> message_ok m -> delivered_as (idp y) (idp x) m = Some d ->
  t + o_address_list_timeout (pa_opts x) < 2 ^ 32 -> ar_data v = it_data i -> in_time P x y t v ->
  node_good y x n p -> inv (rs_history (it_priority i) (p_recv p)) known -> item_ok x y t c channel i ->
  ~ In (it_number i) known -> it_number i < 2 ^ 63 -> c (it_priority i) <= ss_seqno (it_priority i) (p_send p) ->
  (channel = true -> has n (idp x)) ->
  forall extra, it_messages i = extra ++ [m] -> (forall u, In u extra -> channel_message x u) ->
  exists n', all_arrive P fuel n [v] = ([Ok tt], [d], n') /\ n_transfers n' = n_transfers n.
Proof.
  intros x y t c channel m d i v n p known HW Hm Hd T3 Hvi (T1 & T2 & Hplain) HG Hinv Hi N1 N2 Hc Hch extra Hex Hu.
  rewrite Hvi in Hplain.
  destruct (received x y n p t _ _ _ _ _ channel (ar_time v) (ar_fresh v) (ar_rnds v) known HW HG Hi Hplain Hch Hinv N1 N2 Hc T1 T2 T3)
    as (n1 & p1 & E1 & G1 & _ & R1 & H1).
  cbn [all_arrive]. rewrite Hvi, E1, Hex.
  assert (Hall : forall n1, node_good y x n1 p1 -> exists n2, process_messages P fuel n1 (idp y) (idp x) (extra ++ [m]) = (Ok tt, [d], n2) /\ n_transfers n2 = n_transfers n1).
  { clear -HW Hd Hu HP. induction extra as [|u extra IH]; intros n1 G1.
    - cbn [app process_messages].
      assert (E : process_message P fuel n1 (idp y) (idp x) m = (Ok [d], n1)).
      { pose proof (payload_processed P n1 (idp y) (idp x) m d Hd) as E. destruct m; try discriminate Hd; exact E. }
      rewrite E. exists n1. split; reflexivity.
    - cbn [app process_messages].
      destruct (channel_processed x y n1 p1 u HW G1 (Hu u (or_introl eq_refl))) as (n2 & E2 & G2 & R2 & _). rewrite E2.
      destruct (IH (fun v Hv => Hu v (or_intror Hv)) n2 G2) as (n3 & E3 & R3). rewrite E3. exists n3. split; [reflexivity|congruence]. }
  destruct (Hall n1 G1) as (n2 & E2 & R2). rewrite E2. exists n2. split; [reflexivity|congruence].
Qed.

Lemma pieces_count : forall pieces : list bytes, List.Forall (fun d => d <> []) pieces -> (length pieces <= length (concat pieces))%nat.
Proof.
  induction 1 as [|d r Hd Hr IH]; cbn [concat length]; [lia|]. rewrite app_length. destruct d as [|z d]; [now destruct Hd|]. cbn [length]. lia.
Qed.
Lemma carried_count : forall l contents, Forall2 carries l contents -> (length l <= length (concat contents))%nat.
Proof.
  induction 1 as [|o c l contents Ho HF IH]; cbn [concat length]; [lia|]. rewrite app_length. destruct Ho; cbn [length]; lia.
Qed.
Lemma parts_length : forall h t o pieces, length (cut_from h t o pieces) = length pieces.
Proof. intros h t o pieces. revert o. induction pieces as [|d r IH]; intros o; cbn [cut_from length]; [reflexivity|now rewrite IH]. Qed.

Lemma as_parts_extra : forall x extra parts, (forall u, In u extra -> channel_message x u) -> as_parts (extra ++ map part_message parts) = parts.
Proof.
  intros x extra parts Hu. rewrite as_parts_app.
  replace (as_parts extra) with (@nil part).
  - induction parts as [|[h t o d] parts IH]; [reflexivity|]. unfold as_parts in *. cbn [map flat_map part_message app]. cbn in *. now rewrite IH.
  - symmetry. induction extra as [|u extra IH]; [reflexivity|]. unfold as_parts in *. cbn [flat_map].
    rewrite IH by (intros v Hv; apply Hu; now right). specialize (Hu u (or_introl eq_refl)). destruct u; try (exfalso; exact Hu); reflexivity.
Qed.

Lemma as_parts_permuted : forall u v, Permutation u v -> Permutation (as_parts u) (as_parts v).
Proof. intros u v H. unfold as_parts. now apply Permutation_flat_map. Qed.

Lemma given_pending : forall d os, (forall p o, In (p, o) os -> o = Pending) -> given d os = [].
Proof.
  intros d os H. induction os as [|[p o] os IH]; [reflexivity|]. unfold given in *. cbn [flat_map snd].
  rewrite (H p o (or_introl eq_refl)). apply IH. intros q r Hq. apply (H q r). now right.
Qed.
End long.

(** A message of any size up to the limit arrives whole, in every state of the connection. *)
Lemma sizes_known : forall m, long_payload m -> message_ok m /\ ids_sized m /\ exists size, message_size m = Some size.
Proof.
  intros m (H1 & _ & H2). split; [exact H1|]. destruct m; try (exfalso; exact H2); cbn [message_ok ids_sized message_size] in *;
    unfold hash_ok in *; (split; [solve [tauto|exact I]|eexists; reflexivity]).
Qed.

Theorem long_arrives : forall P, prims_ok P -> forall fuel a b, parties_ok P a b -> forall s w now m priority rs d,
  exchange P fuel a b s -> long_payload m -> u32_ok now -> (forall i, length (r_bytes (rs i)) = 10%nat) ->
  N.of_nat (length (pr_letters s)) < 2 ^ 62 ->
  now + o_address_list_timeout (pa_opts (pick_who w a b)) < 2 ^ 32 -> 1936 <= N.of_nat fuel ->
  let me := id_of_who P a b w in let you := id_of_who P a b (other w) in
  delivered_as you me m = Some d ->
  n_transfers (node_of s (other w)) !! sha256 P (put_message m) = None ->
  exists n' datagrams, send_message P (node_of s w) now me you m priority rs = (Ok tt, n')
    /\ n_out n' = n_out (node_of s w) ++ map (fun x => (pa_addr (pick_who (other w) a b), x)) datagrams
    /\ forall l, Permutation (map ar_data l) datagrams ->
       Forall (in_time P (pick_who w a b) (pick_who (other w) a b) now) l ->
       exists n2, all_arrive P fuel (node_of s (other w)) l = (map (fun _ => Ok tt) l, [d], n2)
         /\ n_transfers n2 !! sha256 P (put_message m) = None.
Proof.
  intros P HP fuel a b Hab s w now m priority rs d Hs Hlong Hnow Hrs Hlet T3 Hfuel me you Hd Hnone.
  destruct (sizes_known m Hlong) as (Hm & Hids & size & Hsz). destruct Hlong as (_ & Hlen & _).
  destruct (exchange_inv P fuel a b HP Hab s Hs) as (pp & tags & HI).
  pose proof (ways P a b HP Hab w) as HW. pose proof (ways P a b HP Hab (other w)) as HWo. rewrite other_other in HWo.
  set (x := pick_who w a b) in *. set (y := pick_who (other w) a b) in *.
  pose proof (pi_good _ _ _ _ _ _ HI w) as HG. pose proof (pi_good _ _ _ _ _ _ HI (other w)) as HGo. rewrite other_other in HGo.
  fold x y in HG, HGo. change me with (party_id P x) in *. change you with (party_id P y) in *.
  (* what is added, and how it is sent *)
  set (chan := match n_by_peer (node_of s w) !! party_id P y with Some h => n_heap (node_of s w) !! h | None => None end).
  assert (Hsend : exists ex sg, signer_good P x y sg
     /\ (over_channel sg = true -> has (node_of s (other w)) (party_id P x))
     /\ (forall u, In u (extra_messages ex) -> channel_message P x u /\ message_ok u)
     /\ forall l, plan P (extra_arg ex) m size = Some l ->
        send_message P (node_of s w) now (party_id P x) (party_id P y) m priority rs
        = (Ok tt, send_packets P (node_of s w) now (party_id P x) (party_id P y) (pp w) sg l rs 0)).
  { assert (Hplan : forall ex sg, extra_arg ex =
          match chan with
          | Some c =>
            if ch_ready c then None
            else Some (MSG_CONFIRM_CHANNEL_SIZE,
                   MConfirmChannel (pub_of P (p_channel_secret (pp w))) (ch_peer_key c) (ch_peer_date c))
          | None => Some (MSG_CREATE_CHANNEL_SIZE, MCreateChannel (pub_of P (p_channel_secret (pp w))) now)
          end ->
          sg = match chan with
            | Some c => if ch_ready c then SChannel c priority else SRandom (pa_secret x)
            | None => SRandom (pa_secret x)
            end ->
          forall l, plan P (extra_arg ex) m size = Some l ->
          send_message P (node_of s w) now (party_id P x) (party_id P y) m priority rs
          = (Ok tt, send_packets P (node_of s w) now (party_id P x) (party_id P y) (pp w) sg l rs 0)).
    { intros ex sg He -> l Hl. unfold send_message.
      destruct (get_peer_table _ _ _ _ (ng_peer _ _ _ _ _ HG)) as (ps & Hps & Hp). rewrite Hps, Hp.
      rewrite (ng_keys _ _ _ _ _ HG), lookup_singleton, Hsz. fold chan. rewrite <- He, Hl. reflexivity. }
    pose proof (ng_secret _ _ _ _ _ HG) as Hsec.
    assert (Hch : forall c, chan = Some c -> PairWire.chan_good P x y c).
    { intros c Hc. unfold chan in Hc. destruct (n_by_peer (node_of s w) !! party_id P y) as [h|] eqn:Eh; [|discriminate].
      destruct (ng_chan _ _ _ _ _ HG h Eh) as (c' & Hc' & Hg & _). congruence. }
    destruct chan as [c|] eqn:Ec.
    - specialize (Hch c eq_refl). destruct (ch_ready c) eqn:Er.
      + exists NoExtra, (SChannel c priority). split; [exact Hch|]. split; [|split; [intros u []|apply Hplan; reflexivity]].
        intros _. apply (pi_ready _ _ _ _ _ _ HI w). exists c. split; [exact Ec|exact Er].
      + destruct Hch as (_ & _ & _ & _ & Hk & Hdt).
        exists (Confirm (pub_of P (pa_channel x)) (ch_peer_key c) (ch_peer_date c)), (SRandom (pa_secret x)).
        split; [reflexivity|]. split; [discriminate|]. split; [|apply Hplan; [cbn [extra_arg]; now rewrite Hsec|reflexivity]].
        intros u [<-|[]]. split; [split; [reflexivity|exact Hdt]|]. cbn [message_ok]. unfold hash_ok. rewrite Hk.
        split; [apply (pub_len P HP)|]. split; [apply (pub_len P HP)|exact Hdt].
    - exists (Create (pub_of P (pa_channel x)) now), (SRandom (pa_secret x)).
      split; [reflexivity|]. split; [discriminate|]. split; [|apply Hplan; [cbn [extra_arg]; now rewrite Hsec|reflexivity]].
      intros u [<-|[]]. split; [split; [reflexivity|exact Hnow]|]. cbn [message_ok]. unfold hash_ok.
      split; [apply (pub_len P HP)|exact Hnow]. }
  destruct Hsend as (ex & sg & Hsg & Hover & Hextra & Hsend).
  assert (Hexok : extra_ok ex) by (apply Forall_forall; intros u Hu; apply elem_of_list_In in Hu; now apply Hextra).
  assert (Hlongest : 1936 <= longest ex) by (destruct ex; cbn; lia).
  assert (Hexarg : match extra_arg ex with Some (z, e) => len (put_message e) <= z /\ z <= 72 | None => True end).
  { destruct ex; cbn [extra_arg extra_messages] in *; [exact I| |].
    - destruct (Hextra _ (or_introl eq_refl)) as [_ He]. cbn [message_ok] in He. unfold hash_ok in He.
      cbn [put_message]. rewrite !len_app, !put_u32_len. unfold put_hash, len. lia.
    - destruct (Hextra _ (or_introl eq_refl)) as [_ He]. cbn [message_ok] in He. unfold hash_ok in He.
      cbn [put_message]. rewrite !len_app, !put_u32_len. unfold put_hash, len. lia. }
  (* what the receiver knows *)
  assert (Hknown : exists known : bool -> remembered, (forall pr, inv (rs_history pr (p_recv (pp (other w)))) (known pr))
     /\ forall pr q, In q (known pr) -> q <= ss_seqno pr (p_send (pp w))).
  { assert (H : forall pr, exists k, inv (rs_history pr (p_recv (pp (other w)))) k /\ forall q, In q k -> q <= ss_seqno pr (p_send (pp w))).
    { intros pr. destruct (pi_recv _ _ _ _ _ _ HI (other w) pr) as (k & K1 & _ & K3 & _). exists k. split; [exact K1|].
      intros q Hq. destruct (K3 q Hq) as (i & _ & Hi). rewrite other_other in Hi.
      exact (tag_number P a b s pp tags w pr q HI (nth_error_In _ _ Hi)). }
    destruct (H true) as (kt & T1 & T2), (H false) as (kf & F1 & F2).
    exists (fun pr : bool => if pr then kt else kf). split; intros []; assumption. }
  destruct Hknown as (known & Hinv & Hold).
  assert (Hcount : forall v pr, ss_seqno pr (p_send (pp v)) < 2 ^ 62).
  { intros v pr. pose proof (pi_count _ _ _ _ _ _ HI v pr). lia. }
  assert (Hconf : forall pr, h_seqno (rs_history pr (p_recv (pp w))) <= ss_seqno pr (p_send (pp (other w)))).
  { intros pr. destruct (pi_recv _ _ _ _ _ _ HI w pr) as (k & _ & K2 & _). exact K2. }
  (* the packets *)
  assert (Hpackets : forall l contents, plan P (extra_arg ex) m size = Some l -> Forall2 carries l contents -> (length l < 4096)%nat ->
    exists items, n_out (send_packets P (node_of s w) now (party_id P x) (party_id P y) (pp w) sg l rs 0)
        = n_out (node_of s w) ++ map (fun i => (pa_addr y, it_data i)) items
      /\ map it_messages items = contents
      /\ Forall (item_ok P x y now (fun pr => h_seqno (rs_history pr (p_recv (pp w)))) (over_channel sg)) items
      /\ (forall i, In i items -> ~ In (it_number i) (known (it_priority i)) /\ it_number i < 2 ^ 63)
      /\ List.NoDup (map item_key items)).
  { intros l contents Hl HF Hcnt.
    destruct (packets_good P fuel HP x y now sg HW Hnow Hsg l contents HF (plan_size P HP _ m size l Hids Hsz Hexarg Hl) rs Hrs (node_of s w) (pp w) 0%nat HG)
      as (items & I1 & I2 & I3 & I4 & I5).
    { intros pr. specialize (Hcount w pr). lia. }
    { intros pr. specialize (Hconf pr). specialize (Hcount (other w) pr). lia. }
    exists items. split; [exact I1|]. split; [exact I2|]. split; [exact I3|]. split; [|exact I5].
    intros i Hi. rewrite List.Forall_forall in I4. specialize (I4 i Hi). cbv beta in I4. split; [|lia].
    intros Hk. apply Hold in Hk. lia. }
  destruct (N.le_gt_cases (match extra_arg ex with Some (z, _) => z | None => 0 end + size) 1024) as [Hone|Hmany].
  - destruct (plan_single P ex m size Hm Hexok Hone) as (packet & Hl & Hcar).
    assert (HF : Forall2 carries [packet] [extra_messages ex ++ [m]]) by (constructor; [exact Hcar|constructor]).
    destruct (Hpackets [packet] _ Hl HF ltac:(cbn; lia)) as (items & I1 & I2 & I3 & I4 & I5).
    eexists _, (map it_data items). split; [exact (Hsend _ Hl)|]. split; [rewrite I1, map_map; reflexivity|].
    intros l Hperm Htime. destruct items as [|i [|? ?]]; try discriminate I2. cbn [map] in *. injection I2 as I2.
    apply Permutation_sym, Permutation_length_1_inv in Hperm. destruct l as [|v [|? ?]]; try discriminate Hperm. injection Hperm as Hvi.
    apply Forall_cons_iff in Htime as [Htime _]. apply Forall_cons_iff in I3 as [I3 _]. destruct (I4 i (or_introl eq_refl)) as [I6 I7].
    destruct (one_received P fuel HP x y now _ _ m d i v _ _ (known (it_priority i)) HWo Hm Hd T3 Hvi Htime HGo (Hinv _) I3 I6 I7 (Hconf _) Hover
      (extra_messages ex) I2 (fun u Hu => proj1 (Hextra u Hu))) as (n2 & E & R).
    exists n2. split; [exact E|]. now rewrite R.
  - destruct (split_carries P HP ex m size Hm Hsz Hexok ltac:(lia)) as (packets & contents & parts & Hl & HF & Hcon & Hnd & Hparts & Hpieces & _).
    destruct (Hpieces ltac:(unfold len; lia)) as (pieces & Hne & Hmsg & Hpt).
    assert (Hpl : (length pieces <= 1936)%nat).
    { pose proof (pieces_count pieces Hne) as H. unfold message_of in Hmsg. rewrite Hmsg in H. unfold bytes in H. lia. }
    assert (Hcnt : (length packets < 4096)%nat).
    { pose proof (carried_count packets contents HF) as H. rewrite Hcon, app_length, map_length, Hpt in H. unfold parts_of in H.
      rewrite parts_length in H. unfold bytes in H. assert (length (extra_messages ex) <= 1)%nat by (destruct ex; cbn; lia). lia. }
    destruct (Hpackets packets contents Hl HF Hcnt) as (items & I1 & I2 & I3 & I4 & I5).
    eexists _, (map it_data items). split; [exact (Hsend _ Hl)|]. split; [rewrite I1, map_map; reflexivity|].
    intros l Hperm Htime.
    (* the items in the order of arrival *)
    assert (Hits : exists its, Permutation its items /\ Forall2 (fun v i => ar_data v = it_data i) l its).
    { apply Permutation_map_inv in Hperm as (its & Hmap & Hp). exists its. split; [now apply Permutation_sym|].
      clear -Hmap. revert its Hmap. induction l as [|v l IH]; intros [|i its] Hmap; try discriminate Hmap; [constructor|].
      cbn [map] in Hmap. injection Hmap as H1 H2. constructor; auto. }
    destruct Hits as (its & Hperm' & HF2).
    assert (Hin : forall i, In i its -> In i items) by (intros i; apply (Permutation_in _ Hperm')).
    set (arrived := parts_in (concat (map it_messages its))).
    assert (Harr : Permutation arrived parts).
    { unfold arrived, parts_in. rewrite <- (as_parts_extra P x (extra_messages ex) parts (fun u Hu => proj1 (Hextra u Hu))), <- Hcon, <- I2.
      apply as_parts_permuted. rewrite <- !flat_map_concat_map. now apply Permutation_flat_map. }
    assert (Hnp : parts <> []).
    { rewrite Hpt. intros E. destruct pieces as [|pc pcs]; [|discriminate E].
      unfold message_of in Hmsg. cbn in Hmsg. pose proof (estimate m size Hm Hsz) as [_ He].
      rewrite <- Hmsg in He. unfold len in He. cbn in He. destruct ex; cbn [extra_arg] in Hmany; lia. }
    destruct (exists_last (l := arrived)) as (before & lst & Hbl).
    { intros E. rewrite E in Harr. apply Permutation_nil in Harr. contradiction. }
    assert (Hndp : List.NoDup arrived).
    { apply (Permutation_NoDup (Permutation_sym Harr)). apply NoDup_ListNoDup in Hnd. now apply NoDup_map_inv in Hnd. }
    assert (Hcomp : completes P pieces before lst).
    { assert (Hsame : forall p, In p arrived <-> In p parts).
      { intros p. split; [apply (Permutation_in _ Harr)|apply (Permutation_in _ (Permutation_sym Harr))]. }
      rewrite Hbl in Hsame, Hndp. unfold completes. rewrite <- Hpt. split; [|split].
      - intros p Hp _. apply Hsame, in_or_app. now left.
      - apply NoDup_remove_2 in Hndp. rewrite app_nil_r in Hndp. exact Hndp.
      - intros p. rewrite <- Hsame, in_app_iff. cbn [In]. split.
        + intros [Hp|[<-|[]]]; [left|now right]. split; [exact Hp|]. rewrite Hmsg. apply Hparts, Hsame, in_or_app. now left.
        + intros [[Hp _]| ->]; [now left|right; now left]. }
    rewrite <- Hmsg in Hnone.
    destruct (reassembled P fuel (n_transfers (node_of s (other w))) pieces before lst Hne ltac:(lia) Hnone Hcomp) as (os & O1 & O2 & O3).
    rewrite <- Hbl in O1, O3. unfold outcomes in O1.
    assert (Hpend : forall p o, In (p, o) os -> o = Pending).
    { intros p o Hpo. apply (O2 p o Hpo). rewrite Hmsg. apply Hparts. apply (Permutation_in _ Harr).
      assert (Hfst : forall l ts, map fst (fst (arrive P fuel ts l)) = l).
      { clear. induction l as [|q l IH]; intros ts; [reflexivity|]. cbn [arrive]. destruct (process_part _ _ _ _ _ _ _) as [o ts']. specialize (IH ts').
        destruct (arrive P fuel ts' l) as [os ts'']. cbn [fst map] in *. now rewrite IH. }
      rewrite <- (Hfst arrived (n_transfers (node_of s (other w)))), O1. apply in_map_iff. exists (p, o). split; [reflexivity|]. apply in_or_app. now left. }
    destruct (all_received P fuel HP x y now (fun pr => h_seqno (rs_history pr (p_recv (pp w)))) (over_channel sg) m d HWo Hm Hd T3 l its HF2 Htime _ _ known HGo Hinv) as (n2 & E & R).
    + apply List.Forall_forall. intros i Hi. rewrite List.Forall_forall in I3. apply I3, Hin, Hi.
    + exact (Permutation_NoDup (Permutation_map item_key (Permutation_sym Hperm')) I5).
    + intros i Hi. apply I4, Hin, Hi.
    + exact Hconf.
    + exact Hover.
    + intros i u Hi Hu.
      assert (Hc : In u (concat contents)) by (rewrite <- I2; apply in_concat; exists (it_messages i); split; [apply in_map, Hin, Hi|exact Hu]).
      rewrite Hcon in Hc. apply in_app_or in Hc as [Hc|Hc]; [left; now apply Hextra|right]. apply in_map_iff in Hc as (z & <- & _). now exists z.
    + fold arrived. rewrite O1. intros p o Hpo. apply in_app_or in Hpo as [Hpo|[Hpo|[]]]; [left; exact (Hpend p o Hpo)|right]. congruence.
    + fold arrived in E, R. rewrite O1 in E. exists n2. split.
      * rewrite E. f_equal. f_equal. rewrite given_app, (given_pending d os Hpend). reflexivity.
      * rewrite R, <- Hmsg. exact O3.
Qed.
