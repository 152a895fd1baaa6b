(** Two nodes after one of them reset the other one. *)
From stdpp Require Import gmap.
From Coq Require Import NArith Lia.
From Coq Require Import ZifyBool ZifyNat ZifyN.
From Verif.Base Require Import Bytes BytesFacts Res.
From Verif.Model Require Import Crypto Encryption Tl Scheme ProtoAdnl History Channel Handshake Peer Transfer AdnlNode.
From Verif.Spec Require Import Codec CryptoSpec ChannelSpec HistorySpec TransferSpec NodeSpec PairSpec ResetSpec.
From Verif.Proof Require Import HistoryFacts CipherFacts PacketFacts PeerFacts SplitFacts NodeFacts NodeSize PairWire PairReceive PairFacts.
Open Scope N_scope.

Section facts.
Variables (P : prims) (fuel : nat).
Variable HP : prims_ok P.
Local Notation idp := (party_id P).
Local Notation ways_ok := (ways_ok P).
Local Notation node_good := (node_good P).

Lemma node_rekeyed : forall x y f n p h, node_good y x n p -> n_by_peer n !! idp x = h ->
  (forall i, h = Some i -> exists c, n_heap n !! i = Some c /\ chan_good P y (rekeyed x f) c
      /\ forall pr, n_by_id n !! channel_in_id c pr = Some (pr, i)) ->
  node_good y (rekeyed x f) n p.
Proof. intros x y f n p h [] <- Hh. split; assumption. Qed.

(** The node after the reset. *)
Lemma reset_good : forall x y f n p, node_good x y n p ->
  exists n', reset_peer n (idp x) (idp y) f = (Ok tt, n') /\ node_good (rekeyed x f) y n' (peer_reset p f)
  /\ ~ has n' (idp y) /\ n_out n' = n_out n.
Proof.
  intros x y f n p HG. unfold reset_peer. destruct (get_peer_table _ _ _ _ (ng_peer _ _ _ _ _ HG)) as (ps & Hps & Hp).
  rewrite Hps, Hp. eexists. split; [reflexivity|].
  set (n1 := drop_channel n (idp y)).
  assert (H1 : same_setup n n1 /\ n_peers n1 = n_peers n /\ n_by_peer n1 !! idp y = None /\ n_out n1 = n_out n).
  { unfold n1, drop_channel. destruct (n_by_peer n !! idp y) as [h|] eqn:Eh.
    - destruct (ng_chan _ _ _ _ _ HG h Eh) as (c & Hc & _). rewrite Hc. split; [repeat split|]. split; [reflexivity|].
      split; [cbn [set_channels n_by_peer]; apply lookup_delete|reflexivity].
    - split; [repeat split|]. auto. }
  destruct H1 as ((S1 & S2 & S3 & S4 & S5) & Hpeers & Hnone & Hout).
  destruct (put_peer_setup n1 (idp x) (idp y) (peer_reset p f)) as (E1 & E2 & E3 & E4 & E5).
  destruct (put_peer_channels n1 (idp x) (idp y) (peer_reset p f)) as (E6 & E7 & E8).
  split; [|split].
  - destruct HG as [G1 G2 G3 G4 G5 G6 G7 G8 G9 G10 G11].
    split; [now rewrite <- E1, <- S1|now rewrite <- E2, <- S2|now rewrite <- E3, <- S3|now rewrite <- E4, <- S4|now rewrite <- E5, <- S5| | | | | |].
    + apply get_put_same. exists ps. rewrite Hpeers. exact Hps.
    + exact G7.
    + reflexivity.
    + exact G9.
    + now left.
    + intros h Hh. exfalso. rewrite <- E8 in Hh. congruence.
  - intros (c & Hc). unfold chan_of in Hc. rewrite <- E8, Hnone in Hc. discriminate.
  - now rewrite put_peer_out.
Qed.

(** A new channel key of the peer replaces the old one. *)
Lemma create_replaces : forall x y f n p date, ways_ok y (rekeyed x f) -> node_good y x n p -> u32_ok date ->
  (forall c, chan_of n (idp x) = Some c -> ch_peer_key c <> pub_of P f /\ ch_peer_date c < date) ->
  exists n', create_channel P n (idp y) (idp x) (pub_of P f) date CtxCreate = (Ok tt, n')
    /\ node_good y (rekeyed x f) n' p /\ n_out n' = n_out n /\ has n' (idp x) /\ ~ ready n' (idp x).
Proof.
  intros x y f n p date HW HG Hdate Hold. unfold create_channel.
  destruct (get_peer_table _ _ _ _ (ng_peer _ _ _ _ _ HG)) as (ps & Hps & Hp). rewrite Hps, Hp.
  rewrite (ng_secret _ _ _ _ _ HG).
  set (new := channel_new P (idp y) (idp x) (pa_channel y) (pub_of P f) date CtxCreate).
  assert (Hnew : chan_good P y (rekeyed x f) new).
  { unfold chan_good, new, PairWire.new_chan, channel_new. change (idp (rekeyed x f)) with (idp x).
    destruct (bytes_cmp (idp y) (idp x)); repeat split; exact Hdate. }
  assert (Hrd : ch_ready new = false) by (unfold new, channel_new; now destruct (bytes_cmp (idp y) (idp x))).
  set (h := fresh (dom (n_heap n))).
  assert (Hafter : forall by_id by_peer,
    let n' := set_channels n (<[h := new]> (n_heap n))
       (<[channel_in_id new true := (true, h)]> (<[channel_in_id new false := (false, h)]> by_id)) (<[idp x := h]> by_peer) in
    node_good y (rekeyed x f) n' p /\ n_out n' = n_out n /\ has n' (idp x) /\ ~ ready n' (idp x)).
  { intros by_id by_peer n'.
    assert (Hco : chan_of n' (idp x) = Some new).
    { unfold chan_of, n'. cbn [set_channels n_by_peer n_heap]. rewrite lookup_insert. apply lookup_insert. }
    split; [|split; [reflexivity|split; [now exists new|]]].
    - destruct HG. split; try assumption. intros h' Hh'. unfold n' in *. cbn [set_channels n_by_peer n_heap n_by_id] in *.
      change (idp (rekeyed x f)) with (idp x) in Hh'.
      rewrite lookup_insert in Hh'. injection Hh' as <-. exists new. rewrite lookup_insert. split; [reflexivity|].
      split; [exact Hnew|]. intros [].
      + apply lookup_insert.
      + rewrite lookup_insert_ne; [apply lookup_insert|].
        rewrite !(chan_in_eq P y (rekeyed x f) new _ Hnew). apply (wo_in _ _ _ HW).
    - intros (c & Hc & Hr). rewrite Hco in Hc. injection Hc as <-. congruence. }
  destruct (n_by_peer n !! idp x) as [oh|] eqn:Eh.
  - destruct (ng_chan _ _ _ _ _ HG oh Eh) as (c & Hc & Hg & Hid). rewrite Hc.
    assert (Hc' : chan_of n (idp x) = Some c) by (unfold chan_of; now rewrite Eh).
    destruct (Hold c Hc') as [Hk Hd]. unfold is_still_valid. rewrite (bytes_eqb_neq _ _ Hk). replace (date <=? ch_peer_date c) with false by lia.
    cbn [orb]. eexists. split; [reflexivity|]. apply Hafter.
  - eexists. split; [reflexivity|]. apply Hafter.
Qed.

(** The first letter after the reset arrives. *)
Lemma receive_replaces : forall x y f n p t m d pr s c now fresh rs,
  ways_ok y x -> ways_ok y (rekeyed x f) -> node_good y x n p -> wire P (rekeyed x f) y t m d pr s c KCreate -> small_payload m ->
  (o_version (pa_opts x) = None -> ~ accidentally_versioned P 32 d /\ ~ accidentally_versioned P 64 d) ->
  (forall c, chan_of n (idp x) = Some c -> ch_peer_key c <> pub_of P f /\ ch_peer_date c < t) ->
  o_history_enabled (pa_opts y) = false -> (forall pr, rs_history pr (p_recv p) = history_new) ->
  s < 2 ^ 63 -> c <= ss_seqno pr (p_send p) ->
  pa_start x <= now + o_clock_tolerance (pa_opts y) -> now <= t + o_address_list_timeout (pa_opts x) ->
  t + o_address_list_timeout (pa_opts x) < 2 ^ 32 ->
  exists n' p', handle_received_data P fuel n now d fresh rs = (Ok tt, shows (idp y) (idp x) m, n')
    /\ node_good y (rekeyed x f) n' p' /\ (forall q, ss_seqno q (p_send p') = ss_seqno q (p_send p))
    /\ (forall pr, rs_history pr (p_recv p') = history_new) /\ n_out n' = n_out n
    /\ has n' (idp x) /\ ~ ready n' (idp x).
Proof.
  intros x y f n p t m d pr s c now fresh rs HW HW' HG Hw Hm Hplain Hold Hoff Hrecv Hs Hc T1 T2 T3.
  destruct (wo_y _ _ _ HW) as (Xa & Xs & Xl & Xv).
  assert (Hver : match o_version (pa_opts x) with Some v => negb (v =? ADNL_INITIAL_VERSION) | None => false end = false).
  { destruct Xv as [-> | ->]; reflexivity. }
  unfold handle_received_data, open_datagram. remember KCreate as k eqn:Ek.
  destruct Hw as [temp packet e date target k Hok Hcar Hlen He Hdate Hcreate Hfrom Haddr Hdates Htarget Hsig ->|packet pr _ _ _ _ _ _]; [|discriminate].
  subst k. specialize (Hcreate eq_refl). subst date.
  change (pa_opts (rekeyed x f)) with (pa_opts x) in *. change (pa_addr (rekeyed x f)) with (pa_addr x) in *.
  change (pa_start (rekeyed x f)) with (pa_start x) in *. change (pa_secret (rekeyed x f)) with (pa_secret x) in *.
  change (pa_channel (rekeyed x f)) with f in *. change (party_key P (rekeyed x f)) with (party_key P x) in *.
  assert (Hparse : parse_handshake P (fun i => n_keys n !! i)
      (build_handshake P temp (idp y) (party_key P y) (put_out_packet packet) (o_version (pa_opts x)))
      = Ok (Some (idp y, o_version (pa_opts x), put_out_packet packet))).
  { apply handshake_round_trip; [exact HP|apply (idp_len P HP)| |].
    - rewrite (ng_keys _ _ _ _ _ HG). apply lookup_singleton.
    - unfold sendable. destruct Xv as [Xv | Xv]; rewrite Xv in *; [now apply Hplain|]. split; [reflexivity|].
      intros E. pose proof (packet_long packet) as H. rewrite E in H. cbn in H. lia. }
  rewrite Hparse. cbn [od_version od_contents od_local od_channel_peer od_priority]. rewrite Hver.
  destruct (signature_extracted packet _ _ Hok Hcar Hsig Hlen) as (q & sg & Hq & Hsg & Hext).
  destruct (packet_survives packet _ [] Hok Hcar) as (q' & Hq' & Hsame). rewrite app_nil_r, Hq in Hq'.
  injection Hq' as <-. rewrite Hq.
  assert (Hinv : inv (rs_history false (p_recv p)) []) by (rewrite Hrecv; apply inv_new).
  destruct (check_hand P HP fuel x y n p now (put_out_packet packet) packet q fresh rs [] t target HW HG Hinv Hs Hc _ Hsame
      Hfrom Haddr Hdates Htarget (ex_intro _ sg (conj Hsg Hext)) T1 T2 T3) as (n1 & p1 & E1 & G1 & S1 & C1 & O1).
  unfold spec_receive in E1. rewrite Hoff in E1. cbn [fst] in E1. rewrite E1.
  destruct C1 as (C1 & C2 & C3).
  assert (Hco : chan_of n1 (idp x) = chan_of n (idp x)) by (unfold chan_of; now rewrite C1, C3).
  rewrite (proj1 (proj2 (proj2 Hsame))). cbn [process_messages].
  destruct e as [| | | |key d'| | |]; try (exfalso; exact He); try (destruct He as (He & _); discriminate).
  destruct He as (_ & -> & ->). cbn [process_message process_whole]. rewrite (pub_valid P HP).
  destruct (create_replaces x y f n1 p1 t HW' G1 Hdate) as (n2 & E2 & G2 & O2 & H2 & R2).
  { intros c0 Hc0. apply Hold. now rewrite <- Hco. }
  rewrite E2. rewrite (process_payload P fuel n2 _ _ m Hm). exists n2, p1.
  rewrite app_nil_l, app_nil_r. split; [reflexivity|]. split; [exact G2|]. destruct S1 as [S1 _ S3 _ S5].
  split; [exact S1|]. split; [|split; [now rewrite O2|split; assumption]].
  intros []; [etransitivity; [exact S3|apply (Hrecv true)]|rewrite (S5 Hoff); apply Hrecv].
Qed.

(** One turn between nodes in a good state. *)
Section turns.
Variables (a b : party).
Hypothesis Hab : parties_ok P a b.
Local Notation par w := (pick_who w a b).
Local Notation idw := (id_of_who P a b).

(** What holds of [w], which has the channel key of [x], towards [y]. *)
Record fine (s : pair) (w : who) (x y : party) (p : peer) : Prop := mk_fine
  { fi_good : node_good x y (node_of s w) p;
    fi_recv : forall pr, rs_history pr (p_recv p) = history_new;
    fi_sent : forall pr, ss_seqno pr (p_send p) <= N.of_nat (length (pr_letters s)) }.

Lemma sent_turn : forall s t x y p, ways_ok x y -> fine s (tn_who t) x y p ->
  idp x = idw (tn_who t) -> idp y = idw (other (tn_who t)) ->
  may_say P a b s (tn_who t) (tn_sent t) (tn_message t) (tn_priority t) (tn_rnd t) ->
  let s' := sent_in P a b s t in
  exists l pr k p', last_letter s' = Some l /\ lt_from l = tn_who t /\ lt_time l = tn_sent t /\ lt_message l = tn_message t
  /\ plain P a b l /\ length (pr_letters s') = S (length (pr_letters s))
  /\ wire P x y (tn_sent t) (tn_message t) (lt_data l) pr (ss_seqno pr (p_send p) + 1) 0 k
  /\ fine s' (tn_who t) x y p'
  /\ node_of s' (other (tn_who t)) = node_of s (other (tn_who t))
  /\ same_channels (node_of s (tn_who t)) (node_of s' (tn_who t))
  /\ (has (node_of s (tn_who t)) (idp y) -> k <> KCreate) /\ (k = KConfirm -> has (node_of s (tn_who t)) (idp y))
  /\ (k = KChannel -> ready (node_of s (tn_who t)) (idp y)).
Proof.
  intros s t x y p HW [HG Hrecv Hsent] Hx Hy (Hnow & Hm & Hr & Hlen & Hplain) s'. set (w := tn_who t) in *.
  assert (Hseq : forall pr, ss_seqno pr (p_send p) < 2 ^ 63) by (intros pr; specialize (Hsent pr); lia).
  assert (Hh : forall pr, h_seqno (rs_history pr (p_recv p)) < 2 ^ 63) by (intros pr; rewrite Hrecv; reflexivity).
  destruct (send_good P HP x y (node_of s w) p (tn_sent t) (tn_message t) (tn_priority t) (tn_rnd t) HW HG Hnow Hm Hr Hseq Hh)
    as (pr & d & k & p' & n' & E1 & E2 & E3 & E4 & E5 & E6 & E7 & E8 & E9 & E10).
  rewrite Hrecv in E7. change (h_seqno history_new) with 0 in E7. rewrite Hx, Hy in E1.
  assert (Hs' : s' = changed s w n' (tn_sent t) (tn_message t) (pr_seen s)).
  { unfold s', sent_in, says. fold w. now rewrite E1. }
  set (l := mk_letter w (tn_sent t) (tn_message t) (pa_addr y) d).
  assert (Hlet : pr_letters s' = pr_letters s ++ [l]).
  { rewrite Hs'. rewrite (letters_changed s w n' (tn_sent t) (tn_message t) _ [(pa_addr y, d)] E2). reflexivity. }
  assert (Hnw : node_of s' w = n') by (rewrite Hs'; apply node_changed_same).
  exists l, pr, k, p'. split.
  { unfold last_letter. rewrite Hlet, app_length. cbn [length]. rewrite nth_error_app2 by lia.
    replace (length (pr_letters s) + 1 - 1 - length (pr_letters s))%nat with 0%nat by lia. reflexivity. }
  split; [reflexivity|]. split; [reflexivity|]. split; [reflexivity|]. split.
  { assert (Hpl : List.Forall (plain P a b) (pr_letters s')) by exact Hplain. rewrite Hlet in Hpl. apply Forall_app in Hpl as [_ Hpl].
    now apply Forall_cons_iff in Hpl as [Hpl _]. }
  split; [rewrite Hlet, app_length; cbn [length]; lia|]. split; [exact E7|]. split.
  { split.
    - now rewrite Hnw.
    - intros q. rewrite E4. apply Hrecv.
    - intros q. rewrite E5, ss_set, Hlet, app_length. cbn [length]. pose proof (Hsent q) as H1. pose proof (Hsent pr) as H2.
      destruct (Bool.eqb q pr); lia. }
  split; [rewrite Hs'; apply node_changed_other|]. split; [now rewrite Hnw|]. split; [exact E8|]. split; assumption.
Qed.

(** What the arrival of the letter of a turn leaves. *)
Lemma taken_turn : forall s t l n', last_letter (sent_in P a b s t) = Some l -> lt_from l = tn_who t ->
  arrival P fuel (sent_in P a b s t) l (tn_received t) (tn_fresh t) (tn_rnds t) = (Ok tt, shown P a b l, n') ->
  n_out n' = n_out (node_of (sent_in P a b s t) (other (tn_who t))) ->
  let s1 := take_turn P fuel a b s t in
  node_of s1 (other (tn_who t)) = n' /\ node_of s1 (tn_who t) = node_of (sent_in P a b s t) (tn_who t)
  /\ pr_letters s1 = pr_letters (sent_in P a b s t).
Proof.
  intros s t l n' Hl Hf Har Hout s1. unfold s1, take_turn. rewrite Hl. unfold gets. rewrite Har, Hf. cbn [snd].
  split; [apply node_changed_same|]. split.
  - pose proof (node_changed_other (sent_in P a b s t) (other (tn_who t)) n' (tn_received t) MNop
      ((length (pr_letters (sent_in P a b s t)) - 1)%nat :: pr_seen (sent_in P a b s t))) as H. rewrite other_other in H. exact H.
  - rewrite (letters_changed _ _ n' _ _ _ []) by (now rewrite Hout, app_nil_r). apply app_nil_r.
Qed.

(** One whole turn, when both have the right keys. *)
Lemma whole_turn : forall s t x y p p', ways_ok x y -> ways_ok y x ->
  pa_opts x = pa_opts (par (tn_who t)) -> pa_opts y = pa_opts (par (other (tn_who t))) ->
  pa_start x = pa_start (par (tn_who t)) ->
  fine s (tn_who t) x y p -> fine s (other (tn_who t)) y x p' ->
  idp x = idw (tn_who t) -> idp y = idw (other (tn_who t)) -> o_history_enabled (pa_opts y) = false ->
  may_turn P a b s t -> has (node_of s (tn_who t)) (idp y) ->
  (ready (node_of s (tn_who t)) (idp y) -> has (node_of s (other (tn_who t))) (idp x)) ->
  let s1 := take_turn P fuel a b s t in
  gets_through P fuel a b s t /\ (exists p2, fine s1 (tn_who t) x y p2) /\ (exists p3, fine s1 (other (tn_who t)) y x p3)
  /\ (ready (node_of s (tn_who t)) (idp y) -> ready (node_of s1 (tn_who t)) (idp y))
  /\ ready (node_of s1 (other (tn_who t))) (idp x) /\ has (node_of s1 (tn_who t)) (idp y).
Proof.
  intros s t x y p p' HW HW' Ox Oy Sx Hf Hf' Hx Hy Hoff [Hsay Htime] Hhas Hrh s1.
  destruct (sent_turn s t x y p HW Hf Hx Hy Hsay) as (l & pr & k & p2 & L1 & L2 & L3 & L4 & L5 & L6 & L7 & L8 & L9 & L10 & L11 & L12 & L13).
  specialize (L11 Hhas). destruct (Htime l L1) as (T1 & T2 & T3). rewrite L2, L3 in *.
  destruct Hf' as [G' R' S']. destruct Hf as [G R S].
  pose proof Hsay as (_ & Hm & _ & Hlen & _).
  destruct (receive_good P HP fuel x y (node_of s (other (tn_who t))) p' (tn_sent t) (tn_message t) (lt_data l) pr
    (ss_seqno pr (p_send p) + 1) 0 k (tn_received t) (tn_fresh t) (tn_rnds t) [] HW' G' L7 Hm)
    as (n' & p3 & E1 & E2 & E3 & E4 & E5 & E6 & E7 & E8 & E9).
  { intros Hv. apply L5. now rewrite L2, <- Ox. }
  { intros Hk. apply Hrh, L13, Hk. }
  { rewrite R'. apply inv_new. }
  { specialize (S pr). lia. }
  { lia. }
  { rewrite Sx, Oy. exact T1. }
  { rewrite Ox. exact T2. }
  { rewrite Ox. exact T3. }
  unfold spec_receive in E1, E7, E8. rewrite Hoff in E1, E7, E8. cbn [fst] in E1, E7, E8.
  assert (Har : arrival P fuel (sent_in P a b s t) l (tn_received t) (tn_fresh t) (tn_rnds t) = (Ok tt, shown P a b l, n')).
  { unfold arrival, shown. rewrite L2, L4, L9, <- Hx, <- Hy. exact E1. }
  rewrite <- L9 in E4. destruct (taken_turn s t l n' L1 L2 Har E4) as (A1 & A2 & A3). fold s1 in A1, A2, A3.
  assert (Hco : chan_of (node_of s1 (tn_who t)) (idp y) = chan_of (node_of s (tn_who t)) (idp y)).
  { rewrite A2. destruct L10 as (C1 & C2 & C3). unfold chan_of. now rewrite C1, C3. }
  split; [exists l, n'; auto|]. split; [|split; [|split; [|split]]].
  - exists p2. destruct L8 as [G8 R8 S8]. split; [now rewrite A2|exact R8|]. intros q. rewrite A3. apply S8.
  - exists p3. destruct E3 as [N1 _ N3 _ N5]. split.
    + now rewrite A1.
    + intros q. destruct (Bool.bool_dec q pr) as [->|Hq]; [rewrite (N5 Hoff); apply R'|].
      assert (Hqn : q = negb pr) by (destruct pr, q; (reflexivity || congruence)). rewrite Hqn, N3. apply R'.
    + intros q. rewrite N1, A3, L6. specialize (S' q). lia.
  - unfold ready. now rewrite Hco.
  - rewrite A1. now apply E8.
  - unfold has. rewrite Hco. exact Hhas.
Qed.
End turns.
End facts.

Section recovery.
Variables (P : prims) (fuel : nat) (a b : party).
Variable HP : prims_ok P.
Variable Hab : parties_ok P a b.

Lemma rekeyed_id : forall x f, party_id P (rekeyed x f) = party_id P x.
Proof. reflexivity. Qed.

Theorem recovers_after : forall s w f t1 t2 t3, exchange P fuel a b s -> none_remembers a b ->
  new_key P a b s w f -> older P a b s w (tn_sent t1) -> may_talk P fuel a b s w f t1 t2 t3 ->
  recovers P fuel a b s w f t1 t2 t3.
Proof.
  intros s w f t1 t2 t3 Hs Hnone [Hkey Hold1] Hold2 (W1 & W2 & W3 & M1 & M2 & M3).
  destruct (exchange_inv P fuel a b HP Hab s Hs) as (pp & tags & HI).
  set (x := pick_who w a b) in *. set (y := pick_who (other w) a b) in *. set (x' := rekeyed x f) in *.
  assert (Hoff : forall v, o_history_enabled (pa_opts (pick_who v a b)) = false) by (destruct Hnone; now intros []).
  pose proof (parties_ways P HP _ _ Hkey) as HW. pose proof (parties_ways P HP _ _ (parties_sym P HP _ _ Hkey)) as HW'.
  pose proof (ways P a b HP Hab (other w)) as HWo. rewrite other_other in HWo. fold x y in HWo.
  pose proof (pi_good _ _ _ _ _ _ HI w) as Gw. pose proof (pi_good _ _ _ _ _ _ HI (other w)) as Gy. rewrite other_other in Gy.
  fold x y in Gw, Gy.
  assert (Hix : party_id P x = id_of_who P a b w) by reflexivity.
  assert (Hiy : party_id P y = id_of_who P a b (other w)) by reflexivity.
  destruct (reset_good P x y f (node_of s w) (pp w) Gw) as (n0 & R1 & R2 & R3 & R4). fold x' in R2.
  set (s0 := resets P a b s w f) in *.
  assert (Hs0 : s0 = changed s w n0 0 MNop (pr_seen s)).
  { unfold s0, resets. rewrite <- Hix, <- Hiy, R1. reflexivity. }
  assert (N0 : node_of s0 w = n0) by (rewrite Hs0; apply node_changed_same).
  assert (N0' : node_of s0 (other w) = node_of s (other w)) by (rewrite Hs0; apply node_changed_other).
  assert (L0 : pr_letters s0 = pr_letters s).
  { rewrite Hs0. rewrite (letters_changed s w n0 0 MNop _ []) by (now rewrite R4, app_nil_r). apply app_nil_r. }
  assert (F0 : fine P s0 w x' y (peer_reset (pp w) f)).
  { split; [now rewrite N0|now intros []|]. intros []; cbn; lia. }
  (* the first turn *)
  pose proof M1 as [M1s M1t]. rewrite <- W1 in F0.
  assert (Hx' : party_id P x' = id_of_who P a b (tn_who t1)) by (rewrite W1; reflexivity).
  assert (Hy1 : party_id P y = id_of_who P a b (other (tn_who t1))) by (rewrite W1; reflexivity).
  destruct (sent_turn P HP a b s0 t1 x' y _ HW F0 Hx' Hy1 M1s)
    as (l & pr & k & p2 & Q1 & Q2 & Q3 & Q4 & Q5 & Q6 & Q7 & Q8 & Q9 & Q10 & Q11 & Q12 & Q13).
  rewrite W1 in Q2, Q9, Q10, Q11, Q12, Q13, Q8. rewrite N0 in Q12, Q13.
  assert (Hk : k = KCreate).
  { destruct k; [reflexivity|destruct (R3 (Q12 eq_refl))|]. destruct (R3 (ready_has _ _ (Q13 eq_refl))). }
  subst k. destruct (M1t l Q1) as (T1 & T2 & T3). rewrite Q2, Q3 in *.
  assert (Hseq : pr = false) by (inversion Q7; reflexivity). subst pr.
  pose proof M1s as (_ & Hm1 & _).
  assert (Hold : forall c, chan_of (node_of s (other w)) (party_id P x) = Some c -> ch_peer_key c <> pub_of P f /\ ch_peer_date c < tn_sent t1).
  { intros c Hc. assert (Hc' : channel_of P a b s (other w) = Some c) by (unfold channel_of; rewrite other_other; exact Hc).
    split; [now apply Hold1|now apply Hold2]. }
  destruct (receive_replaces P fuel HP x y f (node_of s (other w)) (pp (other w)) (tn_sent t1) (tn_message t1) (lt_data l) false
    (ss_seqno false (p_send (peer_reset (pp w) f)) + 1) 0 (tn_received t1) (tn_fresh t1) (tn_rnds t1) HWo HW' Gy Q7 Hm1)
    as (n1 & p1 & A1 & A2 & A3 & A4 & A5 & A6 & A7).
  { intros Hv. apply Q5. now rewrite Q2. }
  { exact Hold. }
  { apply Hoff. }
  { intros q. apply (pi_off _ _ _ _ _ _ HI). apply Hoff. }
  { reflexivity. }
  { lia. }
  { exact T1. }
  { exact T2. }
  { exact T3. }
  assert (Har : arrival P fuel (sent_in P a b s0 t1) l (tn_received t1) (tn_fresh t1) (tn_rnds t1) = (Ok tt, shown P a b l, n1)).
  { unfold arrival, shown. rewrite Q2, Q4, Q9, N0', <- Hix, <- Hiy. exact A1. }
  assert (Hout : n_out n1 = n_out (node_of (sent_in P a b s0 t1) (other (tn_who t1)))) by (rewrite W1, Q9, N0'; exact A5).
  assert (Q2' : lt_from l = tn_who t1) by (rewrite W1; exact Q2).
  destruct (taken_turn P fuel a b s0 t1 l n1 Q1 Q2' Har Hout) as (B1 & B2 & B3). rewrite W1 in B1, B2.
  set (s1 := take_turn P fuel a b s0 t1) in *.
  assert (F1 : fine P s1 w x' y p2).
  { destruct Q8 as [X1 X2 X3]. split; [now rewrite B2|exact X2|]. intros q. rewrite B3. apply X3. }
  assert (F1' : fine P s1 (other w) y x' p1).
  { split; [now rewrite B1|exact A4|]. intros q. rewrite A3, B3, Q6, L0. pose proof (pi_count _ _ _ _ _ _ HI (other w) q). lia. }
  assert (Hw2 : other (other w) = w) by apply other_other.
  (* the second turn *)
  assert (Z1 : ~ ready (node_of s1 (other w)) (party_id P x)) by (now rewrite B1).
  destruct (whole_turn P fuel HP a b s1 t2 y x' p1 p2) as (D1 & (p4 & D2) & (p5 & D3) & D4 & D5 & D6);
    rewrite ?W2, ?Hw2; try assumption; try reflexivity.
  { apply (Hoff w). }
  { rewrite B1. exact A6. }
  { intros Hr. destruct (Z1 Hr). }
  rewrite W2 in D2, D3, D4, D5, D6. rewrite Hw2 in D3, D5. set (s2 := take_turn P fuel a b s1 t2) in *.
  (* the third turn *)
  destruct (whole_turn P fuel HP a b s2 t3 x' y p5 p4) as (I1 & (p6 & I2) & (p7 & I3) & I4 & I5 & _);
    rewrite ?W3; try assumption; try reflexivity.
  { apply (Hoff (other w)). }
  { now apply ready_has. }
  { intros _. exact D6. }
  rewrite W3 in I2, I3, I4, I5.
  assert (Gt1 : gets_through P fuel a b s0 t1) by (exists l, n1; auto).
  split; [exact Gt1|]. split; [exact D1|]. split; [exact I1|]. fold s1. fold s2. set (s3 := take_turn P fuel a b s2 t3) in *.
  assert (Ry : ready (node_of s3 (other w)) (party_id P x')) by exact I5.
  split.
  - intros v. destruct (who_cases v w) as [-> | ->]; unfold uses_channel, channel_of; rewrite ?Hw2.
    + exact (I4 D5).
    + exact Ry.
  - destruct Ry as (c & Hc & _). exists c. unfold channel_of. rewrite Hw2. split; [exact Hc|].
    destruct I3 as [G3 _ _]. unfold chan_of in Hc. destruct (n_by_peer (node_of s3 (other w)) !! party_id P x') as [h|] eqn:Eh; [|discriminate].
    destruct (ng_chan _ _ _ _ _ G3 h Eh) as (c' & Hc' & Hg & _). replace c' with c in * by congruence.
    exact (proj1 (proj2 (proj2 (proj2 (proj2 Hg))))).
Qed.
End recovery.

(** The sample. *)
Definition turn_b (P : prims) (a b : party) (s : pair) (t : turn) : bool :=
  (tn_sent t <? 2 ^ 32) && (length (r_bytes (tn_rnd t)) =? 10)%nat && (length (pr_letters s) <? 100)%nat
  && match last_letter (sent_in P a b s t) with
     | Some l => match lt_from l, tn_who t with Alice, Alice | Bob, Bob => true | _, _ => false end && (lt_time l =? tn_sent t)
     | None => false
     end
  && (pa_start (pick_who (tn_who t) a b) <=? tn_received t + o_clock_tolerance (pa_opts (pick_who (other (tn_who t)) a b)))
  && (tn_received t <=? tn_sent t + o_address_list_timeout (pa_opts (pick_who (tn_who t) a b)))
  && (tn_sent t + o_address_list_timeout (pa_opts (pick_who (tn_who t) a b)) <? 2 ^ 32).
Lemma turn_b_ok : forall P a b s t, o_version (pa_opts a) = Some 0 -> o_version (pa_opts b) = Some 0 -> small_payload (tn_message t) ->
  turn_b P a b s t = true -> may_turn P a b s t.
Proof.
  intros P a b s t Va Vb Hm H. unfold turn_b in H. rewrite !andb_true_iff in H. destruct H as ((((((H1 & H2) & H3) & H4) & H5) & H6) & H7).
  destruct (last_letter (sent_in P a b s t)) as [l|] eqn:El; [|discriminate]. apply andb_true_iff in H4 as [H4 H8].
  split.
  - split; [unfold u32_ok; lia|]. split; [exact Hm|]. split; [lia|]. split; [lia|].
    apply Forall_forall. intros l' _ Hv. exfalso. destruct (lt_from l'); cbn [pick_who] in Hv; congruence.
  - intros l' El'. rewrite El in El'. injection El' as <-. assert (Hf : lt_from l = tn_who t) by (destruct (lt_from l), (tn_who t); (reflexivity || discriminate)).
    unfold timely. rewrite Hf. apply N.eqb_eq in H8. rewrite H8. lia.
Qed.
Lemma reset_parties : forall r, parties_ok light (reset_alice r) (reset_bob r).
Proof.
  intros r. split; [|split; [|split]].
  - repeat split; try reflexivity. now right.
  - repeat split; try reflexivity. now right.
  - discriminate.
  - vm_compute. repeat (apply List.NoDup_cons; [cbn [In]; intuition discriminate|]). apply List.NoDup_nil.
Qed.
Lemma payload_one : forall k, k < 256 -> small_payload (MCustom [k]).
Proof. intros k Hk. split; [|cbn; lia]. cbn. unfold blob_ok. cbn. lia. Qed.
Lemma reset_sample : forall r, exchange light 0 (reset_alice r) (reset_bob r) (before_reset light r)
  /\ new_key light (reset_alice r) (reset_bob r) (before_reset light r) Bob reset_key
  /\ older light (reset_alice r) (reset_bob r) (before_reset light r) Bob 2000
  /\ may_talk light 0 (reset_alice r) (reset_bob r) (before_reset light r) Bob reset_key turn4 turn5 turn6.
Proof.
  intros r. set (s0 := pair_start light (reset_alice r) (reset_bob r)).
  set (s1 := take_turn light 0 (reset_alice r) (reset_bob r) s0 turn1).
  assert (M1 : may_turn light (reset_alice r) (reset_bob r) s0 turn1).
  { apply turn_b_ok; [reflexivity|reflexivity|now apply payload_one|]. destruct r; vm_compute; reflexivity. }
  assert (M2 : may_turn light (reset_alice r) (reset_bob r) s1 turn2).
  { apply turn_b_ok; [reflexivity|reflexivity|split; [split; reflexivity|cbn; lia]|]. destruct r; vm_compute; reflexivity. }
  destruct (turn_effect light 0 _ _ light_ok (reset_parties r) s0 turn1 (ex_start _ _ _ _) M1) as (X1 & _). fold s1 in X1.
  destruct (turn_effect light 0 _ _ light_ok (reset_parties r) s1 turn2 X1 M2) as (X2 & _).
  assert (Eb : before_reset light r = take_turn light 0 (reset_alice r) (reset_bob r) s1 turn2).
  { unfold s1, s0, before_reset. cbv zeta. reflexivity. }
  rewrite <- Eb in X2. clear Eb. split; [exact X2|].
  assert (Hc : exists k d, (k, d) <> (pub_of light reset_key, d) /\ d < 2000
    /\ forall c, channel_of light (reset_alice r) (reset_bob r) (before_reset light r) Alice = Some c -> ch_peer_key c = k /\ ch_peer_date c = d).
  { exists (pub_of light (sample_bytes 52)), 1000. split; [intros E; vm_compute in E; discriminate|]. split; [reflexivity|]. intros c Hc.
    assert (Hm : option_map (fun c => (ch_peer_key c, ch_peer_date c)) (channel_of light (reset_alice r) (reset_bob r) (before_reset light r) Alice)
      = Some (pub_of light (sample_bytes 52), 1000)) by (destruct r; vm_compute; reflexivity).
    rewrite Hc in Hm. cbn [option_map] in Hm. injection Hm as H1 H2. now split. }
  destruct Hc as (k & d & Hk & Hd & Hc). split; [split|split].
  - cbn [pick_who other]. split; [|split; [|split]].
    + repeat split; try reflexivity. now right.
    + repeat split; try reflexivity. now right.
    + discriminate.
    + vm_compute. repeat (apply List.NoDup_cons; [cbn [In]; intuition discriminate|]). apply List.NoDup_nil.
  - intros c Hcc E. cbn [other] in Hcc. destruct (Hc c Hcc) as [H1 H2]. congruence.
  - intros c Hcc. cbn [other] in Hcc. destruct (Hc c Hcc) as [H1 H2]. lia.
  - split; [reflexivity|]. split; [reflexivity|]. split; [reflexivity|]. split; [|split].
    + apply turn_b_ok; [reflexivity|reflexivity|now apply payload_one|]. destruct r; vm_compute; reflexivity.
    + apply turn_b_ok; [reflexivity|reflexivity|now apply payload_one|]. destruct r; vm_compute; reflexivity.
    + apply turn_b_ok; [reflexivity|reflexivity|now apply payload_one|]. destruct r; vm_compute; reflexivity.
Qed.

(** When Alice remembers packets, Bob's first message after the reset is taken for an old one. *)
Theorem silenced : ~ forall P fuel a b s w f t1 t2 t3, prims_ok P -> parties_ok P a b -> exchange P fuel a b s ->
  new_key P a b s w f -> older P a b s w (tn_sent t1) -> may_talk P fuel a b s w f t1 t2 t3 ->
  recovers P fuel a b s w f t1 t2 t3.
Proof.
  intros H. destruct (reset_sample true) as (X & K & O & M).
  destruct (H light 0%nat _ _ _ Bob reset_key turn4 turn5 turn6 light_ok (reset_parties true) X K O M) as ((l & n' & Hl & _ & _ & Ha) & _).
  assert (Hb : option_map (fun l => snd (fst (arrival light 0 (sent_in light (reset_alice true) (reset_bob true)
      (resets light (reset_alice true) (reset_bob true) (before_reset light true) Bob reset_key) turn4) l 2001 (tn_fresh turn4) (tn_rnds turn4))))
    (last_letter (sent_in light (reset_alice true) (reset_bob true)
      (resets light (reset_alice true) (reset_bob true) (before_reset light true) Bob reset_key) turn4)) = Some []) by (vm_compute; reflexivity).
  rewrite Hl in Hb. cbn [option_map] in Hb. change 2001 with (tn_received turn4) in Hb. rewrite Ha in Hb. cbn [fst snd] in Hb.
  assert (Hs : option_map (shown light (reset_alice true) (reset_bob true)) (last_letter (sent_in light (reset_alice true) (reset_bob true)
      (resets light (reset_alice true) (reset_bob true) (before_reset light true) Bob reset_key) turn4)) = Some []) by (rewrite Hl; cbn [option_map]; exact Hb).
  vm_compute in Hs. discriminate Hs.
Qed.

(** When Alice, who has not heard of the reset, speaks first, she confirms Bob's old key; Bob takes this for a
    confirmation of the new one and uses a channel that Alice does not have. *)
Lemma crossed_turns : let a := reset_alice false in let b := reset_bob false in
  may_turns light 0 a b (resets light a b (before_reset light false) Bob reset_key) [turn7; turn8; turn9; turn10].
Proof.
  cbv zeta. cbn [may_turns]. split; [|split; [|split; [|split; [|exact I]]]];
    (apply turn_b_ok; [reflexivity|reflexivity|now apply payload_one|vm_compute; reflexivity]).
Qed.
Theorem crossed : ~ forall P fuel a b s w f t1 t2 t3 t4, prims_ok P -> parties_ok P a b -> exchange P fuel a b s ->
  none_remembers a b -> new_key P a b s w f -> older P a b s w (tn_sent t1) -> heard_later P fuel a b s w f t1 t2 t3 t4.
Proof.
  intros H. destruct (reset_sample false) as (X & K & O & M).
  destruct (H light 0%nat _ _ _ Bob reset_key turn7 turn8 turn9 turn10 light_ok (reset_parties false) X (conj eq_refl eq_refl) K O eq_refl crossed_turns)
    as (l & n' & Hl & _ & _ & Ha).
  set (s3 := takes light 0 (reset_alice false) (reset_bob false)
      (resets light (reset_alice false) (reset_bob false) (before_reset light false) Bob reset_key) [turn7; turn8; turn9]) in *.
  assert (Hb : option_map (fun l => snd (fst (arrival light 0 (sent_in light (reset_alice false) (reset_bob false) s3 turn10)
      l 2031 (tn_fresh turn10) (tn_rnds turn10)))) (last_letter (sent_in light (reset_alice false) (reset_bob false) s3 turn10)) = Some [])
    by (vm_compute; reflexivity).
  rewrite Hl in Hb. cbn [option_map] in Hb. change 2031 with (tn_received turn10) in Hb. rewrite Ha in Hb. cbn [fst snd] in Hb.
  assert (Hs : option_map (shown light (reset_alice false) (reset_bob false)) (last_letter (sent_in light (reset_alice false) (reset_bob false) s3 turn10))
    = Some []) by (rewrite Hl; cbn [option_map]; exact Hb).
  vm_compute in Hs. discriminate Hs.
Qed.
