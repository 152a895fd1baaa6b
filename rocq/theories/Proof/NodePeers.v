(** The peer table (C20). *)
From stdpp Require Import gmap.
From Coq Require Import NArith Lia.
From Coq Require Import ZifyBool ZifyNat ZifyN.
From Verif.Base Require Import Bytes BytesFacts Res.
From Verif.Model Require Import Crypto Tl ProtoAdnl History Channel Handshake Peer Transfer AdnlNode.
From Verif.Spec Require Import NodeSpec.
From Verif.Proof Require Import PeerFacts NodeFacts NodeAuth NodeTables.
Open Scope N_scope.

(** C20 *)
Definition peer_admissible (n : node) (l i : bytes) (p : peer) : Prop :=
  i <> l /\ (exists a, addr_ok a /\ a <> n_addr n /\ p_addr p = pack_addr a
    /\ match n_filter n with Some f => exists ctx, f ctx a i = true | None => True end).
Definition peers_admissible (n : node) : Prop := forall l i p, get_peer n l i = Some p -> peer_admissible n l i p.

Lemma sockaddr_eqb_neq : forall a b, sockaddr_eqb a b = false -> a <> b.
Proof. intros a b H ->. unfold sockaddr_eqb in H. lia. Qed.

Lemma admissible_rel : forall (A : bytes -> bytes -> peer -> Prop) (R : peer -> peer -> Prop) a b,
  same_setup a b -> (forall l i p, A l i p -> peer_admissible a l i p) -> (forall p q, R p q -> p_addr q = p_addr p) ->
  peers_rel A R a b -> peers_admissible a -> peers_admissible b.
Proof.
  intros A R a b (S1 & _ & _ & S4 & _) HA HR [_ H] Ha l i p Hp. specialize (H l i). rewrite Hp in H.
  unfold peer_admissible. rewrite <- S1, <- S4.
  destruct (get_peer a l i) as [q|] eqn:E.
  - destruct (Ha l i q E) as (H1 & x & H2 & H3 & H4 & H5). split; [assumption|]. exists x.
    rewrite (HR _ _ H). auto.
  - apply (HA l i p H).
Qed.

Lemma admissible_same : forall a b, same_setup a b -> n_peers b = n_peers a -> peers_admissible a -> peers_admissible b.
Proof.
  intros a b Hs Hp. apply (admissible_rel none_new eq); [assumption|intros ? ? ? []|congruence|].
  apply peers_rel_eq; congruence.
Qed.

Lemma add_admissible : forall n ctx l i a k f, addr_ok a -> peers_admissible n -> peers_admissible (snd (add_peer n ctx l i a k f)).
Proof.
  intros n ctx l i a k f Ha Hn.
  destruct (add_peer_effect n ctx l i a k f) as (Hs & _ & _ & [->|(H1 & H2 & H3 & p' & Hg & Hput & Hp)]); [assumption|].
  intros l' i' p Hpp. destruct (decide ((l', i') = (l, i))) as [E|E].
  - injection E as -> ->. rewrite Hg in Hpp. injection Hpp as <-. destruct Hs as (S1 & _ & _ & S4 & _).
    unfold peer_admissible. rewrite <- S1, <- S4. split; [assumption|]. exists a. split; [assumption|].
    split; [now apply sockaddr_eqb_neq|]. split.
    + destruct (get_peer n l i); subst p'; reflexivity.
    + destruct (n_filter n); eauto.
  - rewrite Hput, get_put_other in Hpp by assumption. specialize (Hn _ _ _ Hpp).
    destruct Hs as (S1 & _ & _ & S4 & _). unfold peer_admissible. rewrite <- S1, <- S4. exact Hn.
Qed.

Lemma quiet_admissible : forall a b, quiet a b -> peers_admissible a -> peers_admissible b.
Proof.
  intros a b []. apply (admissible_rel none_new kept); [assumption|intros ? ? ? []| |assumption].
  intros p q (_ & H & _). exact H.
Qed.

Lemma receive_admissible : forall P fuel n now data f rs, peers_admissible n ->
  peers_admissible (snd (handle_received_data P fuel n now data f rs)).
Proof.
  intros P fuel n now data f rs Hn. pose proof (open_datagram_effect P n data) as (Hs & Hp & _). unfold handle_received_data.
  assert (H1 : peers_admissible (snd (open_datagram P n data))) by (eapply admissible_same; eauto).
  destruct (open_datagram P n data) as [[[o|]|e] n1]; cbn [snd] in *; try exact H1.
  destruct (match od_version o with Some _ => _ | None => false end); [exact H1|].
  destruct (parse_packet (od_contents o)) as [packet|]; [|exact H1].
  pose proof (check_packet_effect P n1 now (od_contents o) packet (od_local o) (od_channel_peer o) (od_priority o) f rs) as Hq.
  assert (H2 : peers_admissible (snd (packet_source P n1 now (od_contents o) packet (od_local o) (od_channel_peer o) f))).
  { destruct (packet_source_effect P n1 now (od_contents o) packet (od_local o) (od_channel_peer o) f) as [->|(k & a & -> & A1 & A2)];
      [assumption|]. apply add_admissible; [now split|assumption]. }
  pose proof (quiet_admissible _ _ Hq H2) as H3.
  destruct (check_packet P n1 now _ packet _ _ _ f rs) as [[[i|]|e] n2]; cbn [snd] in *; try exact H3.
  pose proof (process_messages_effect P fuel (ip_messages packet) n2 (od_local o) i) as [S3 P3].
  eapply admissible_same; eauto.
Qed.

Lemma put_admissible : forall n l i p p', get_peer n l i = Some p -> p_addr p' = p_addr p ->
  peers_admissible n -> peers_admissible (put_peer n l i p').
Proof.
  intros n l i p p' H1 H2. apply (admissible_rel none_new (fun p q => p_addr q = p_addr p)).
  - apply put_peer_setup.
  - intros ? ? ? [].
  - auto.
  - eapply put_peer_rel; eauto.
Qed.

Lemma remove_get : forall n l i l' i' r n', remove_peer n l i = (Ok r, n') ->
  get_peer n' l' i' = if decide ((l', i') = (l, i)) then None else get_peer n l' i'.
Proof.
  intros n l i l' i' r n' H. unfold remove_peer in H. destruct (n_peers n !! l) as [ps|] eqn:E; [|discriminate].
  injection H as _ <-. unfold get_peer, set_peers. cbn [n_peers].
  destruct (decide (l' = l)) as [->|Hl].
  - rewrite lookup_insert. destruct (decide ((l, i') = (l, i))) as [Ei|Ei].
    + injection Ei as ->. apply lookup_delete.
    + rewrite lookup_delete_ne by congruence. now rewrite E.
  - rewrite lookup_insert_ne by congruence. destruct (decide ((l', i') = (l, i))) as [Ei|Ei]; [congruence|].
    reflexivity.
Qed.

Lemma drop_admissible : forall n i, peers_admissible n -> peers_admissible (drop_channel n i).
Proof. intros n i. destruct (drop_channel_effect n i) as (H1 & H2 & _). now apply admissible_same. Qed.

Lemma step_admissible : forall P fuel n o, op_addr_ok o -> peers_admissible n -> peers_admissible (step P fuel n o).
Proof.
  intros P fuel n o Ho Hn. destruct o; cbn [step].
  - now apply add_admissible.
  - destruct (remove_peer n local_id peer_id) as [[r|e] n'] eqn:E.
    + intros l i p Hp. cbn [snd] in Hp. rewrite (remove_get _ _ _ _ _ _ _ E) in Hp.
      destruct (decide _); [discriminate|]. specialize (Hn _ _ _ Hp).
      unfold remove_peer in E. destruct (n_peers n !! local_id); [|discriminate]. injection E as _ <-.
      destruct (drop_channel_effect n peer_id) as ((S1 & _ & _ & S4 & _) & _).
      unfold peer_admissible, set_peers in *. cbn [snd n_addr n_filter]. now rewrite <- S1, <- S4.
    + unfold remove_peer in E. destruct (n_peers n !! local_id); [discriminate|]. injection E as _ <-. exact Hn.
  - eapply quiet_admissible; [apply quiet_send|assumption].
  - now apply receive_admissible.
  - destruct sent_over as [h|]; cbn [query_timed_out]; [|exact Hn].
    destruct (n_heap n !! h) as [c|]; [|exact Hn].
    destruct (update_drop_timeout _ _ _) as [b t]. set (n' := set_channels _ _ _ _).
    assert (H' : peers_admissible n') by exact Hn.
    destruct b; [|exact H']. clearbody n'. unfold reset_peer.
    destruct (n_peers n' !! local_id) as [ps|] eqn:El; [|exact H'].
    destruct (ps !! peer_id) as [p|] eqn:Ep; [|exact H']. cbn [snd].
    eapply (put_admissible _ _ _ p); [|reflexivity|now apply drop_admissible].
    unfold get_peer. destruct (drop_channel_effect n' peer_id) as (_ & -> & _). now rewrite El.
  - exact Hn.
Qed.

Lemma peers_always_admissible : forall P fuel addr start opts filter keys ops l i p,
  let n := run P fuel (node_new addr start opts filter keys) ops in
  Forall op_addr_ok ops -> get_peer n l i = Some p ->
  i <> l /\ peer_addr p <> addr /\ match filter with Some f => exists ctx, f ctx (peer_addr p) i = true | None => True end.
Proof.
  intros P fuel addr start opts filter keys ops l i p n Hops Hp.
  assert (H : peers_admissible n /\ n_addr n = addr /\ n_filter n = filter).
  { clear Hp. revert n. induction ops as [|o ops IH] using rev_ind; intros n.
    - split; [|auto]. intros l' i' p' H'. unfold n, run, get_peer, node_new in H'. cbn [fold_left n_peers] in H'.
      rewrite lookup_fmap in H'. destruct (keys !! l'); cbn in H'; [|discriminate].
      rewrite lookup_empty in H'. discriminate.
    - apply Forall_app in Hops as [Hops Ho]. specialize (IH Hops). destruct IH as (I1 & I2 & I3).
      unfold n, run in *. rewrite fold_left_app. cbn [fold_left]. split.
      + apply step_admissible; [now apply Forall_inv in Ho|assumption].
      + assert (S : same_setup (fold_left (step P fuel) ops (node_new addr start opts filter keys))
          (step P fuel (fold_left (step P fuel) ops (node_new addr start opts filter keys)) o)).
        { generalize (fold_left (step P fuel) ops (node_new addr start opts filter keys)) as m. intros m. destruct o; cbn [step].
          - apply add_peer_effect.
          - unfold remove_peer. destruct (n_peers m !! local_id); [|auto with node]. cbn [snd].
            eapply same_setup_trans; [apply drop_channel_effect|]. unfold same_setup. auto.
          - apply quiet_send.
          - pose proof (open_datagram_effect P m data) as (Hs & _). unfold handle_received_data.
            destruct (open_datagram P m data) as [[[od|]|e] n1]; cbn [snd] in *; try exact Hs.
            destruct (match od_version od with Some _ => _ | None => false end); [exact Hs|].
            destruct (parse_packet (od_contents od)) as [packet|]; [|exact Hs].
            pose proof (check_packet_effect P n1 now (od_contents od) packet (od_local od) (od_channel_peer od) (od_priority od) fresh rs) as Hq.
            pose proof (packet_source_frame P n1 now (od_contents od) packet (od_local od) (od_channel_peer od) fresh) as [Hf _].
            assert (H3 : same_setup m (snd (check_packet P n1 now (od_contents od) packet (od_local od) (od_channel_peer od) (od_priority od) fresh rs))).
            { eapply same_setup_trans; [exact Hs|]. eapply same_setup_trans; [exact Hf|apply Hq]. }
            destruct (check_packet P n1 now _ packet _ _ _ fresh rs) as [[[j|]|e] n2]; cbn [snd] in *; try exact H3.
            eapply same_setup_trans; [exact H3|]. apply process_messages_effect.
          - destruct sent_over as [h|]; cbn [query_timed_out]; [|auto with node].
            destruct (n_heap m !! h) as [c|]; [|auto with node].
            destruct (update_drop_timeout _ _ _) as [b t]. set (n' := set_channels _ _ _ _).
            assert (H' : same_setup m n') by (unfold same_setup; auto).
            destruct b; [|exact H']. eapply same_setup_trans; [exact H'|]. unfold reset_peer.
            destruct (n_peers n' !! local_id) as [ps|]; [|auto with node].
            destruct (ps !! peer_id); [|auto with node]. cbn [snd].
            eapply same_setup_trans; [apply drop_channel_effect|apply put_peer_setup].
          - unfold same_setup. auto. }
        destruct S as (S1 & _ & _ & S4 & _). split; congruence. }
  destruct H as (H & Ha & Hf). destruct (H _ _ _ Hp) as (H1 & a & H2 & H3 & H4 & H5).
  rewrite Ha, Hf in *. unfold peer_addr. rewrite H4, unpack_pack by assumption. auto.
Qed.

(** What [add_peer] does. *)
Lemma add_peer_exact : forall n ctx l i a k f,
  let allowed := match n_filter n with Some g => g ctx a i | None => true end in
  match fst (add_peer n ctx l i a k f) with
  | Err e => e = PeersNotFound /\ snd (add_peer n ctx l i a k f) = n /\ n_peers n !! l = None
  | Ok false => snd (add_peer n ctx l i a k f) = n /\ (i = l \/ a = n_addr n \/ allowed = false)
  | Ok true => i <> l /\ a <> n_addr n /\ allowed = true
      /\ exists p, get_peer (snd (add_peer n ctx l i a k f)) l i = Some p
         /\ p_addr p = pack_addr a
         /\ match get_peer n l i with
            | Some old => p_key p = p_key old /\ p_channel_secret p = p_channel_secret old
                /\ p_recv p = p_recv old /\ p_send p = p_send old
            | None => p_key p = k /\ p_channel_secret p = f
            end
  end /\ forall l' i', (l', i') <> (l, i) -> get_peer (snd (add_peer n ctx l i a k f)) l' i' = get_peer n l' i'.
Proof.
  intros n ctx l i a k f allowed. unfold add_peer.
  assert (Haeq : sockaddr_eqb a (n_addr n) = true <-> a = n_addr n).
  { destruct a as [x y], (n_addr n) as [z w]. unfold sockaddr_eqb. cbn. split.
    - intros H. f_equal; lia.
    - intros H. injection H as -> ->. lia. }
  destruct (bytes_eqb i l || sockaddr_eqb a (n_addr n)) eqn:E.
  { cbn [fst snd]. split; [|auto]. split; [reflexivity|]. apply orb_true_iff in E as [E|E].
    - left. now apply bytes_eqb_eq.
    - right. left. now apply Haeq. }
  apply orb_false_iff in E as [E1 E2]. apply bytes_eqb_neq in E1.
  destruct (match n_filter n with Some g => negb (g ctx a i) | None => false end) eqn:Ef.
  { cbn [fst snd]. split; [|auto]. split; [reflexivity|]. right. right. unfold allowed.
    destruct (n_filter n); [|discriminate]. now apply negb_true_iff. }
  assert (Hall : allowed = true).
  { unfold allowed. destruct (n_filter n); [|reflexivity]. now apply negb_false_iff. }
  assert (Ha : a <> n_addr n) by (intros H; apply Haeq in H; congruence).
  unfold get_peer at 2. destruct (n_peers n !! l) as [ps|] eqn:El; [|cbn [fst snd]; auto].
  destruct (ps !! i) as [p|] eqn:Ep; cbn [fst snd].
  - split; [|intros; now apply get_put_other]. split; [assumption|]. split; [assumption|]. split; [assumption|].
    exists (set_addr p a). split; [apply get_put_same; rewrite El; eexists; reflexivity|]. cbn. auto.
  - split; [|intros; now apply get_put_other]. split; [assumption|]. split; [assumption|]. split; [assumption|].
    eexists. split; [apply get_put_same; rewrite El; eexists; reflexivity|]. cbn. auto.
Qed.

Lemma remove_forgets : forall n l i r n', tables_consistent n -> remove_peer n l i = (Ok r, n') ->
  (r = true <-> is_Some (get_peer n l i)) /\ get_peer n' l i = None /\ get_peer_address n' l i = None
  /\ (forall l' i', (l', i') <> (l, i) -> get_peer n' l' i' = get_peer n l' i')
  /\ n_by_peer n' !! i = None
  /\ (forall id pr h c, n_by_id n' !! id = Some (pr, h) -> n_heap n' !! h = Some c -> ch_peer c <> i).
Proof.
  intros n l i r n' Hc H.
  assert (Hg := fun l' i' => remove_get n l i l' i' r n' H).
  assert (Hself : get_peer n' l i = None) by (rewrite Hg; destruct (decide _); congruence).
  split; [|split; [|split; [|split; [|split]]]].
  - unfold remove_peer in H. unfold get_peer. destruct (n_peers n !! l) as [ps|]; [|discriminate].
    injection H as <- _. destruct (ps !! i); split; intros; try discriminate; eauto. destruct H. discriminate.
  - exact Hself.
  - unfold get_peer_address. now rewrite Hself.
  - intros l' i' Hne. rewrite Hg. now destruct (decide _).
  - unfold remove_peer in H. destruct (n_peers n !! l); [|discriminate]. injection H as _ <-. cbn [n_by_peer set_peers].
    unfold drop_channel. destruct (n_by_peer n !! i) as [h|] eqn:E; [|exact E].
    destruct Hc as [_ T2]. destruct (T2 _ _ E) as (c & C1 & _). rewrite C1. cbn. apply lookup_delete.
  - unfold remove_peer in H. destruct (n_peers n !! l); [|discriminate]. injection H as _ <-. cbn [n_by_id n_heap set_peers].
    destruct Hc as [T1 T2]. intros id pr h c Hid Hh Hpeer.
    unfold drop_channel in *.
    assert (Hboth : exists c0, n_by_peer n !! i = Some h /\ n_heap n !! h = Some c0 /\ c0 = c
       /\ n_by_id n !! id = Some (pr, h)).
    { destruct (n_by_peer n !! i) as [h0|] eqn:E.
      - destruct (T2 _ _ E) as (c0 & C1 & C2 & C3). rewrite C1 in *. cbn in Hid, Hh.
        apply lookup_delete_Some in Hid as [N1 Hid]. apply lookup_delete_Some in Hid as [N2 Hid].
        destruct (T1 _ _ _ Hid) as (peer & x & [X1 X2] & X3). destruct (T2 _ _ X1) as (y & Y1 & Y2 & _).
        assert (y = c) by congruence. subst y. assert (peer = i) by congruence. subst peer.
        exists c. split; [congruence|]. split; [congruence|]. split; [reflexivity|]. exact Hid.
      - destruct (T1 _ _ _ Hid) as (peer & x & [X1 X2] & X3). destruct (T2 _ _ X1) as (y & Y1 & Y2 & _).
        assert (y = c) by congruence. subst y. exfalso. congruence. }
    destruct Hboth as (c0 & B1 & B2 & -> & B3). rewrite B1, B2 in Hid. cbn in Hid.
    apply lookup_delete_Some in Hid as [N1 Hid]. apply lookup_delete_Some in Hid as [N2 Hid].
    destruct (T1 _ _ _ Hid) as (peer & x & [X1 X2] & X3). assert (x = c) by congruence. subst x.
    destruct pr; congruence.
Qed.
