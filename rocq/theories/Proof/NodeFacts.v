(** Which parts of the state the operations of the node touch. *)
From stdpp Require Import gmap.
From Coq Require Import NArith Lia.
From Coq Require Import ZifyBool ZifyNat ZifyN.
From Verif.Base Require Import Bytes BytesFacts Res.
From Verif.Model Require Import Crypto Tl ProtoAdnl History Channel Handshake Peer Transfer AdnlNode.
From Verif.Spec Require Import NodeSpec.
Open Scope N_scope.

Lemma same_setup_refl : forall n, same_setup n n.
Proof. intros. unfold same_setup. tauto. Qed.
Lemma same_setup_trans : forall a b c, same_setup a b -> same_setup b c -> same_setup a c.
Proof. unfold same_setup. intros a b c (->&->&->&->&->). tauto. Qed.
Lemma same_channels_refl : forall n, same_channels n n.
Proof. intros. unfold same_channels. tauto. Qed.
Lemma same_channels_trans : forall a b c, same_channels a b -> same_channels b c -> same_channels a c.
Proof. unfold same_channels. intros a b c (->&->&->). tauto. Qed.
#[export] Hint Resolve same_setup_refl same_channels_refl : node.

(** Relations between the peer tables of two states: [R] relates the entries of a peer known in
    both, [A] holds of new entries; nothing disappears. *)
Definition peers_rel (A : bytes -> bytes -> peer -> Prop) (R : peer -> peer -> Prop) (a b : node) : Prop :=
  (forall l, is_Some (n_peers a !! l) <-> is_Some (n_peers b !! l)) /\
  forall l i, match get_peer a l i, get_peer b l i with
              | Some p, Some p' => R p p'
              | None, Some p' => A l i p'
              | Some _, None => False
              | None, None => True
              end.

Lemma peers_rel_eq : forall A (R : peer -> peer -> Prop) a b, (forall p, R p p) -> n_peers a = n_peers b -> peers_rel A R a b.
Proof.
  intros A R a b HR H. split; [intros; now rewrite H|]. intros l i. unfold get_peer. rewrite H.
  destruct (n_peers b !! l) as [ps|]; [|exact I]. destruct (ps !! i); auto.
Qed.

Lemma peers_rel_trans : forall (A : bytes -> bytes -> peer -> Prop) (R : peer -> peer -> Prop) a b c,
  (forall p q r, R p q -> R q r -> R p r) -> (forall l i p q, A l i p -> R p q -> A l i q) ->
  peers_rel A R a b -> peers_rel A R b c -> peers_rel A R a c.
Proof.
  intros A R a b c HR HA [H1 H2] [H3 H4]. split; [intros l; rewrite H1; apply H3|].
  intros l i. specialize (H2 l i). specialize (H4 l i).
  destruct (get_peer a l i), (get_peer b l i), (get_peer c l i); try tauto; eauto.
Qed.

Lemma get_put_same : forall n l i p, is_Some (n_peers n !! l) -> get_peer (put_peer n l i p) l i = Some p.
Proof.
  intros n l i p [ps H]. unfold get_peer, put_peer. rewrite H. cbn [set_peers n_peers].
  rewrite lookup_insert. apply lookup_insert.
Qed.
Lemma get_put_other : forall n l i p l' i', (l', i') <> (l, i) -> get_peer (put_peer n l i p) l' i' = get_peer n l' i'.
Proof.
  intros n l i p l' i' H. unfold get_peer, put_peer. destruct (n_peers n !! l) as [ps|] eqn:E; [|reflexivity].
  cbn [set_peers n_peers]. destruct (decide (l = l')) as [<-|Hl].
  - rewrite lookup_insert, E. apply lookup_insert_ne. congruence.
  - now rewrite lookup_insert_ne by assumption.
Qed.
Lemma put_peer_tables : forall n l i p l', is_Some (n_peers n !! l') <-> is_Some (n_peers (put_peer n l i p) !! l').
Proof.
  intros n l i p l'. unfold put_peer. destruct (n_peers n !! l) as [ps|] eqn:E; [|reflexivity].
  cbn [set_peers n_peers]. destruct (decide (l = l')) as [<-|Hl].
  - rewrite lookup_insert, E. split; intros _; eexists; reflexivity.
  - now rewrite lookup_insert_ne by assumption.
Qed.

Lemma put_peer_setup : forall n l i p, same_setup n (put_peer n l i p).
Proof. intros. unfold put_peer. destruct (n_peers n !! l); unfold same_setup; cbn; tauto. Qed.
Lemma put_peer_channels : forall n l i p, same_channels n (put_peer n l i p).
Proof. intros. unfold put_peer. destruct (n_peers n !! l); unfold same_channels; cbn; tauto. Qed.
Lemma put_peer_transfers : forall n l i p, n_transfers (put_peer n l i p) = n_transfers n.
Proof. intros. unfold put_peer. destruct (n_peers n !! l); reflexivity. Qed.

Lemma put_peer_rel : forall A (R : peer -> peer -> Prop) n l i p p', (forall p, R p p) ->
  get_peer n l i = Some p -> R p p' -> peers_rel A R n (put_peer n l i p').
Proof.
  intros A R n l i p p' Hrefl Hp HR. split; [intros; apply put_peer_tables|]. intros l' i'.
  destruct (decide ((l', i') = (l, i))) as [E|E].
  - injection E as -> ->. rewrite Hp, get_put_same; [assumption|].
    unfold get_peer in Hp. destruct (n_peers n !! l); [eexists; reflexivity|discriminate].
  - rewrite get_put_other by assumption. destruct (get_peer n l' i'); auto.
Qed.

(** Sending only moves the packet numbers of one peer. *)
Definition sent (p p' : peer) : Prop :=
  p_key p' = p_key p /\ p_addr p' = p_addr p /\ p_channel_secret p' = p_channel_secret p
  /\ p_recv p' = p_recv p /\ ss_reinit (p_send p') = ss_reinit (p_send p).
Lemma sent_refl : forall p, sent p p.
Proof. unfold sent. tauto. Qed.
Lemma sent_trans : forall p q r, sent p q -> sent q r -> sent p r.
Proof. unfold sent. intros p q r (?&?&?&?&?) (?&?&?&?&?). repeat split; congruence. Qed.

Lemma send_packet_sent : forall P n now i p s m r, sent p (fst (send_packet P n now i p s m r)).
Proof.
  intros. unfold send_packet. cbv zeta.
  destruct (if o_loopback (n_opts n) && _ && _ then _ else _) as [la dest].
  unfold sent. cbn [fst p_key p_addr p_channel_secret p_recv p_send]. repeat split.
  unfold set_ss_seqno. destruct (match _ with SChannel _ pr => pr | SRandom _ => false end); reflexivity.
Qed.

Definition none_new (l i : bytes) (p : peer) : Prop := False.

Lemma send_packets_effect : forall P now l i s ms rs k n p, get_peer n l i = Some p ->
  let n' := send_packets P n now l i p s ms rs k in
  same_setup n n' /\ same_channels n n' /\ n_transfers n' = n_transfers n /\ peers_rel none_new sent n n'.
Proof.
  intros P now l i s ms rs. induction ms as [|m ms IH]; intros k n p Hp; cbn [send_packets].
  - split; [apply same_setup_refl|split; [apply same_channels_refl|split; [reflexivity|]]].
    apply peers_rel_eq; [apply sent_refl|reflexivity].
  - pose proof (send_packet_sent P n now i p s m (rs k)) as Hs.
    destruct (send_packet P n now i p s m (rs k)) as [p' d]. cbn [fst] in Hs.
    set (n1 := push_out (put_peer n l i p') d).
    assert (Hn1 : get_peer n1 l i = Some p').
    { unfold n1. change (get_peer (put_peer n l i p') l i = Some p'). apply get_put_same.
      unfold get_peer in Hp. destruct (n_peers n !! l); [eexists; reflexivity|discriminate]. }
    destruct (IH (S k) n1 p' Hn1) as (E1 & E2 & E3 & E4).
    split; [|split; [|split]].
    + eapply same_setup_trans; [|exact E1]. change (same_setup n (put_peer n l i p')). apply put_peer_setup.
    + eapply same_channels_trans; [|exact E2]. change (same_channels n (put_peer n l i p')). apply put_peer_channels.
    + rewrite E3. apply put_peer_transfers.
    + eapply peers_rel_trans; [apply sent_trans|intros ? ? ? ? []| |exact E4].
      change (peers_rel none_new sent n (put_peer n l i p')). eapply put_peer_rel; [apply sent_refl|exact Hp|exact Hs].
Qed.

Lemma send_message_effect : forall P n now l i m priority rs,
  let n' := snd (send_message P n now l i m priority rs) in
  same_setup n n' /\ same_channels n n' /\ n_transfers n' = n_transfers n /\ peers_rel none_new sent n n'.
Proof.
  intros P n now l i m priority rs.
  assert (Hid : same_setup n n /\ same_channels n n /\ n_transfers n = n_transfers n /\ peers_rel none_new sent n n).
  { split; [apply same_setup_refl|split; [apply same_channels_refl|split; [reflexivity|]]].
    apply peers_rel_eq; [apply sent_refl|reflexivity]. }
  unfold send_message. destruct (n_peers n !! l) as [ps|] eqn:El; [|exact Hid].
  destruct (ps !! i) as [p|] eqn:Ei; [|exact Hid].
  destruct (n_keys n !! l) as [secret|]; [|exact Hid]. cbv zeta.
  destruct (message_size m) as [size|]; [|exact Hid].
  destruct (plan P _ m size) as [ms|]; [|exact Hid]. cbn [snd].
  apply send_packets_effect. unfold get_peer. now rewrite El.
Qed.

(** Channels change neither the peers nor the transfers. *)
Lemma create_channel_effect : forall P n l i k d c,
  let n' := snd (create_channel P n l i k d c) in
  same_setup n n' /\ n_peers n' = n_peers n /\ n_transfers n' = n_transfers n.
Proof.
  intros. unfold create_channel in *. destruct (n_peers n !! l) as [ps|] eqn:E; [|subst n'; repeat split].
  destruct (ps !! i) as [p|]; [|subst n'; repeat split]. cbv zeta in n'.
  destruct (match n_by_peer n !! i with Some _ => _ | None => None end) as [[oh ch]|]; [|subst n'; repeat split].
  destruct (is_still_valid ch k d); [destruct c|]; subst n'; repeat split.
Qed.

Lemma drop_channel_effect : forall n i,
  same_setup n (drop_channel n i) /\ n_peers (drop_channel n i) = n_peers n
  /\ n_transfers (drop_channel n i) = n_transfers n /\ n_heap (drop_channel n i) = n_heap n.
Proof.
  intros. unfold drop_channel. destruct (n_by_peer n !! i) as [h|]; [|repeat split].
  destruct (n_heap n !! h); repeat split.
Qed.

Lemma process_message_effect : forall P fuel n l i m,
  let n' := snd (process_message P fuel n l i m) in
  same_setup n n' /\ n_peers n' = n_peers n.
Proof.
  assert (Hw : forall P n l i m, let n' := snd (process_whole P n l i m) in same_setup n n' /\ n_peers n' = n_peers n).
  { intros P n l i m. destruct m; cbn [process_whole]; try (repeat split; fail); destruct (valid_pub P _); try (repeat split; fail).
    - destruct (create_channel_effect P n l i key date CtxConfirm) as (H1 & H2 & _).
      destruct (create_channel P n l i key date CtxConfirm) as [[|] ?]; cbn [snd] in *; auto.
    - destruct (create_channel_effect P n l i key date CtxCreate) as (H1 & H2 & _).
      destruct (create_channel P n l i key date CtxCreate) as [[|] ?]; cbn [snd] in *; auto. }
  intros P fuel n l i m. destruct m; cbn [process_message]; try apply Hw.
  destruct (process_part P fuel (n_transfers n) hash total_size offset data) as [o ts].
  destruct o; try (repeat split; fail). destruct (deserialize get_message message); [|repeat split; fail].
  destruct (Hw P (set_transfers n ts) l i m) as [H1 H2]. split; [|exact H2].
  eapply same_setup_trans; [|exact H1]. repeat split.
Qed.

Lemma process_messages_effect : forall P fuel ms n l i,
  let n' := snd (process_messages P fuel n l i ms) in
  same_setup n n' /\ n_peers n' = n_peers n.
Proof.
  induction ms as [|m ms IH]; intros n l i; cbn [process_messages]; [repeat split|].
  pose proof (process_message_effect P fuel n l i m) as [H1 H2].
  destruct (process_message P fuel n l i m) as [[ds|e] n1]; cbn [snd] in *; [|auto].
  specialize (IH n1 l i). destruct (process_messages P fuel n1 l i ms) as [[o ds'] n2]. cbn [snd] in *.
  destruct IH as [H3 H4]. split; [eapply same_setup_trans; eassumption|congruence].
Qed.

(** Adding a peer. *)
Lemma add_peer_effect : forall n ctx l i a k f,
  let n' := snd (add_peer n ctx l i a k f) in
  same_setup n n' /\ same_channels n n' /\ n_transfers n' = n_transfers n
  /\ (n' = n \/ (i <> l /\ sockaddr_eqb a (n_addr n) = false
       /\ match n_filter n with Some g => g ctx a i = true | None => True end
       /\ exists p', get_peer n' l i = Some p' /\ n' = put_peer n l i p'
       /\ match get_peer n l i with
          | Some p => p' = set_addr p a
          | None => p' = peer_new (n_start n) a k f
          end)).
Proof.
  intros n ctx l i a k f. unfold add_peer.
  destruct (bytes_eqb i l || sockaddr_eqb a (n_addr n)) eqn:E1; [cbn [snd]; repeat split; now left|].
  apply orb_false_elim in E1 as [E1 E2].
  destruct (match n_filter n with Some _ => _ | None => _ end) eqn:E3; [cbn [snd]; repeat split; now left|].
  destruct (n_peers n !! l) as [ps|] eqn:El; [|cbn [snd]; repeat split; now left].
  assert (Hil : i <> l) by (intros ->; rewrite bytes_eqb_refl in E1; discriminate).
  assert (Hf : match n_filter n with Some g => g ctx a i = true | None => True end).
  { destruct (n_filter n) as [g|]; [|exact I]. now destruct (g ctx a i). }
  assert (Hgo : forall p', match get_peer n l i with
          | Some p => p' = set_addr p a | None => p' = peer_new (n_start n) a k f end ->
    let n' := put_peer n l i p' in
    same_setup n n' /\ same_channels n n' /\ n_transfers n' = n_transfers n
    /\ (n' = n \/ (i <> l /\ sockaddr_eqb a (n_addr n) = false
       /\ match n_filter n with Some g => g ctx a i = true | None => True end
       /\ exists p', get_peer n' l i = Some p' /\ n' = put_peer n l i p'
       /\ match get_peer n l i with
          | Some p => p' = set_addr p a
          | None => p' = peer_new (n_start n) a k f
          end))).
  { intros p' Hp'. split; [apply put_peer_setup|]. split; [apply put_peer_channels|].
    split; [apply put_peer_transfers|]. right. repeat split; try assumption.
    exists p'. repeat split; [|assumption]. apply get_put_same. rewrite El. eexists; reflexivity. }
  destruct (ps !! i) as [p|] eqn:Ei; apply Hgo; unfold get_peer; now rewrite El, Ei.
Qed.

(** The source of a packet: at most one peer is added or gets a new address. *)
Lemma packet_source_effect : forall P n now raw packet l cp f,
  let n' := snd (packet_source P n now raw packet l cp f) in
  n' = n \/ exists key a, n' = snd (add_peer n CtxAdnlPacket l (short_id P key) a key f)
    /\ sa_ip a < 2 ^ 32 /\ sa_port a < 2 ^ 16.
Proof.
  intros P n now raw packet l cp f. unfold packet_source.
  destruct cp as [i|]. { destruct (ip_from packet), (ip_from_short packet); now left. }
  destruct (ip_from packet) as [k|]; [|destruct (ip_from_short packet); now left].
  destruct (full_id P k) as [key|e]; [|now left]. cbv zeta.
  destruct (match ip_from_short packet with Some i => negb _ | None => false end); [now left|].
  destruct (verify_packet _ _ _ _ _); [now left|].
  destruct (ip_address packet) as [al|]; [|now left].
  destruct (parse_address_list al now _) as [a|e] eqn:Ea; [|now left].
  assert (Hs : snd (match add_peer n CtxAdnlPacket l (short_id P key) a key f with
            | (Ok _, n') => (Ok (short_id P key, false), n')
            | (Err e, n') => (Err e, n') end : res node_error (bytes * bool) * node)
    = snd (add_peer n CtxAdnlPacket l (short_id P key) a key f)).
  { destruct (add_peer n CtxAdnlPacket l (short_id P key) a key f) as [[|] ?]; reflexivity. }
  right. exists key, a. split; [exact Hs|].
  unfold parse_address_list in Ea. destruct (al_address al) as [ad|]; [|discriminate].
  destruct (_ <? _); [discriminate|]. destruct (negb _ && _); [discriminate|]. injection Ea as <-.
  cbn [sockaddr_of sa_ip sa_port]. split; apply N.mod_lt; discriminate.
Qed.

(** Processing a packet keeps the keys, the channel key and the address of the peers, and their
    reinit dates do not decrease. *)
Definition kept (p p' : peer) : Prop :=
  p_key p' = p_key p /\ p_addr p' = p_addr p /\ p_channel_secret p' = p_channel_secret p
  /\ ss_reinit (p_send p) <= ss_reinit (p_send p').
Lemma kept_refl : forall p, kept p p.
Proof. unfold kept. intros. repeat split; lia. Qed.
Lemma kept_trans : forall p q r, kept p q -> kept q r -> kept p r.
Proof. unfold kept. intros p q r (?&?&?&?) (?&?&?&?). repeat split; try congruence. lia. Qed.
Lemma sent_kept : forall p q, sent p q -> kept p q.
Proof. unfold sent, kept. intros p q (?&?&?&?&?). repeat split; try assumption. lia. Qed.

Lemma peers_rel_weaken : forall (A A' : bytes -> bytes -> peer -> Prop) (R R' : peer -> peer -> Prop) a b,
  (forall l i p, A l i p -> A' l i p) -> (forall p q, R p q -> R' p q) -> peers_rel A R a b -> peers_rel A' R' a b.
Proof.
  intros A A' R R' a b HA HR [H1 H2]. split; [assumption|]. intros l i. specialize (H2 l i).
  destruct (get_peer a l i), (get_peer b l i); auto.
Qed.

Lemma try_reinit_kept : forall p d p', try_reinit_sender p d = (true, p') ->
  kept p p' /\ ss_reinit (p_send p') = d.
Proof.
  intros p d p' H. unfold try_reinit_sender in H. destruct (N.compare_spec d (ss_reinit (p_send p))) as [E|E|E].
  - injection H as <-. split; [apply kept_refl|]. now symmetry.
  - discriminate.
  - destruct (negb _); injection H as <-; unfold kept; cbn; repeat split; lia.
Qed.

Record quiet (a b : node) : Prop := mk_quiet
  { q_setup : same_setup a b; q_channels : same_channels a b; q_transfers : n_transfers b = n_transfers a;
    q_peers : peers_rel none_new kept a b }.
Lemma quiet_refl : forall n, quiet n n.
Proof. intros. split; auto with node. apply peers_rel_eq; [apply kept_refl|reflexivity]. Qed.
Lemma quiet_trans : forall a b c, quiet a b -> quiet b c -> quiet a c.
Proof.
  intros a b c [] []. split; [eapply same_setup_trans; eassumption|eapply same_channels_trans; eassumption|congruence|].
  eapply peers_rel_trans; [apply kept_trans|intros ? ? ? ? []|eassumption..].
Qed.
Lemma quiet_put : forall n l i p p', get_peer n l i = Some p -> kept p p' -> quiet n (put_peer n l i p').
Proof.
  intros. split; [apply put_peer_setup|apply put_peer_channels|apply put_peer_transfers|].
  eapply put_peer_rel; [apply kept_refl|eassumption..].
Qed.
Lemma quiet_send : forall P n now l i m priority rs, quiet n (snd (send_message P n now l i m priority rs)).
Proof.
  intros. destruct (send_message_effect P n now l i m priority rs) as (H1 & H2 & H3 & H4).
  split; try assumption. eapply peers_rel_weaken; [|apply sent_kept|exact H4]. auto.
Qed.

Lemma check_reinit_effect : forall P n now l i p dates rs, get_peer n l i = Some p ->
  quiet n (snd (check_reinit P n now l i p dates rs))
  /\ forall p' n', check_reinit P n now l i p dates rs = (Ok p', n') ->
     kept p p' /\ get_peer n' l i = Some p'
     /\ match dates with
        | None => p' = p
        | Some d => try_reinit_sender p (rd_local d) = (true, p') /\ rd_target d <= n_start n
            /\ rd_local d <= now + o_clock_tolerance (n_opts n)
            /\ (rd_target d = 0 \/ rd_target d = n_start n)
        end.
Proof.
  intros P n now l i p dates rs Hp. unfold check_reinit. destruct dates as [d|].
  2:{ split; [apply quiet_refl|]. intros p' n' H. injection H as <- <-. repeat split; try apply kept_refl; assumption. }
  destruct (N.ltb_spec (n_start n) (rd_target d)); [split; [apply quiet_refl|discriminate]|].
  destruct (N.ltb_spec (now + o_clock_tolerance (n_opts n)) (rd_local d)); [split; [apply quiet_refl|discriminate]|].
  destruct (try_reinit_sender p (rd_local d)) as [[|] p1] eqn:E; [|split; [apply quiet_refl|discriminate]].
  pose proof (try_reinit_kept _ _ _ E) as [Hk _].
  assert (Hq : quiet n (put_peer n l i p1)) by (eapply quiet_put; eassumption).
  cbv zeta. destruct (negb (rd_target d =? 0) && (rd_target d <? n_start n)) eqn:Et.
  - pose proof (quiet_send P (put_peer n l i p1) now l i MNop false rs) as Hs.
    destruct (send_message P (put_peer n l i p1) now l i MNop false rs) as [[|] n2]; cbn [snd] in *;
      (split; [eapply quiet_trans; eassumption|discriminate]).
  - split; [exact Hq|]. intros p' n' H1. injection H1 as <- <-. split; [assumption|]. split.
    { apply get_put_same. unfold get_peer in Hp. destruct (n_peers n !! l); [eexists; reflexivity|discriminate]. }
    repeat split; try lia.
Qed.

Lemma check_packet_effect : forall P n now raw packet l cp pr f rs,
  quiet (snd (packet_source P n now raw packet l cp f)) (snd (check_packet P n now raw packet l cp pr f rs)).
Proof.
  intros. unfold check_packet.
  destruct (packet_source P n now raw packet l cp f) as [[[i chk]|e] n1]; cbn [snd]; [|apply quiet_refl].
  destruct (n_peers n1 !! l) as [ps|] eqn:El; [|apply quiet_refl].
  destruct (match cp with Some _ => _ | None => false end); [apply quiet_refl|].
  destruct (ps !! i) as [p|] eqn:Ei; [|apply quiet_refl].
  destruct (if chk then _ else None); [apply quiet_refl|].
  assert (Hp : get_peer n1 l i = Some p) by (unfold get_peer; now rewrite El).
  destruct (check_reinit_effect P n1 now l i p (ip_reinit_dates packet) rs Hp) as [Hq Hc].
  destruct (check_reinit P n1 now l i p (ip_reinit_dates packet) rs) as [[p2|e] n2]; cbn [snd] in *; [|exact Hq].
  destruct (Hc p2 n2 eq_refl) as (Hk & Hg & _). cbv zeta.
  match goal with |- context [put_peer n2 l i ?x] => set (p3 := x) end.
  assert (H3 : quiet n1 (put_peer n2 l i p3)).
  { eapply quiet_trans; [exact Hq|]. eapply quiet_put; [exact Hg|]. unfold p3, kept. cbn. repeat split. lia. }
  destruct (fst _); [|exact H3|exact Hq].
  destruct (ip_confirm_seqno packet); [|exact H3]. destruct (_ <? _); exact H3.
Qed.

Lemma open_datagram_effect : forall P n data,
  let n' := snd (open_datagram P n data) in
  same_setup n n' /\ n_peers n' = n_peers n /\ n_transfers n' = n_transfers n
  /\ n_by_id n' = n_by_id n /\ n_by_peer n' = n_by_peer n
  /\ (n' = n \/ exists pr h c, n_by_id n !! firstn 32 data = Some (pr, h) /\ n_heap n !! h = Some c
        /\ n_heap n' = <[h := mk_channel true (ch_out c) (ch_in c) (ch_local c) (ch_peer c) (ch_peer_key c)
                              (ch_peer_date c) 0]> (n_heap n)).
Proof.
  intros P n data. unfold open_datagram.
  destruct (parse_handshake _ _ _) as [[[[i v] ct]|]|e]; try (cbn [snd]; repeat split; now left).
  destruct (n_by_id n !! firstn 32 data) as [[pr h]|] eqn:E; [|cbn [snd]; repeat split; now left].
  destruct (n_heap n !! h) as [c|] eqn:Eh; [|cbn [snd]; repeat split; now left].
  destruct (channel_decrypt _ _ _ _) as [[v ct]|e]; [|cbn [snd]; repeat split; now left].
  cbv zeta. cbn [snd]. repeat split. right. exists pr, h, c. repeat split; assumption.
Qed.
