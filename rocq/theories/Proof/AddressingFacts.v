(** C90: where packets go. *)
From stdpp Require Import gmap.
From Coq Require Import NArith Lia.
From Coq Require Import ZifyBool ZifyNat ZifyN.
From Verif.Base Require Import Bytes BytesFacts Res.
From Verif.Model Require Import Crypto Tl ProtoAdnl History Channel Handshake Peer Transfer AdnlNode.
From Verif.Spec Require Import NodeSpec AddressingSpec.
From Verif.Proof Require Import PeerFacts PeerAddressesFacts NodeFacts NodeAuth.
Open Scope N_scope.

Lemma is_loopback_net : forall a, is_loopback a = true <-> loopback_net a.
Proof.
  intros a. unfold is_loopback, loopback_net. rewrite N.eqb_eq. change (2 ^ 24) with 16777216.
  split; intros H.
  - pose proof (N.div_mod (sa_ip a) 16777216 ltac:(lia)). pose proof (N.mod_lt (sa_ip a) 16777216 ltac:(lia)). lia.
  - symmetry. apply (N.div_unique _ _ _ (sa_ip a - 16777216 * 127)); lia.
Qed.

Lemma addressed_model : forall n known,
  let ends := if o_loopback (n_opts n) && (sa_ip (n_addr n) =? sa_ip known) && negb (is_loopback known)
    then (mk_sockaddr LOCALHOST (sa_port (n_addr n)), mk_sockaddr LOCALHOST (sa_port known))
    else (n_addr n, known) in
  addressed n known (snd ends) (fst ends).
Proof.
  intros n known. cbv zeta. unfold addressed, neighbour.
  pose proof (is_loopback_net known) as Hl.
  destruct (o_loopback (n_opts n)); cbn [andb].
  2:{ split; [intros [H _]; discriminate|]. intros _. split; reflexivity. }
  destruct (sa_ip (n_addr n) =? sa_ip known) eqn:E; cbn [andb].
  2:{ split; [intros (_ & H & _); lia|]. intros _. split; reflexivity. }
  destruct (is_loopback known); cbn [negb fst snd].
  - split; [intros (_ & _ & H); destruct H; now apply Hl|]. intros _. split; reflexivity.
  - split; [intros _; split; reflexivity|]. intros H. destruct H. split; [reflexivity|]. split; [lia|].
    intros H. apply Hl in H. discriminate.
Qed.

(** One packet. *)
Lemma send_packet_route : forall P n now i p s m r,
  let '(p', (dest, d)) := send_packet P n now i p s m r in
  exists rt packet own, d = on_route P n i (p_key p) rt packet
  /\ addressed n (peer_addr p) dest own /\ introduces n now own packet
  /\ op_messages packet = m
  /\ match s with
     | SRandom k => rt = Direct (r_temp r)
     | SChannel c asked => rt = Over c (asked && negb ((h_seqno (rs_history true (p_recv p)) =? 0) && (10 <? ss_seqno true (p_send p))))
     end
  /\ let kind := match route_kind rt with Some pr => pr | None => false end in
     op_seqno packet = (ss_seqno kind (p_send p) + 1) mod 2 ^ 64
  /\ op_confirm_seqno packet = h_seqno (rs_history kind (p_recv p))
  /\ p' = mk_peer (p_key p) (p_addr p) (p_channel_secret p) (p_recv p) (set_ss_seqno kind (op_seqno packet) (p_send p)).
Proof.
  intros P n now i p s m r. unfold send_packet. cbv zeta.
  pose proof (addressed_model n (peer_addr p)) as Ha. cbv zeta in Ha.
  destruct (if o_loopback (n_opts n) && _ && _ then _ else _) as [own dest]. cbn [fst snd] in Ha.
  destruct s as [c asked|k].
  - set (alt := asked && negb ((h_seqno (rs_history true (p_recv p)) =? 0) && (10 <? ss_seqno true (p_send p)))).
    assert (E : (if (h_seqno (rs_history asked (p_recv p)) =? 0) && (10 <? ss_seqno true (p_send p))
                 then SChannel c false else SChannel c asked) = SChannel c alt).
    { unfold alt. destruct asked; cbn [andb].
      - now destruct (h_seqno (rs_history true (p_recv p)) =? 0), (10 <? ss_seqno true (p_send p)).
      - now destruct (h_seqno (rs_history false (p_recv p)) =? 0), (10 <? ss_seqno true (p_send p)). }
    rewrite E. eexists (Over c alt), _, own. split; [cbn [on_route]; reflexivity|]. split; [exact Ha|].
    split; [unfold introduces; cbn [op_address]; reflexivity|].
    repeat split.
  - eexists (Direct (r_temp r)), _, own. split; [cbn [on_route]; reflexivity|]. split; [exact Ha|].
    split; [unfold introduces; cbn [op_address]; reflexivity|].
    repeat split.
Qed.

Lemma introduces_setup : forall n n1 now own packet, same_setup n n1 -> introduces n1 now own packet -> introduces n now own packet.
Proof. intros n n1 now own packet (E1 & E2 & E3 & _) H. unfold introduces in *. now rewrite E2, E3. Qed.
Lemma addressed_setup : forall n n1 known dest own, same_setup n n1 -> addressed n1 known dest own -> addressed n known dest own.
Proof. intros n n1 known dest own (E1 & E2 & E3 & _) H. unfold addressed, neighbour in *. now rewrite E1, E3. Qed.

Definition routes_of (s : signer) (answered : bool) (ordinary urgent : N) (sent : list (route * out_packet)) : Prop :=
  match s with
  | SRandom _ => Forall (fun x => route_kind (fst x) = None) sent
                 /\ map (fun x => op_seqno (snd x)) sent = map (fun k => ordinary + 1 + N.of_nat k) (seq 0 (length sent))
  | SChannel c asked =>
    Forall (fun x => exists pr, fst x = Over c pr) sent
    /\ map (fun x => (match route_kind (fst x) with Some pr => pr | None => false end, op_seqno (snd x))) sent
       = numbered asked answered ordinary urgent (length sent)
  end.

Lemma send_packets_routes : forall P now l i s ms rs k n p, get_peer n l i = Some p ->
  ss_seqno false (p_send p) + N.of_nat (length ms) < 2 ^ 64 ->
  ss_seqno true (p_send p) + N.of_nat (length ms) < 2 ^ 64 ->
  exists sent dest own, addressed n (peer_addr p) dest own
  /\ n_out (send_packets P n now l i p s ms rs k)
     = n_out n ++ map (fun x => (dest, on_route P n i (p_key p) (fst x) (snd x))) sent
  /\ map (fun x => op_messages (snd x)) sent = ms
  /\ Forall (fun x => introduces n now own (snd x)) sent
  /\ routes_of s (negb (h_seqno (rs_history true (p_recv p)) =? 0)) (ss_seqno false (p_send p)) (ss_seqno true (p_send p)) sent.
Proof.
  intros P now l i s ms rs. induction ms as [|m ms IH]; intros k n p Hp Ho Hu; cbn [send_packets].
  - exists [], (snd (if o_loopback (n_opts n) && (sa_ip (n_addr n) =? sa_ip (peer_addr p)) && negb (is_loopback (peer_addr p))
    then (mk_sockaddr LOCALHOST (sa_port (n_addr n)), mk_sockaddr LOCALHOST (sa_port (peer_addr p)))
    else (n_addr n, peer_addr p))). eexists. split; [apply addressed_model|].
    split; [now rewrite app_nil_r|]. split; [reflexivity|]. split; [constructor|].
    destruct s; cbn [routes_of map length numbered]; (split; [constructor|reflexivity]).
  - pose proof (send_packet_route P n now i p s m (rs k)) as Hr.
    destruct (send_packet P n now i p s m (rs k)) as [p' [dest d]].
    destruct Hr as (rt & packet & own & Hd & Ha & Hi & Hm & Hs & Hseq & _ & Hp').
    set (n1 := push_out (put_peer n l i p') (dest, d)).
    assert (Hn1 : get_peer n1 l i = Some p').
    { unfold n1. change (get_peer (put_peer n l i p') l i = Some p'). apply get_put_same.
      unfold get_peer in Hp. destruct (n_peers n !! l); [eexists; reflexivity|discriminate]. }
    assert (Hset : same_setup n n1) by (change (same_setup n (put_peer n l i p')); apply put_peer_setup).
    assert (Hout : n_out n1 = n_out n ++ [(dest, d)]).
    { unfold n1. cbn [push_out n_out]. f_equal. unfold put_peer. now destruct (n_peers n !! l). }
    set (kind := match route_kind rt with Some pr => pr | None => false end) in *.
    assert (Hlen : N.of_nat (length (m :: ms)) = 1 + N.of_nat (length ms)) by (cbn [length]; lia).
    rewrite Hlen in Ho, Hu.
    assert (Hseq' : op_seqno packet = ss_seqno kind (p_send p) + 1).
    { rewrite Hseq. apply N.mod_small. destruct kind; lia. }
    rewrite Hseq' in Hp'.
    assert (Ef : ss_seqno false (p_send p') = if kind then ss_seqno false (p_send p) else ss_seqno false (p_send p) + 1).
    { rewrite Hp'. cbn [p_send]. now destruct kind, (p_send p). }
    assert (Et : ss_seqno true (p_send p') = if kind then ss_seqno true (p_send p) + 1 else ss_seqno true (p_send p)).
    { rewrite Hp'. cbn [p_send]. now destruct kind, (p_send p). }
    destruct (IH (S k) n1 p' Hn1) as (sent & dest' & own' & Ha' & Hout' & Hms & Hin & Hrt).
    { rewrite Ef. destruct kind; lia. }
    { rewrite Et. destruct kind; lia. }
    assert (Haddr : peer_addr p' = peer_addr p) by now rewrite Hp'.
    rewrite Haddr in Ha'. apply (addressed_setup n n1 _ _ _ Hset) in Ha'.
    assert (E : dest' = dest /\ own' = own).
    { assert (Hdec : neighbour n (peer_addr p) \/ ~ neighbour n (peer_addr p)).
      { unfold neighbour, loopback_net. destruct (o_loopback (n_opts n)); [|right; intros [? _]; discriminate].
        destruct (N.eq_dec (sa_ip (n_addr n)) (sa_ip (peer_addr p))); [|right; tauto].
        destruct (N.leb_spec 0x7f000000 (sa_ip (peer_addr p))); [|left; lia].
        destruct (N.leb_spec (sa_ip (peer_addr p)) 0x7fffffff); [right; lia|left; lia]. }
      destruct Ha as [A1 A2], Ha' as [B1 B2]. destruct Hdec as [Hd'|Hd'].
      - destruct (A1 Hd'), (B1 Hd'). split; congruence.
      - destruct (A2 Hd'), (B2 Hd'). split; congruence. }
    destruct E as [-> ->].
    exists ((rt, packet) :: sent), dest, own. split; [exact Ha|]. split.
    { rewrite Hout', Hout, <- app_assoc. cbn [map fst snd app]. f_equal. f_equal; [now rewrite Hd|].
      apply map_ext. intros [x y]. cbn [fst snd]. rewrite Hp'. cbn [p_key].
      unfold on_route. destruct Hset as (_ & _ & -> & _). reflexivity. }
    split; [cbn [map snd]; now rewrite Hm, Hms|]. split.
    { constructor; [exact Hi|]. eapply List.Forall_impl; [|exact Hin]. intros x Hx. eapply introduces_setup; eassumption. }
    assert (Hrecv : p_recv p' = p_recv p) by now rewrite Hp'.
    rewrite Hrecv, Ef, Et in Hrt.
    destruct s as [c asked|sk]; cbn [routes_of] in *.
    + destruct Hrt as [Hf Hmap]. subst rt. cbn [route_kind] in kind. split.
      { constructor; [cbn [fst]; eauto|exact Hf]. }
      cbn [map length numbered fst snd route_kind].
      assert (Ek : kind = asked && (negb (h_seqno (rs_history true (p_recv p)) =? 0) || (ss_seqno true (p_send p) <=? 10))).
      { unfold kind. rewrite Bool.negb_andb. f_equal. f_equal. lia. }
      fold kind. rewrite <- Ek. rewrite Hseq', Hmap. now destruct kind.
    + destruct Hrt as [Hf Hmap]. subst rt. cbn [route_kind] in kind. subst kind. split.
      { constructor; [reflexivity|exact Hf]. }
      cbn [map length seq]. f_equal; [cbn [snd]; rewrite Hseq'; lia|].
      rewrite Hmap. rewrite <- seq_shift, map_map. apply map_ext. intros j. lia.
Qed.

Lemma send_packets_length : forall P now l i s ms rs k n p,
  length (n_out (send_packets P n now l i p s ms rs k)) = (length (n_out n) + length ms)%nat.
Proof.
  intros P now l i s ms rs. induction ms as [|m ms IH]; intros k n p; cbn [send_packets length]; [lia|].
  destruct (send_packet P n now i p s m (rs k)) as [p' d]. rewrite IH. cbn [push_out n_out]. rewrite app_length.
  cbn [length]. unfold put_peer. destruct (n_peers n !! l); cbn [set_peers n_out]; lia.
Qed.

Lemma plan_some : forall P extra m size ms, plan P extra m size = Some ms -> ms <> [] \/ exists d, put_message m = d /\ d = [].
Proof.
  intros P extra m size ms H. unfold plan in H. destruct (_ <=? _); [injection H as <-; left; discriminate|].
  destruct extra as [[es e]|].
  - destruct (build_part _ _ _ 0) as [first off]. destruct (rest_parts _ _ _ _ _); [|discriminate]. injection H as <-. left. discriminate.
  - destruct (rest_parts _ _ _ _ _) as [x|] eqn:E; [|discriminate]. injection H as <-.
    destruct (put_message m) as [|b t]; [right; eauto|]. left. intros Hx.
    apply map_eq_nil in Hx. subst x. cbn [rest_parts] in E.
    destruct (0 <? _) eqn:E0; [|cbn [length] in E0; unfold len in E0; cbn [length] in E0; lia].
    destruct (build_part _ _ _ _) as [q o]. destruct (rest_parts _ _ _ _ _); discriminate.
Qed.

(** C90: the packets of a message. *)
Lemma messages_routed : forall P n now l i m priority rs n' p,
  send_message P n now l i m priority rs = (Ok tt, n') -> get_peer n l i = Some p ->
  let room := 2 ^ 64 - N.of_nat (length (n_out n') - length (n_out n)) in
  ss_seqno false (p_send p) < room -> ss_seqno true (p_send p) < room ->
  exists packets dest own, packets <> [] /\ addressed n (peer_addr p) dest own
  /\ n_out n' = n_out n ++ map (fun x => (dest, on_route P n i (p_key p) (fst x) (snd x))) packets
  /\ Forall (fun x => introduces n now own (snd x)) packets
  /\ (forall h c, current n i h c -> ch_ready c = true ->
      Forall (fun x => exists pr, fst x = Over c pr) packets
      /\ map (fun x => (match route_kind (fst x) with Some pr => pr | None => false end, op_seqno (snd x))) packets
         = numbered priority (negb (h_seqno (rs_history true (p_recv p)) =? 0)) (ss_seqno false (p_send p))
             (ss_seqno true (p_send p)) (length packets))
  /\ ((forall h c, current n i h c -> ch_ready c = false) ->
      Forall (fun x => route_kind (fst x) = None) packets
      /\ map (fun x => op_seqno (snd x)) packets
         = map (fun k => ss_seqno false (p_send p) + 1 + N.of_nat k) (seq 0 (length packets))).
Proof.
  intros P n now l i m priority rs n' p H Hp room Ho Hu. unfold send_message in H.
  unfold get_peer in Hp. destruct (n_peers n !! l) as [ps|] eqn:El; [|discriminate].
  rewrite Hp in H. destruct (n_keys n !! l) as [secret|]; [|discriminate]. cbv zeta in H.
  destruct (message_size m) as [size|] eqn:Es; [|discriminate].
  destruct (plan P _ m size) as [ms|] eqn:Epl; [|discriminate]. apply (f_equal snd) in H. cbn [snd] in H.
  set (s := match (match n_by_peer n !! i with Some h => n_heap n !! h | None => None end) with
            | Some c => if ch_ready c then SChannel c priority else SRandom secret
            | None => SRandom secret end) in *.
  assert (Hg : get_peer n l i = Some p) by (unfold get_peer; now rewrite El).
  pose proof (send_packets_length P now l i s ms rs 0 n p) as Hlen. rewrite H in Hlen.
  assert (Hroom : room = 2 ^ 64 - N.of_nat (length ms)) by (unfold room; f_equal; lia).
  rewrite Hroom in Ho, Hu. clear room Hroom.
  destruct (send_packets_routes P now l i s ms rs 0 n p Hg ltac:(lia) ltac:(lia)) as (sent & dest & own & Ha & Hout & Hms & Hin & Hrt).
  rewrite H in Hout. exists sent, dest, own. split.
  { intros ->. cbn [map] in Hms. apply plan_some in Epl. destruct Epl as [Hne|(d & E1 & E2)]; [congruence|].
    subst d. destruct m; cbn [put_message] in E2; discriminate E2. }
  split; [exact Ha|]. split; [exact Hout|]. split; [exact Hin|]. split.
  - intros h c [E1 E2] Hr. unfold s in Hrt. rewrite E1, E2, Hr in Hrt. exact Hrt.
  - intros Hno. unfold s in Hrt.
    destruct (n_by_peer n !! i) as [h|] eqn:E1; [|exact Hrt]. destruct (n_heap n !! h) as [c|] eqn:E2; [|exact Hrt].
    rewrite (Hno h c (conj E1 E2)) in Hrt. exact Hrt.
Qed.

(** C90: what is learned from a packet. *)
Lemma kept_address : forall A a b l i p, peers_rel A kept a b -> get_peer a l i = Some p -> get_peer_address b l i = get_peer_address a l i.
Proof.
  intros A a b l i p [_ H] Hp. specialize (H l i). unfold get_peer_address. rewrite Hp in *.
  destruct (get_peer b l i) as [q|]; [|contradiction]. destruct H as (_ & H & _). cbn. unfold peer_addr. now rewrite H.
Qed.
Lemma quiet_address : forall a b l i, quiet a b -> get_peer_address b l i = get_peer_address a l i.
Proof.
  intros a b l i [_ _ _ [Hs H]]. specialize (H l i). unfold get_peer_address.
  destruct (get_peer a l i) as [p|], (get_peer b l i) as [q|]; try contradiction; [|reflexivity].
  destruct H as (_ & H & _). cbn. unfold peer_addr. now rewrite H.
Qed.
Lemma peers_address : forall a b l i, n_peers b = n_peers a -> get_peer_address b l i = get_peer_address a l i.
Proof. intros a b l i H. unfold get_peer_address, get_peer. now rewrite H. Qed.
Lemma open_peers : forall P n data, n_peers (snd (open_datagram P n data)) = n_peers n
  /\ same_setup n (snd (open_datagram P n data)).
Proof.
  intros P n data. unfold open_datagram. destruct (parse_handshake _ _ _) as [[[[a b] c]|]|]; [split; [reflexivity|apply same_setup_refl]| |split; [reflexivity|apply same_setup_refl]].
  destruct (n_by_id n !! _) as [[pr h]|]; [|split; [reflexivity|apply same_setup_refl]].
  destruct (n_heap n !! h) as [c|]; [|split; [reflexivity|apply same_setup_refl]].
  destruct (channel_decrypt P c data pr) as [[v ct]|]; (split; [reflexivity|]); [repeat split|apply same_setup_refl].
Qed.

Lemma add_peer_address : forall n ctx l i a k f l' i', addr_ok a ->
  get_peer_address (snd (add_peer n ctx l i a k f)) l' i' = get_peer_address n l' i'
  \/ (l', i') = (l, i) /\ get_peer_address (snd (add_peer n ctx l i a k f)) l i = Some a.
Proof.
  intros n ctx l i a k f l' i' [H1 H2].
  destruct (add_peer_effect n ctx l i a k f) as (_ & _ & _ & [->|(_ & _ & _ & p' & Hg & Hn & Hp')]); [now left|].
  destruct (decide ((l', i') = (l, i))) as [E|E].
  - right. split; [exact E|]. unfold get_peer_address. rewrite Hg. cbn. f_equal.
    assert (Hpk : p_addr p' = pack_addr a) by (destruct (get_peer n l i); now rewrite Hp').
    unfold peer_addr. rewrite Hpk. apply unpack_pack. now split.
  - left. rewrite Hn. unfold get_peer_address. now rewrite get_put_other.
Qed.

Lemma source_address : forall P n now raw packet local cp f l i,
  get_peer_address (snd (packet_source P n now raw packet local cp f)) l i <> get_peer_address n l i ->
  cp = None /\ l = local /\ exists key al w, ip_from packet = Some (PkEd25519 key) /\ i = id_of_key P key
  /\ (o_signature_required (n_opts n) = true -> signed_by P raw packet key)
  /\ ip_address packet = Some al /\ al_address al = Some w
  /\ get_peer_address (snd (packet_source P n now raw packet local cp f)) l i = Some (sockaddr_of w).
Proof.
  intros P n now raw packet local cp f l i. unfold packet_source.
  destruct cp as [c|]. { destruct (ip_from packet), (ip_from_short packet); now intros []. }
  destruct (ip_from packet) as [k|]; [|destruct (ip_from_short packet); now intros []].
  destruct (full_id P k) as [key|e] eqn:Ek; [|now intros []]. cbv zeta.
  destruct k; cbn [full_id] in Ek; try discriminate.
  destruct (valid_pub P key0); [|discriminate]. injection Ek as <-.
  destruct (match ip_from_short packet with Some i => negb _ | None => false end); [now intros []|].
  destruct (verify_packet _ _ _ _ _) eqn:Evf; [now intros []|].
  destruct (ip_address packet) as [al|]; [|now intros []].
  destruct (parse_address_list al now _) as [a|e] eqn:Ea; [|now intros []].
  unfold parse_address_list in Ea. destruct (al_address al) as [ad|] eqn:Ead; [|discriminate].
  destruct (_ <? _); [discriminate|]. destruct (negb _ && _); [discriminate|]. injection Ea as <-.
  assert (Hs : snd (match add_peer n CtxAdnlPacket local (short_id P key0) (sockaddr_of ad) key0 f with
            | (Ok _, n') => (Ok (short_id P key0, false), n')
            | (Err e, n') => (Err e, n') end : res node_error (bytes * bool) * node)
    = snd (add_peer n CtxAdnlPacket local (short_id P key0) (sockaddr_of ad) key0 f)).
  { destruct (add_peer n CtxAdnlPacket local (short_id P key0) (sockaddr_of ad) key0 f) as [[|] ?]; reflexivity. }
  rewrite Hs. intros Hne.
  destruct (add_peer_address n CtxAdnlPacket local (short_id P key0) (sockaddr_of ad) key0 f l i) as [E|[E1 E2]].
  { split; cbn [sockaddr_of sa_ip sa_port]; apply N.mod_lt; discriminate. }
  { contradiction. }
  injection E1 as -> ->. split; [reflexivity|]. split; [reflexivity|]. exists key0, al, ad. repeat split; try assumption.
  intros Hr. eapply verify_packet_none; [exact Evf|now left].
Qed.

(** Where an address can come from. *)
Lemma address_origin : forall P fuel n now data f rs o ds n' l i,
  handle_received_data P fuel n now data f rs = (o, ds, n') ->
  get_peer_address n' l i <> get_peer_address n l i ->
  exists contents a, came_directly P n data l contents /\ tells_address P n contents i a
    /\ get_peer_address n' l i = Some a.
Proof.
  intros P fuel n now data f rs o ds n' l i H Hne. unfold handle_received_data in H.
  destruct (open_peers P n data) as [Hop Hos]. pose proof (open_datagram_inv P n data) as Hinv.
  destruct (open_datagram P n data) as [[[op|]|e] n1]; cbn [snd] in Hop, Hos.
  2,3: apply (f_equal snd) in H; cbn [snd] in H; subst n'; destruct Hne; now apply peers_address.
  specialize (Hinv op n1 eq_refl).
  destruct (match od_version op with Some _ => _ | None => _ end).
  { apply (f_equal snd) in H; cbn [snd] in H; subst n'; destruct Hne; now apply peers_address. }
  destruct (parse_packet (od_contents op)) as [packet|] eqn:Epk.
  2:{ apply (f_equal snd) in H; cbn [snd] in H; subst n'; destruct Hne; now apply peers_address. }
  pose proof (check_packet_effect P n1 now (od_contents op) packet (od_local op) (od_channel_peer op) (od_priority op) f rs) as Hq.
  assert (Hn' : get_peer_address n' l i = get_peer_address (snd (packet_source P n1 now (od_contents op) packet (od_local op) (od_channel_peer op) f)) l i).
  { rewrite <- (quiet_address _ _ l i Hq).
    destruct (check_packet P n1 now (od_contents op) packet (od_local op) (od_channel_peer op) (od_priority op) f rs) as [[[j|]|e] n2]; cbn [snd].
    - pose proof (process_messages_effect P fuel (ip_messages packet) n2 (od_local op) j) as [_ Hpm]. rewrite H in Hpm.
      cbn [snd] in Hpm. now apply peers_address.
    - apply (f_equal snd) in H; cbn [snd] in H; subst n'. reflexivity.
    - apply (f_equal snd) in H; cbn [snd] in H; subst n'. reflexivity. }
  rewrite Hn' in Hne |- *. rewrite <- (peers_address n n1 l i Hop) in Hne. clear Hn' Hq H.
  destruct (source_address P n1 now (od_contents op) packet (od_local op) (od_channel_peer op) f l i Hne)
    as (Hcp & Hl & key & al & w & H1 & H2 & H3 & H4 & H5 & H6).
  rewrite Hcp in Hinv. destruct Hinv as [Hd _]. exists (od_contents op), (sockaddr_of w). subst l.
  split; [exact Hd|]. split; [|exact H6]. exists packet, key, al, w. repeat split; try assumption.
  destruct Hos as (_ & _ & -> & _). exact H3.
Qed.

(** An address told by a peer is used from then on, unless it is declined. *)
Lemma address_learned : forall P fuel n now data f rs ds n' local contents i a,
  handle_received_data P fuel n now data f rs = (Ok tt, ds, n') ->
  came_directly P n data local contents -> tells_address P n contents i a ->
  is_Some (n_peers n !! local) ->
  (~ declined n local i a -> get_peer_address n' local i = Some a)
  /\ (declined n local i a -> get_peer_address n' local i = get_peer_address n local i).
Proof.
  intros P fuel n now data f rs ds n' local contents i a H (v & Hd) (packet & key & al & w & H1 & H2 & H3 & H4 & H5 & H6 & H7) Hl.
  unfold handle_received_data, open_datagram in H. rewrite Hd in H. cbn [od_version od_contents od_local od_channel_peer od_priority] in H.
  destruct (match v with Some _ => _ | None => _ end); [discriminate|]. rewrite H1 in H.
  pose proof (check_packet_effect P n now contents packet local None false f rs) as Hq.
  assert (Hn' : get_peer_address n' local i = get_peer_address (snd (packet_source P n now contents packet local None f)) local i
     /\ exists x n1, packet_source P n now contents packet local None f = (Ok x, n1)).
  { rewrite <- (quiet_address _ _ local i Hq).
    destruct (check_packet P n now contents packet local None false f rs) as [[r|e] n2] eqn:Ec; [|discriminate]. cbn [snd].
    pose proof (check_packet_inv _ _ _ _ _ _ _ _ _ _ _ _ Ec) as (i0 & chk & n1 & p & p2 & n3 & Hs & _).
    split; [|eauto]. destruct r as [j|].
    - pose proof (process_messages_effect P fuel (ip_messages packet) n2 local j) as [_ Hpm]. rewrite H in Hpm.
      cbn [snd] in Hpm. now apply peers_address.
    - apply (f_equal snd) in H; cbn [snd] in H; subst n'. reflexivity. }
  destruct Hn' as [Hn' (x & n1 & Hs)]. rewrite Hn', Hs. cbn [snd]. clear Hn' Hq H.
  unfold packet_source in Hs. rewrite H2 in Hs. cbn [full_id] in Hs.
  destruct (valid_pub P key); [|discriminate]. cbv zeta in Hs.
  destruct (match ip_from_short packet with Some _ => _ | None => _ end); [discriminate|].
  destruct (verify_packet _ _ _ _ _); [discriminate|]. rewrite H5 in Hs.
  unfold parse_address_list in Hs. rewrite H6 in Hs. destruct (_ <? al_reinit_date al); [discriminate|].
  destruct (negb _ && _); [discriminate|]. rewrite <- H7 in Hs.
  change (short_id P key) with (id_of_key P key) in Hs. rewrite <- H3 in Hs.
  assert (E : snd (add_peer n CtxAdnlPacket local i a key f) = n1)
    by (destruct (add_peer n CtxAdnlPacket local i a key f) as [[|] ?]; now inversion Hs).
  rewrite <- E. clear Hs E n1. destruct Hl as [ps Hl].
  unfold add_peer, declined.
  destruct (bytes_eqb i local) eqn:Ei; cbn [orb snd].
  { apply bytes_eqb_eq in Ei. split; [|reflexivity]. intros Hn. destruct Hn. now left. }
  apply bytes_eqb_neq in Ei.
  destruct (sockaddr_eqb a (n_addr n)) eqn:Ea; cbn [snd].
  { apply sockaddr_eqb_spec in Ea. split; [|reflexivity]. intros Hn. destruct Hn. right; now left. }
  assert (Ea' : a <> n_addr n) by (intros Hx; apply sockaddr_eqb_spec in Hx; congruence).
  assert (Haddr : addr_ok a) by (rewrite H7; split; cbn [sockaddr_of sa_ip sa_port]; apply N.mod_lt; discriminate).
  assert (Hok : forall p', p_addr p' = pack_addr a -> get_peer_address (put_peer n local i p') local i = Some a).
  { intros p' Hp'. unfold get_peer_address. rewrite get_put_same by now exists ps. cbn. f_equal. unfold peer_addr.
    rewrite Hp'. now apply unpack_pack. }
  destruct (n_filter n) as [g|] eqn:Eg.
  - destruct (g CtxAdnlPacket a i) eqn:Egi; cbn [negb].
    + rewrite Hl. split.
      * intros _. destruct (ps !! i); cbn [snd]; now apply Hok.
      * intros [?|[?|(f' & Hf & Hf')]]; try contradiction. injection Hf as <-. congruence.
    + cbn [snd]. split; [|reflexivity]. intros Hn. destruct Hn. right. right. eauto.
  - rewrite Hl. split.
    + intros _. destruct (ps !! i); cbn [snd]; now apply Hok.
    + intros [?|[?|(f' & Hf & Hf')]]; try contradiction. discriminate.
Qed.
