(** Properties of the ADNL node: C08, C09, C18, C20 - C23, C25, C60. *)
From stdpp Require Import gmap.
From Coq Require Import NArith Lia.
From Verif.Base Require Import Bytes Res.
From Verif.Model Require Import Crypto Tl ProtoAdnl History Channel Handshake Peer AdnlNode.
From Verif.Spec Require Import Codec CryptoSpec NodeSpec Sample.
From Verif.Proof Require Import PeerFacts NodeAuth NodeTables NodePeers NodeReset NodeSize.
Open Scope N_scope.

(** C08: whatever reaches the layers above after a datagram was received is attributed either to
    the peer of the channel it decrypts under (and then names no source), or, for a datagram
    sealed for a local key, to the hash of the full key it carries, and if signatures are
    required it is signed by that key.  (The remaining case, a source given by id only, is the
    subject of C60.) *)
Theorem c08_attribution : forall P fuel n now data f rs o ds n' d,
  handle_received_data P fuel n now data f rs = (o, ds, n') -> In d ds ->
  exists local peer contents packet,
    (exists m, delivered_as local peer m = Some d) /\ parse_packet contents = Some packet
    /\ (came_by_channel P n data local peer contents /\ ip_from packet = None /\ ip_from_short packet = None
        \/ came_directly P n data local contents
           /\ match ip_from packet with
              | Some k => exists key, k = PkEd25519 key /\ peer = id_of_key P key
                  /\ (o_signature_required (n_opts n) = true -> signed_by P contents packet key)
              | None => ip_from_short packet = Some peer
              end).
Proof. exact deliveries_attributed. Qed.
Print Assumptions c08_attribution.
Example c08_attribution_example :
  fst (handle_received_data light 10 (srun (sample_node 2 sample_options) [knows 2 1]) 1001 letter1 (secret_of 99) sample_rnd)
    = (Ok tt, [DCustom (id_of 2) (id_of 1) [1]])
  /\ fst (handle_received_data light 10 bob1 1005 letter3 (secret_of 99) sample_rnd)
    = (Ok tt, [DCustom (id_of 2) (id_of 1) [3]]).
Proof. split; vm_compute; reflexivity. Qed.

(** C08, for packets that are accepted even if they deliver nothing. *)
Theorem c08_accepted_packet : forall P n now raw packet l cp pr f rs i n',
  check_packet P n now raw packet l cp pr f rs = (Ok (Some i), n') ->
  match cp with
  | Some c => i = c /\ ip_from packet = None /\ ip_from_short packet = None
  | None =>
    match ip_from packet with
    | Some k => exists key, k = PkEd25519 key /\ i = id_of_key P key
        /\ (o_signature_required (n_opts n) = true \/ ip_signature packet <> None -> signed_by P raw packet key)
    | None => ip_from_short packet = Some i
    end
  end.
Proof. exact check_packet_attribution. Qed.
Print Assumptions c08_accepted_packet.
Example c08_accepted_packet_example :
  fst (check_packet light bob1 1005 [] (mk_in_packet None (Some (id_of 1)) [] None (Some 7) None None None)
    (id_of 2) None false (secret_of 99) sample_rnd) = Ok (Some (id_of 1)).
Proof. vm_compute. reflexivity. Qed.

(** C60: although the node requires signatures, anyone who knows its public key can send it
    messages in the name of any peer it knows: a packet naming its source by id only needs no
    signature.  [forged_datagram] uses no secret of the peer. *)
Theorem c60_unsigned_source_refuted : forall P, prims_ok P -> forall fuel n now (local secret peer : bytes) p payload temp f rs,
  n_keys n !! local = Some secret -> length local = 32%nat -> length peer = 32%nat ->
  get_peer n local peer = Some p -> blob_ok payload ->
  exists n', handle_received_data P fuel n now (forged_datagram P temp local (pub_of P secret) peer (MCustom payload) None) f rs
    = (Ok tt, [DCustom local peer payload], n').
Proof. exact forged_accepted. Qed.
Print Assumptions c60_unsigned_source_refuted.
Example c60_unsigned_source_example :
  o_signature_required (n_opts bob1) = true /\ n_keys bob1 !! id_of 2 = Some (secret_of 2)
  /\ (exists p, get_peer bob1 (id_of 2) (id_of 1) = Some p) /\ length (id_of 1) = 32%nat /\ length (id_of 2) = 32%nat
  /\ blob_ok [1; 2; 3].
Proof.
  split; [vm_compute; reflexivity|]. split; [vm_compute; reflexivity|].
  split; [eexists; vm_compute; reflexivity|]. repeat split; vm_compute; reflexivity.
Qed.

(** C09: the known date never decreases, whatever is received, sent or added. *)
Theorem c09_never_decreases : forall P fuel ops n l i p, Forall no_reset ops -> get_peer n l i = Some p ->
  exists p', get_peer (run P fuel n ops) l i = Some p' /\ known_date p <= known_date p'.
Proof. exact dates_never_decrease. Qed.
Print Assumptions c09_never_decreases.
Example c09_never_decreases_example :
  Forall no_reset (bob_ops ++ [gets 3000 letter1; OExpire [1]])
  /\ exists p p', get_peer (srun (sample_node 2 sample_options) [knows 2 1]) (id_of 2) (id_of 1) = Some p
     /\ get_peer bob2 (id_of 2) (id_of 1) = Some p' /\ known_date p = 0 /\ known_date p' = 100.
Proof.
  split; [repeat constructor|]. do 2 eexists. split; [vm_compute; reflexivity|].
  split; [vm_compute; reflexivity|]. split; reflexivity.
Qed.

(** C09: a packet with dates is accepted only if the target date is not in the future of this
    node and the source date is neither older than the known one nor too far in the future; then
    the source date becomes the known one, and if it grew over a non-zero one all four histories
    start afresh (the one the packet belongs to then takes the packet's number). *)
Theorem c09_dates_checked : forall P n now raw packet l cp pr f rs r n' d,
  check_packet P n now raw packet l cp pr f rs = (Ok r, n') -> ip_reinit_dates packet = Some d ->
  rd_target d <= n_start n /\ rd_local d <= now + o_clock_tolerance (n_opts n)
  /\ exists i, (forall j, r = Some j -> j = i)
     /\ (forall p, get_peer n l i = Some p -> known_date p <= rd_local d)
     /\ exists p', get_peer n' l i = Some p' /\ known_date p' = rd_local d
     /\ forall p, get_peer n l i = Some p -> 0 < known_date p < rd_local d ->
        ss_ordinary (p_send p') = 0 /\ ss_priority (p_send p') = 0
        /\ forgotten (rs_history (negb pr) (p_recv p'))
        /\ exists h, forgotten h /\ (rs_history pr (p_recv p') = h
             \/ exists s, ip_seqno packet = Some s
                /\ rs_history pr (p_recv p') = snd (deliver (o_overflow_checks (n_opts n)) h s)).
Proof. exact dates_checked. Qed.
Print Assumptions c09_dates_checked.
Example c09_dates_checked_example :
  fst (check_packet light bob2 1006 []
    (mk_in_packet None (Some (id_of 1)) [] None (Some 1) None (Some (mk_reinit_dates 900 100)) None)
    (id_of 2) None false (secret_of 99) sample_rnd) = Ok (Some (id_of 1)).
Proof. vm_compute. reflexivity. Qed.

(** C18: after any history of operations, as long as channel ids do not collide, the two channel
    tables agree. *)
Theorem c18_tables_consistent : forall P fuel addr start opts filter keys ops,
  let n := run P fuel (node_new addr start opts filter keys) ops in
  no_id_collision n -> tables_consistent n.
Proof. exact tables_always_consistent. Qed.
Print Assumptions c18_tables_consistent.
Example c18_tables_consistent_example :
  no_id_collision bob2 /\ exists h c, current bob2 (id_of 1) h c.
Proof.
  split.
  - assert (E : exists c, map_to_list (n_heap bob2) = [(0%nat, c)] /\ channel_in_id c true <> channel_in_id c false).
    { eexists. split; [vm_compute; reflexivity|]. vm_compute. discriminate. }
    destruct E as (c & E & Hne). intros h1 c1 b1 h2 c2 b2 H1 H2 He.
    apply elem_of_map_to_list in H1. apply elem_of_map_to_list in H2. rewrite E in H1, H2.
    apply elem_of_list_singleton in H1. apply elem_of_list_singleton in H2.
    injection H1 as -> ->. injection H2 as -> ->.
    split; [reflexivity|]. destruct b1, b2; congruence.
  - do 2 eexists. split; vm_compute; reflexivity.
Qed.

(** C20: adding a peer. *)
Theorem c20_add_peer : forall n ctx l i a k f,
  let allowed := match n_filter n with Some g => g ctx a i | None => true end in
  match fst (add_peer n ctx l i a k f) with
  | Err e => e = PeersNotFound /\ snd (add_peer n ctx l i a k f) = n /\ n_peers n !! l = None
  | Ok false => snd (add_peer n ctx l i a k f) = n /\ (i = l \/ a = n_addr n \/ allowed = false)
  | Ok true => i <> l /\ a <> n_addr n /\ allowed = true
      /\ exists p, get_peer (snd (add_peer n ctx l i a k f)) l i = Some p
         /\ p_addr p = pack_addr a
         /\ match get_peer n l i with
            | Some old => p_key p = p_key old /\ p_channel_secret p = p_channel_secret old
                /\ p_recv p = p_recv old /\ p_send p = p_send old
            | None => p_key p = k /\ p_channel_secret p = f
            end
  end /\ forall l' i', (l', i') <> (l, i) -> get_peer (snd (add_peer n ctx l i a k f)) l' i' = get_peer n l' i'.
Proof. exact add_peer_exact. Qed.
Print Assumptions c20_add_peer.
Example c20_add_peer_example :
  fst (add_peer bob2 CtxDht (id_of 2) (id_of 1) (addr_of 5) (key_of 7) (secret_of 9)) = Ok true
  /\ fst (add_peer bob2 CtxDht (id_of 2) (id_of 2) (addr_of 5) (key_of 2) (secret_of 9)) = Ok false.
Proof. split; vm_compute; reflexivity. Qed.

(** C20: over all histories (including peers added because of received packets) no peer table
    contains the node itself or its address, or a peer the filter refuses. *)
Theorem c20_peers_admissible : forall P fuel addr start opts filter keys ops l i p,
  let n := run P fuel (node_new addr start opts filter keys) ops in
  Forall op_addr_ok ops -> get_peer n l i = Some p ->
  i <> l /\ peer_addr p <> addr /\ match filter with Some f => exists ctx, f ctx (peer_addr p) i = true | None => True end.
Proof. exact peers_always_admissible. Qed.
Print Assumptions c20_peers_admissible.
Example c20_peers_admissible_example :
  Forall op_addr_ok bob_ops /\ exists p, get_peer bob2 (id_of 2) (id_of 1) = Some p /\ peer_addr p = addr_of 1.
Proof.
  split; [repeat constructor|]. eexists. split; vm_compute; reflexivity.
Qed.

(** C20: removing a peer forgets it and its channel. *)
Theorem c20_remove_peer : forall n l i r n', tables_consistent n -> remove_peer n l i = (Ok r, n') ->
  (r = true <-> is_Some (get_peer n l i)) /\ get_peer n' l i = None /\ get_peer_address n' l i = None
  /\ (forall l' i', (l', i') <> (l, i) -> get_peer n' l' i' = get_peer n l' i')
  /\ n_by_peer n' !! i = None
  /\ (forall id pr h c, n_by_id n' !! id = Some (pr, h) -> n_heap n' !! h = Some c -> ch_peer c <> i).
Proof. exact remove_forgets. Qed.
Print Assumptions c20_remove_peer.
Example c20_remove_peer_example :
  tables_consistent bob2 /\ fst (remove_peer bob2 (id_of 2) (id_of 1)) = Ok true.
Proof.
  split; [|vm_compute; reflexivity].
  pose proof (proj1 c18_tables_consistent_example) as H. revert H. unfold bob2, srun, sample_node.
  apply c18_tables_consistent.
Qed.

(** C21 *)
Theorem c21_address_list : forall l now tolerance a,
  parse_address_list l now tolerance = Ok a <->
  (exists w, al_address l = Some w /\ a = sockaddr_of w)
  /\ al_reinit_date l <= now + tolerance /\ (al_expire_at l = 0 \/ now <= al_expire_at l).
Proof. exact address_list_accepted. Qed.
Print Assumptions c21_address_list.
Example c21_address_list_example :
  parse_address_list (mk_address_list (Some (mk_address 7 8)) 1 160 100) 100 60 = Ok (mk_sockaddr 7 8)
  /\ parse_address_list (mk_address_list (Some (mk_address 7 8)) 1 161 100) 100 60 = Err TooNewVersion
  /\ parse_address_list (mk_address_list (Some (mk_address 7 8)) 1 160 99) 100 60 = Err Expired.
Proof. repeat split. Qed.

(** C22 *)
Theorem c22_packing : forall a, addr_ok a -> unpack_addr (pack_addr a) = a /\ pack_addr a < 2 ^ 64.
Proof. intros a H. exact (conj (unpack_pack a H) (pack_fits a H)). Qed.
Print Assumptions c22_packing.
Theorem c22_packing_injective : forall a b, addr_ok a -> addr_ok b -> pack_addr a = pack_addr b -> a = b.
Proof. exact pack_inj. Qed.
Print Assumptions c22_packing_injective.
Theorem c22_wire : forall a, addr_ok a -> sockaddr_of (address_of a) = a.
Proof. exact wire_address. Qed.
Print Assumptions c22_wire.
Example c22_example : addr_ok (mk_sockaddr 0xC0A80001 65535) /\ pack_addr (mk_sockaddr 0xC0A80001 65535) <> 0.
Proof. split; [split; reflexivity|]. vm_compute. discriminate. Qed.

(** C23: every datagram a node ever emits, whatever it is asked to send. *)
Theorem c23_datagrams_fit : forall P, prims_ok P -> forall fuel addr start opts filter keys ops d,
  Forall op_sized ops -> In d (n_out (run P fuel (node_new addr start opts filter keys) ops)) ->
  N.of_nat (length (snd d)) <= 1360.
Proof. exact every_datagram_fits. Qed.
Print Assumptions c23_datagrams_fit.
Example c23_datagrams_fit_example :
  let ops := [knows 1 2; says 1000 1 2 (MCustom (repeat 7 2000))] in
  Forall op_sized ops /\ map (fun d => N.of_nat (length (snd d))) (n_out (srun (sample_node 1 sample_options) ops)) = [1312; 1348].
Proof.
  split; [|vm_compute; reflexivity]. repeat constructor.
Qed.

(** C25: a timed out query that was sent over channel [h] resets something only if an earlier
    query over [h] timed out more than the reset timeout ago and nothing was received over [h]
    since. *)
Theorem c25_reset_after_silence_partial : forall P fuel addr start opts filter keys ops now l i h f,
  let n0 := node_new addr start opts filter keys in
  let n := run P fuel n0 ops in
  let n' := step P fuel n (OTimeout now l i (Some h) f) in
  (forall t l i h f, In (OTimeout t l i h f) ops -> t + o_channel_reset_timeout opts < 2 ^ 32) ->
  n_peers n' <> n_peers n \/ n_by_peer n' <> n_by_peer n \/ n_by_id n' <> n_by_id n ->
  exists before t l' i' f' after, ops = before ++ OTimeout t l' i' (Some h) f' :: after
  /\ t + o_channel_reset_timeout opts < now
  /\ forall between now' data f'' rs rest, after = between ++ OReceive now' data f'' rs :: rest ->
     ~ received_over P (run P fuel n0 (before ++ OTimeout t l' i' (Some h) f' :: between)) data h.
Proof. exact reset_after_silence. Qed.
Print Assumptions c25_reset_after_silence_partial.
Example c25_reset_after_silence_example :
  let ops := alice_ops ++ [OTimeout 2000 (id_of 1) (id_of 2) (Some 0%nat) (secret_of 70)] in
  let n := srun (sample_node 1 sample_options) ops in
  n_by_peer (step light 10 n (OTimeout 2031 (id_of 1) (id_of 2) (Some 0%nat) (secret_of 71))) !! id_of 2 = None
  /\ n_by_peer n !! id_of 2 = Some 0%nat.
Proof. split; vm_compute; reflexivity. Qed.

(** C25 is false of the channel that is dropped: it need not be the one the query was sent over,
    and may have received a packet a moment ago. *)
Theorem c25_healthy_channel_refuted : exists ops data now h h',
  let n := srun (sample_node 1 sample_options) ops in
  let n1 := step light 10 n (gets now data) in
  received_over light n data h' /\ n_by_peer n1 !! id_of 2 = Some h' /\ h <> h'
  /\ n_by_peer (step light 10 n1 (OTimeout now (id_of 1) (id_of 2) (Some h) (secret_of 71))) !! id_of 2 = None.
Proof.
  exists alice2_ops, letter6, 2105, 0%nat, 1%nat. cbv zeta. split.
  { split; [vm_compute; reflexivity|]. exists false. do 3 eexists. split; [vm_compute; reflexivity|].
    split; [vm_compute; reflexivity|]. vm_compute. reflexivity. }
  split; [vm_compute; reflexivity|]. split; [discriminate|]. vm_compute. reflexivity.
Qed.
Print Assumptions c25_healthy_channel_refuted.
