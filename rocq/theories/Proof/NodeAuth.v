From stdpp Require Import gmap.
From Coq Require Import NArith Lia.
From Coq Require Import ZifyBool ZifyNat ZifyN.
From Verif.Base Require Import Bytes BytesFacts Res.
From Verif.Model Require Import Crypto Tl Scheme ProtoAdnl History Channel Handshake Peer Transfer AdnlNode.
From Verif.Spec Require Import Codec CryptoSpec ChannelSpec NodeSpec.
From Verif.Proof Require Import TlFacts ProtoFacts PacketFacts CipherFacts NodeFacts.
Open Scope N_scope.

Lemma verify_packet_none : forall P raw packet key mandatory,
  verify_packet P raw (ip_signature packet) key mandatory = None ->
  (mandatory = true \/ ip_signature packet <> None) -> signed_by P raw packet key.
Proof.
  intros P raw packet key mandatory H Hm. unfold verify_packet in H. unfold signed_by.
  destruct (ip_signature packet) as [s|].
  - destruct (extract s raw) as [[t g]|] eqn:E; [|discriminate].
    destruct (verify P key t g) eqn:Ev; [|discriminate]. exists s, t, g. auto.
  - destruct Hm as [->|Hm]; [discriminate|congruence].
Qed.

(** Who a packet is attributed to. *)
Lemma packet_source_ok : forall P n now raw packet l cp f i chk n1,
  packet_source P n now raw packet l cp f = (Ok (i, chk), n1) ->
  match cp with
  | Some c => i = c /\ ip_from packet = None /\ ip_from_short packet = None /\ chk = true
  | None =>
    match ip_from packet with
    | Some k => exists key, k = PkEd25519 key /\ valid_pub P key = true /\ i = id_of_key P key
        /\ (o_signature_required (n_opts n) = true \/ ip_signature packet <> None -> signed_by P raw packet key)
        /\ (forall s, ip_from_short packet = Some s -> s = i)
    | None => ip_from_short packet = Some i /\ chk = true
    end
  end.
Proof.
  intros P n now raw packet l cp f i chk n1 H. unfold packet_source in H. destruct cp as [c|].
  { destruct (ip_from packet), (ip_from_short packet); try discriminate. injection H as <- <- <-. auto. }
  destruct (ip_from packet) as [k|].
  2:{ destruct (ip_from_short packet); [|discriminate]. injection H as <- <- <-. auto. }
  destruct (full_id P k) as [key|e] eqn:Ek; [|discriminate]. cbv zeta in H.
  destruct k; cbn [full_id] in Ek; try discriminate.
  destruct (valid_pub P key0) eqn:Ev; [|discriminate]. injection Ek as <-.
  destruct (match ip_from_short packet with Some i => _ | None => _ end) eqn:Es; [discriminate|].
  destruct (verify_packet P raw (ip_signature packet) key0 _) eqn:Evf; [discriminate|].
  assert (Hi : i = id_of_key P key0).
  { destruct (ip_address packet) as [al|]; [|injection H as <- _ _; reflexivity].
    destruct (parse_address_list _ _ _); [|discriminate].
    destruct (add_peer _ _ _ _ _ _ _) as [[|] ?]; [|discriminate]. injection H as <- _ _. reflexivity. }
  exists key0. repeat split; try assumption.
  - intros Hr. eapply verify_packet_none; [exact Evf|exact Hr].
  - intros s Hs. rewrite Hs in Es. apply Bool.negb_false_iff, bytes_eqb_eq in Es. rewrite <- Es. now rewrite Hi.
Qed.

Lemma check_packet_inv : forall P n now raw packet l cp pr f rs r n',
  check_packet P n now raw packet l cp pr f rs = (Ok r, n') ->
  exists i chk n1 p p2 n2,
    packet_source P n now raw packet l cp f = (Ok (i, chk), n1)
    /\ get_peer n1 l i = Some p
    /\ (chk = true -> ip_signature packet <> None -> signed_by P raw packet (p_key p))
    /\ check_reinit P n1 now l i p (ip_reinit_dates packet) rs = (Ok p2, n2)
    /\ (cp <> None -> is_Some (n_by_peer n1 !! i))
    /\ (forall j, r = Some j -> j = i)
    /\ let history :=
         if o_history_enabled (n_opts n) then
           match ip_seqno packet with
           | Some s => deliver (o_overflow_checks (n_opts n)) (rs_history pr (p_recv p2)) s
           | None => (Accepted, rs_history pr (p_recv p2))
           end
         else (Accepted, rs_history pr (p_recv p2)) in
       (fst history = Accepted <-> r = Some i) /\ fst history <> Panicked
       /\ n' = put_peer n2 l i (mk_peer (p_key p2) (p_addr p2) (p_channel_secret p2)
                        (set_rs_history pr (snd history) (p_recv p2)) (p_send p2)).
Proof.
  intros P n now raw packet l cp pr f rs r n' H. unfold check_packet in H.
  destruct (packet_source P n now raw packet l cp f) as [[[i chk]|e] n1]; [|discriminate].
  destruct (n_peers n1 !! l) as [ps|] eqn:El; [|discriminate].
  destruct (match cp with Some _ => _ | None => false end) eqn:Ec; [discriminate|].
  destruct (ps !! i) as [p|] eqn:Ei; [|discriminate].
  destruct (if chk then _ else None) eqn:Ev; [discriminate|].
  destruct (check_reinit P n1 now l i p (ip_reinit_dates packet) rs) as [[p2|e] n2] eqn:Er; [|discriminate].
  exists i, chk, n1, p, p2, n2. split; [reflexivity|].
  split; [unfold get_peer; now rewrite El|].
  split. { intros -> Hs. eapply verify_packet_none; [exact Ev|now right]. }
  split; [exact Er|].
  split. { intros Hc. destruct cp; [|congruence]. destruct (n_by_peer n1 !! i); [eexists; reflexivity|discriminate]. }
  cbv zeta in *.
  destruct (if o_history_enabled (n_opts n) then _ else _) as [o h]. cbn [fst snd] in *.
  destruct o; [|injection H as <- <-|discriminate].
  - assert (Hgo : r = Some i /\ n' = put_peer n2 l i (mk_peer (p_key p2) (p_addr p2) (p_channel_secret p2)
                        (set_rs_history pr h (p_recv p2)) (p_send p2))).
    { destruct (ip_confirm_seqno packet); [destruct (_ <? _); [discriminate|]|]; injection H as <- <-; auto. }
    destruct Hgo as [-> ->]. split; [congruence|]. repeat split; congruence.
  - split; [discriminate|]. repeat split; discriminate.
Qed.

Lemma packet_source_frame : forall P n now raw packet l cp f,
  same_setup n (snd (packet_source P n now raw packet l cp f))
  /\ same_channels n (snd (packet_source P n now raw packet l cp f)).
Proof.
  intros. destruct (packet_source_effect P n now raw packet l cp f) as [->|(k & a & -> & _)]; auto with node.
  destruct (add_peer_effect n CtxAdnlPacket l (short_id P k) a k f) as (H1 & H2 & _). auto.
Qed.

Lemma process_messages_deliveries : forall P fuel ms n l i o ds n',
  process_messages P fuel n l i ms = (o, ds, n') ->
  Forall (fun d => exists m, delivered_as l i m = Some d) ds.
Proof.
  assert (Hw : forall P n l i m ds n', process_whole P n l i m = (Ok ds, n') ->
     Forall (fun d => exists m, delivered_as l i m = Some d) ds).
  { intros P n l i m ds n' H. destruct m; cbn [process_whole] in H; try discriminate;
      repeat match type of H with
      | (if ?c then _ else _) = _ => destruct c; [|discriminate]
      | (match ?c with _ => _ end) = _ => destruct c as [[|] ?]; [|discriminate]
      end; try (injection H as <- _; constructor).
    - now exists (MAnswer query_id answer).
    - constructor.
    - now exists (MCustom data).
    - constructor.
    - now exists (MQuery query_id query).
    - constructor. }
  intros P fuel ms. induction ms as [|m ms IH]; intros n l i o ds n' H; cbn [process_messages] in H.
  - injection H as _ <- _. constructor.
  - destruct (process_message P fuel n l i m) as [[ds0|e] n1] eqn:E; [|injection H as _ <- _; constructor].
    destruct (process_messages P fuel n1 l i ms) as [[o2 ds2] n2] eqn:E2. injection H as _ <- _.
    apply Forall_app. split; [|eapply IH, E2].
    destruct m; cbn [process_message] in E; try (eapply Hw, E).
    destruct (process_part P fuel (n_transfers n) hash total_size offset data) as [r ts].
    destruct r; try discriminate; [injection E as <- _; constructor|].
    destruct (deserialize get_message message); [|discriminate]. eapply Hw, E.
Qed.

Lemma open_datagram_inv : forall P n data o n', open_datagram P n data = (Ok (Some o), n') ->
  match od_channel_peer o with
  | Some peer => came_by_channel P n data (od_local o) peer (od_contents o)
  | None => came_directly P n data (od_local o) (od_contents o) /\ od_priority o = false
  end.
Proof.
  intros P n data o n' H. unfold open_datagram in H.
  destruct (parse_handshake _ _ _) as [[[[i v] ct]|]|e] eqn:Ep; [| |discriminate].
  - injection H as <- _. cbn [od_channel_peer od_local od_contents od_priority]. split; [|reflexivity]. now exists v.
  - destruct (n_by_id n !! firstn 32 data) as [[pr h]|] eqn:E; [|discriminate].
    destruct (n_heap n !! h) as [c|] eqn:Eh; [|discriminate].
    destruct (channel_decrypt P c data pr) as [[v ct]|e] eqn:Ed; [|discriminate].
    injection H as <- _. cbn [od_channel_peer od_local od_contents]. exists pr, h, c, v. auto.
Qed.

(** C08 *)
Lemma deliveries_attributed : forall P fuel n now data f rs o ds n' d,
  handle_received_data P fuel n now data f rs = (o, ds, n') -> In d ds ->
  exists local peer contents packet,
    (exists m, delivered_as local peer m = Some d) /\ parse_packet contents = Some packet
    /\ (came_by_channel P n data local peer contents /\ ip_from packet = None /\ ip_from_short packet = None
        \/ came_directly P n data local contents
           /\ match ip_from packet with
              | Some k => exists key, k = PkEd25519 key /\ peer = id_of_key P key
                  /\ (o_signature_required (n_opts n) = true -> signed_by P contents packet key)
              | None => ip_from_short packet = Some peer
              end).
Proof.
  intros P fuel n now data f rs o ds n' d H Hd. unfold handle_received_data in H.
  destruct (open_datagram P n data) as [[[od|]|e] n1] eqn:Eo;
    [|injection H as _ <- _; destruct Hd|injection H as _ <- _; destruct Hd].
  destruct (match od_version od with Some _ => _ | None => false end); [injection H as _ <- _; destruct Hd|].
  destruct (parse_packet (od_contents od)) as [packet|] eqn:Epk; [|injection H as _ <- _; destruct Hd].
  destruct (check_packet P n1 now (od_contents od) packet (od_local od) (od_channel_peer od) (od_priority od) f rs)
    as [[[i|]|e] n2] eqn:Ec; [|injection H as _ <- _; destruct Hd|injection H as _ <- _; destruct Hd].
  apply process_messages_deliveries in H. rewrite Forall_forall in H.
  specialize (H d ltac:(now apply elem_of_list_In)).
  apply check_packet_inv in Ec as (i' & chk & n3 & p & p2 & n4 & Hs & _ & _ & _ & _ & Hr & _).
  rewrite <- (Hr i eq_refl) in Hs. apply packet_source_ok in Hs.
  pose proof (open_datagram_inv _ _ _ _ _ Eo) as Hop.
  pose proof (open_datagram_effect P n data) as (Hset & _). rewrite Eo in Hset. cbn [snd] in Hset.
  exists (od_local od), i, (od_contents od), packet. split; [exact H|]. split; [exact Epk|].
  destruct (od_channel_peer od) as [cp|].
  - left. destruct Hs as (-> & H1 & H2 & _). auto.
  - right. destruct Hop as [Hop _]. split; [exact Hop|]. destruct (ip_from packet) as [k|].
    + destruct Hs as (key & -> & _ & -> & Hsig & _). exists key. repeat split.
      intros Hreq. apply Hsig. left. destruct Hset as (_ & _ & <- & _). exact Hreq.
    + now destruct Hs.
Qed.

Lemma check_packet_attribution : forall P n now raw packet l cp pr f rs i n',
  check_packet P n now raw packet l cp pr f rs = (Ok (Some i), n') ->
  match cp with
  | Some c => i = c /\ ip_from packet = None /\ ip_from_short packet = None
  | None =>
    match ip_from packet with
    | Some k => exists key, k = PkEd25519 key /\ i = id_of_key P key
        /\ (o_signature_required (n_opts n) = true \/ ip_signature packet <> None -> signed_by P raw packet key)
    | None => ip_from_short packet = Some i
    end
  end.
Proof.
  intros P n now raw packet l cp pr f rs i n' H.
  apply check_packet_inv in H as (i' & chk & n3 & p & p2 & n4 & Hs & _ & _ & _ & _ & Hr & _).
  rewrite <- (Hr i eq_refl) in Hs. apply packet_source_ok in Hs.
  destruct cp; [intuition|]. destruct (ip_from packet); [|intuition].
  destruct Hs as (key & -> & _ & -> & Hsig & _). eauto.
Qed.

Lemma forged_parses : forall peer m date, length peer = 32%nat -> message_ok m -> (forall d, date = Some d -> u32_ok d) ->
  parse_packet (forged_packet peer m date)
  = Some (mk_in_packet None (Some peer) [m] None None None
            (match date with Some d => Some (mk_reinit_dates d 0) | None => None end) None).
Proof.
  intros peer m date Hp Hb Hd. unfold parse_packet, deserialize.
  generalize (forged_packet peer m date) at 1 as whole. intros whole.
  unfold forged_packet, get_in_packet_at.
  erewrite bind_reads; [|exact u32_reads|reflexivity].
  change (negb (id_packet_contents =? id_packet_contents)) with false. cbv iota.
  erewrite bind_reads; [|exact bytes_reads|reflexivity].
  rewrite bind_off. erewrite bind_reads; [|exact u32_reads|destruct date; reflexivity].
  set (fl := match date with Some _ => _ | None => _ end).
  assert (Ef : forall k, k <> 10 -> N.testbit fl k = N.testbit 6 k).
  { intros k Hk. unfold fl. destruct date; [|reflexivity]. change 1030 with (N.lor 6 (2 ^ 10)).
    rewrite N.lor_spec, N.pow2_bits_false by congruence. apply orb_false_r. }
  assert (E10 : N.testbit fl 10 = match date with Some _ => true | None => false end) by (unfold fl; destruct date; reflexivity).
  clearbody fl.
  rewrite (opt_none_reads _ _ _ _ fl 0) by (rewrite Ef by discriminate; reflexivity).
  rewrite (opt_some_reads _ _ put_hash get_hash hash_ok _ fl 1); [|rewrite Ef by discriminate; reflexivity|exact hash_reads|exact Hp].
  rewrite (opt_some_reads _ _ put_message get_message message_ok _ fl 2); [|rewrite Ef by discriminate; reflexivity|exact message_reads|exact Hb].
  rewrite (opt_none_reads _ _ _ _ fl 3) by (rewrite Ef by discriminate; reflexivity).
  rewrite (opt_none_reads _ _ _ _ fl 4) by (rewrite Ef by discriminate; reflexivity).
  rewrite (opt_none_reads _ _ _ _ fl 5) by (rewrite Ef by discriminate; reflexivity).
  rewrite (opt_none_reads _ _ _ _ fl 6) by (rewrite Ef by discriminate; reflexivity).
  rewrite (opt_none_reads _ _ _ _ fl 7) by (rewrite Ef by discriminate; reflexivity).
  rewrite (opt_none_reads _ _ _ _ fl 8) by (rewrite Ef by discriminate; reflexivity).
  rewrite (opt_none_reads _ _ _ _ fl 9) by (rewrite Ef by discriminate; reflexivity).
  destruct date as [d|].
  - rewrite <- app_assoc.
    replace (put_u32 d ++ put_u32 0 ++ put_bytes [4; 5; 6]) with (put_reinit_dates (mk_reinit_dates d 0) ++ put_bytes [4; 5; 6])
      by (unfold put_reinit_dates; cbn [rd_local rd_target]; now rewrite <- app_assoc).
    rewrite (opt_some_reads _ _ put_reinit_dates get_reinit_dates reinit_dates_ok _ fl 10);
      [|exact E10|exact reinit_dates_reads|split; [exact (Hd d eq_refl)|reflexivity]].
    rewrite sig_none_reads by (rewrite Ef by discriminate; reflexivity).
    erewrite bind_reads_nil; [|exact bytes_reads|reflexivity]. reflexivity.
  - cbn [app]. rewrite (opt_none_reads _ _ _ _ fl 10) by exact E10.
    rewrite sig_none_reads by (rewrite Ef by discriminate; reflexivity).
    erewrite bind_reads_nil; [|exact bytes_reads|reflexivity]. reflexivity.
Qed.

(** What happens to such a packet: its message is processed, after the peer was restarted if it has a date. *)
Lemma forged_processed : forall P, prims_ok P -> forall fuel n now (local secret peer : bytes) p m date temp f rs,
  n_keys n !! local = Some secret -> length local = 32%nat -> length peer = 32%nat ->
  get_peer n local peer = Some p -> message_ok m ->
  (forall d, date = Some d -> u32_ok d /\ known_date p <= d <= now + o_clock_tolerance (n_opts n)) ->
  handle_received_data P fuel n now (forged_datagram P temp local (pub_of P secret) peer m date) f rs
  = process_messages P fuel
      (match date with Some d => put_peer n local peer (snd (try_reinit_sender p d)) | None => n end) local peer [m].
Proof.
  intros P HP fuel n now local secret peer p m date temp f rs Hk Hl Hpl Hp Hb Hd.
  unfold handle_received_data, open_datagram, forged_datagram.
  rewrite (handshake_round_trip P HP _ temp local secret).
  2: exact Hl. 2: exact Hk.
  2:{ split; [reflexivity|]. unfold forged_packet. intros E. apply app_eq_nil in E as [E _]. vm_compute in E. discriminate. }
  cbn [od_version od_contents od_local od_channel_peer od_priority].
  change (negb (0 =? ADNL_INITIAL_VERSION)) with false. cbv iota.
  rewrite forged_parses; [|assumption|assumption|intros d E; apply (Hd d E)].
  unfold check_packet, packet_source. cbn [ip_from ip_from_short].
  unfold get_peer in Hp. destruct (n_peers n !! local) as [ps|] eqn:Ep; [|discriminate Hp]. rewrite Hp.
  cbn [verify_packet ip_signature ip_reinit_dates ip_seqno ip_confirm_seqno ip_messages]. cbv zeta.
  assert (Hsame : forall q, mk_peer (p_key q) (p_addr q) (p_channel_secret q)
            (set_rs_history false (rs_history false (p_recv q)) (p_recv q)) (p_send q) = q).
  { intros [? ? ? [? ? ?] ?]. reflexivity. }
  destruct date as [d|].
  - destruct (Hd d eq_refl) as (_ & H1 & H2). unfold check_reinit. cbn [rd_target rd_local].
    replace (n_start n <? 0) with false by (symmetry; apply N.ltb_ge; lia).
    replace (now + o_clock_tolerance (n_opts n) <? d) with false by (symmetry; apply N.ltb_ge; lia).
    destruct (try_reinit_sender p d) as [ok p'] eqn:Et.
    assert (Hok : ok = true).
    { unfold try_reinit_sender in Et. unfold known_date in H1. destruct (N.compare_spec d (ss_reinit (p_send p))); [congruence|lia|].
      destruct (negb _); injection Et as <- _; reflexivity. }
    subst ok. cbn [N.eqb negb andb snd].
    assert (Hput : put_peer (put_peer n local peer p') local peer p' = put_peer n local peer p').
    { unfold put_peer at 2 3. rewrite Ep. unfold put_peer. cbn [set_peers n_peers]. rewrite lookup_insert. unfold set_peers. cbn.
      now rewrite !insert_insert. }
    destruct (o_history_enabled (n_opts n)); cbn [fst snd]; rewrite Hsame, Hput; reflexivity.
  - assert (Hput : put_peer n local peer p = n).
    { unfold put_peer. rewrite Ep. unfold set_peers. rewrite insert_id; [now destruct n|]. now rewrite insert_id. }
    destruct (o_history_enabled (n_opts n)); cbn [check_reinit fst snd]; rewrite Hsame, Hput; reflexivity.
Qed.

Lemma forged_accepted : forall P, prims_ok P -> forall fuel n now (local secret peer : bytes) p payload temp f rs,
  n_keys n !! local = Some secret -> length local = 32%nat -> length peer = 32%nat ->
  get_peer n local peer = Some p -> blob_ok payload ->
  exists n', handle_received_data P fuel n now (forged_datagram P temp local (pub_of P secret) peer (MCustom payload) None) f rs
    = (Ok tt, [DCustom local peer payload], n').
Proof.
  intros P HP fuel n now local secret peer p payload temp f rs Hk Hl Hpl Hp Hb. eexists.
  rewrite (forged_processed P HP fuel n now local secret peer p); try assumption; [reflexivity|discriminate].
Qed.

(** C09 *)
Lemma reset_forgotten : forall h, forgotten (history_reset h).
Proof.
  intros h. split; [reflexivity|]. intros checks s Hs Hmax. unfold deliver, history_reset.
  cbn [h_index h_bits h_seqno]. change (normalize 0) with 0. change (masked 0) with 0.
  assert (Hn : normalize s = s - s mod 256).
  { unfold normalize, INDEX_MASK. change 255 with (N.ones 8). rewrite N.ldiff_ones_r.
    rewrite N.shiftl_mul_pow2, N.shiftr_div_pow2. change (2 ^ 8) with 256.
    pose proof (N.div_mod s 256 ltac:(lia)). lia. }
  assert (Hm : masked s = s mod 256).
  { unfold masked, INDEX_MASK. change 255 with (N.ones 8). now rewrite N.land_ones. }
  rewrite Hn, Hm. unfold add_u64 at 1, INDEX_MASK.
  replace (s - s mod 256 + (255 + 1) <? 2 ^ 64) with true by lia.
  replace (s - s mod 256 + (255 + 1) <? 0) with false by lia.
  destruct (N.compare_spec 0 (s - s mod 256)) as [E|E|E]; [| |lia].
  - assert (Hsmall : s mod 256 = s) by (pose proof (N.mod_le s 256 ltac:(lia)); lia). rewrite Hsmall.
    set (k := N.to_nat (s / 64)).
    assert (Hk : (k < 4)%nat).
    { unfold k. assert (s < 256) by (rewrite <- Hsmall; apply N.mod_lt; lia).
      assert (s / 64 < 4) by (apply N.div_lt_upper_bound; lia). lia. }
    assert (Hw : N.land (word (map (fun i => if Nat.eqb i HALF then 1 else 0) (seq 0 HISTORY_SIZE)) (HALF + k))
        (N.shiftl 1 (s mod 64)) = 0).
    { destruct k as [|[|[|[|k']]]] eqn:Ek; try lia; cbn [word nth map seq HISTORY_SIZE HALF Nat.eqb Nat.add].
      2-4: apply N.land_0_l.
      assert (s / 64 = 0) by (unfold k in Ek; lia). assert (s < 64) by (pose proof (N.div_mod s 64 ltac:(lia)); pose proof (N.mod_lt s 64); lia).
      rewrite N.mod_small by assumption. apply N.bits_inj_0. intros j. rewrite N.land_spec.
      destruct (N.eq_dec j 0) as [->|Hj].
      - rewrite N.shiftl_spec_low by lia. apply Bool.andb_false_r.
      - replace (N.testbit 1 j) with false; [reflexivity|]. symmetry. apply N.bits_above_log2. cbn. lia. }
    rewrite Hw. reflexivity.
  - unfold add_u64. change (0 + (255 + 1) <? 2 ^ 64) with true. cbv iota.
    destruct (0 + (255 + 1) =? s - s mod 256); reflexivity.
Qed.

Lemma reinit_forgets : forall p d p', try_reinit_sender p d = (true, p') -> 0 < known_date p < d ->
  forgotten (rs_ordinary (p_recv p')) /\ forgotten (rs_priority (p_recv p'))
  /\ ss_ordinary (p_send p') = 0 /\ ss_priority (p_send p') = 0.
Proof.
  intros p d p' H [H1 H2]. unfold try_reinit_sender, known_date in *.
  replace (d ?= ss_reinit (p_send p)) with Gt in H by (symmetry; apply N.compare_gt_iff; lia).
  replace (negb (ss_reinit (p_send p) =? 0)) with true in H by lia.
  injection H as <-. cbn [p_recv p_send rs_ordinary rs_priority ss_ordinary ss_priority].
  repeat split; try apply reset_forgotten.
Qed.

Lemma dates_checked : forall P n now raw packet l cp pr f rs r n' d,
  check_packet P n now raw packet l cp pr f rs = (Ok r, n') -> ip_reinit_dates packet = Some d ->
  rd_target d <= n_start n /\ rd_local d <= now + o_clock_tolerance (n_opts n)
  /\ exists i, (forall j, r = Some j -> j = i)
     /\ (forall p, get_peer n l i = Some p -> known_date p <= rd_local d)
     /\ exists p', get_peer n' l i = Some p' /\ known_date p' = rd_local d
     /\ forall p, get_peer n l i = Some p -> 0 < known_date p < rd_local d ->
        ss_ordinary (p_send p') = 0 /\ ss_priority (p_send p') = 0
        /\ forgotten (rs_history (negb pr) (p_recv p'))
        /\ exists h, forgotten h /\ (rs_history pr (p_recv p') = h
             \/ exists s, ip_seqno packet = Some s
                /\ rs_history pr (p_recv p') = snd (deliver (o_overflow_checks (n_opts n)) h s)).
Proof.
  intros P n now raw packet l cp pr f rs r n' d H Hd.
  apply check_packet_inv in H as (i & chk & n1 & p1 & p2 & n2 & Hs & Hp1 & _ & Hr & _ & Hri & Hh).
  pose proof (packet_source_frame P n now raw packet l cp f) as [Hset _]. rewrite Hs in Hset. cbn [snd] in Hset.
  destruct Hset as (_ & Hst & Hopt & _).
  pose proof (check_reinit_effect P n1 now l i p1 (ip_reinit_dates packet) rs Hp1) as [Hq Hc].
  destruct (Hc _ _ Hr) as (Hk & Hg & Hdd). rewrite Hd in Hdd. destruct Hdd as (Ht & G1 & G2 & _).
  rewrite Hst, Hopt. split; [assumption|]. split; [assumption|]. exists i. split; [assumption|].
  (* the date of the peer before the packet *)
  assert (Hbefore : forall p, get_peer n l i = Some p -> known_date p = known_date p1 ).
  { intros p Hp. pose proof (packet_source_effect P n now raw packet l cp f) as He. rewrite Hs in He. cbn [snd] in He.
    destruct He as [->|(k & a & -> & _)]; [congruence|].
    destruct (add_peer_effect n CtxAdnlPacket l (short_id P k) a k f) as (_ & _ & _ & [Hn|(_ & _ & _ & p' & Hg' & Hn & Hpp)]).
    - rewrite Hn in Hp1. congruence.
    - destruct (decide (i = short_id P k)) as [->|Hne].
      + rewrite Hg' in Hp1. injection Hp1 as <-. rewrite Hp in Hpp. rewrite Hpp. reflexivity.
      + rewrite Hn, get_put_other in Hp1 by congruence. congruence. }
  pose proof (try_reinit_kept _ _ _ Ht) as [(_ & _ & _ & Hle) Hdate].
  split. { intros p Hp. rewrite (Hbefore p Hp). unfold known_date. lia. }
  destruct Hh as (_ & _ & ->). eexists. split; [apply get_put_same|].
  { unfold get_peer in Hg. destruct (n_peers n2 !! l); [eexists; reflexivity|discriminate]. }
  split; [exact Hdate|]. intros p Hp Hgrow. rewrite (Hbefore p Hp) in Hgrow.
  destruct (reinit_forgets _ _ _ Ht Hgrow) as (F1 & F2 & F3 & F4). cbn [p_send p_recv].
  split; [assumption|]. split; [assumption|]. split.
  { destruct pr; cbn; assumption. }
  exists (rs_history pr (p_recv p2)). split; [destruct pr; assumption|].
  set (hh := if o_history_enabled (n_opts n) then _ else _).
  replace (rs_history pr (set_rs_history pr (snd hh) (p_recv p2))) with (snd hh) by (destruct pr; reflexivity).
  unfold hh. rewrite <- Hopt. destruct (o_history_enabled (n_opts n)); [|now left].
  destruct (ip_seqno packet) as [s|]; [|now left]. right. exists s. auto.
Qed.

Definition dates_up (p q : peer) : Prop := known_date p <= known_date q.
Definition any_new (l i : bytes) (p : peer) : Prop := True.

Lemma add_peer_dates : forall n ctx l i a k f, peers_rel any_new dates_up n (snd (add_peer n ctx l i a k f)).
Proof.
  intros. destruct (add_peer_effect n ctx l i a k f) as (_ & _ & _ & [->|(_ & _ & _ & p' & Hg & Hn & Hp)]).
  - apply peers_rel_eq; [unfold dates_up; lia|reflexivity].
  - rewrite Hn. split; [intros; apply put_peer_tables|]. intros l' i'.
    destruct (decide ((l', i') = (l, i))) as [E|E].
    + injection E as -> ->. rewrite <- Hn, Hg. destruct (get_peer n l i); [|exact I].
      rewrite Hp. unfold dates_up, known_date. cbn. lia.
    + rewrite get_put_other by assumption. destruct (get_peer n l' i'); [unfold dates_up; lia|exact I].
Qed.

Lemma dates_trans : forall a b c, peers_rel any_new dates_up a b -> peers_rel any_new dates_up b c -> peers_rel any_new dates_up a c.
Proof. intros. eapply peers_rel_trans; [unfold dates_up; lia|intros; exact I|eassumption..]. Qed.

Lemma quiet_dates : forall a b, quiet a b -> peers_rel any_new dates_up a b.
Proof.
  intros a b []. eapply peers_rel_weaken; [| |eassumption]; [intros; exact I|].
  intros p q (_ & _ & _ & H). exact H.
Qed.

Lemma receive_dates : forall P fuel n now data f rs,
  peers_rel any_new dates_up n (snd (handle_received_data P fuel n now data f rs)).
Proof.
  intros. pose proof (open_datagram_effect P n data) as (_ & Hp & _). unfold handle_received_data.
  assert (H1 : peers_rel any_new dates_up n (snd (open_datagram P n data))).
  { apply peers_rel_eq; [unfold dates_up; lia|congruence]. }
  destruct (open_datagram P n data) as [[[o|]|e] n1]; cbn [snd] in *; try exact H1.
  destruct (match od_version o with Some _ => _ | None => false end); [exact H1|].
  destruct (parse_packet (od_contents o)) as [packet|]; [|exact H1].
  pose proof (check_packet_effect P n1 now (od_contents o) packet (od_local o) (od_channel_peer o) (od_priority o) f rs) as Hq.
  assert (H2 : peers_rel any_new dates_up n1 (snd (packet_source P n1 now (od_contents o) packet (od_local o) (od_channel_peer o) f))).
  { destruct (packet_source_effect P n1 now (od_contents o) packet (od_local o) (od_channel_peer o) f) as [->|(k & a & -> & _)].
    - apply peers_rel_eq; [unfold dates_up; lia|reflexivity].
    - apply add_peer_dates. }
  assert (H3 : peers_rel any_new dates_up n
    (snd (check_packet P n1 now (od_contents o) packet (od_local o) (od_channel_peer o) (od_priority o) f rs))).
  { eapply dates_trans; [exact H1|]. eapply dates_trans; [exact H2|]. apply quiet_dates, Hq. }
  destruct (check_packet P n1 now _ packet _ _ _ f rs) as [[[i|]|e] n2]; cbn [snd] in *; try exact H3.
  eapply dates_trans; [exact H3|].
  pose proof (process_messages_effect P fuel (ip_messages packet) n2 (od_local o) i) as [_ Hpp].
  apply peers_rel_eq; [unfold dates_up; lia|congruence].
Qed.

Lemma dates_never_decrease : forall P fuel ops n l i p, Forall no_reset ops -> get_peer n l i = Some p ->
  exists p', get_peer (run P fuel n ops) l i = Some p' /\ known_date p <= known_date p'.
Proof.
  intros P fuel ops n l i p Hops Hp.
  assert (H : peers_rel any_new dates_up n (run P fuel n ops)).
  { clear p Hp. revert n. induction Hops as [|o ops Ho Hops IH]; intros n.
    - apply peers_rel_eq; [unfold dates_up; lia|reflexivity].
    - cbn [run fold_left]. eapply dates_trans; [|apply IH]. destruct o; try destruct Ho; cbn [step].
      + apply add_peer_dates.
      + apply quiet_dates, quiet_send.
      + apply receive_dates.
      + apply peers_rel_eq; [unfold dates_up; lia|reflexivity]. }
  destruct H as [_ H]. specialize (H l i). rewrite Hp in H.
  destruct (get_peer (run P fuel n ops) l i) as [p'|]; [|destruct H]. eauto.
Qed.
