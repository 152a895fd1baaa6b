(** What datagrams of third parties do to a connection. *)
From stdpp Require Import gmap.
From Coq Require Import NArith Lia.
From Coq Require Import ZifyBool ZifyNat ZifyN.
From Verif.Base Require Import Bytes BytesFacts Res.
From Verif.Model Require Import Crypto Tl Scheme ProtoAdnl History Channel Handshake Peer Transfer AdnlNode.
From Verif.Spec Require Import Codec CryptoSpec ChannelSpec NodeSpec.
From Verif.Proof Require Import TlFacts ProtoFacts PacketFacts CipherFacts NodeFacts NodeAuth.
Open Scope N_scope.

Lemma unopened : forall P fuel n now data f rs,
  (forall local contents, ~ came_directly P n data local contents) ->
  (forall local peer contents, ~ came_by_channel P n data local peer contents) ->
  let '(_, ds, n') := handle_received_data P fuel n now data f rs in ds = [] /\ n' = n.
Proof.
  intros P fuel n now data f rs H1 H2. unfold handle_received_data.
  destruct (open_datagram P n data) as [[[o|]|e] n1] eqn:E.
  - apply open_datagram_inv in E. destruct (od_channel_peer o).
    + now apply H2 in E.
    + destruct E as [E _]. now apply H1 in E.
  - unfold open_datagram in E. destruct (parse_handshake _ _ _) as [[[[i v] ct]|]|e]; try discriminate.
    destruct (n_by_id n !! firstn 32 data) as [[pr h]|]; [|injection E as <-; auto].
    destruct (n_heap n !! h) as [c|]; [|injection E as <-; auto].
    destruct (channel_decrypt P c data pr) as [[v ct]|e]; discriminate.
  - unfold open_datagram in E. destruct (parse_handshake _ _ _) as [[[[i v] ct]|]|e']; try discriminate.
    + destruct (n_by_id n !! firstn 32 data) as [[pr h]|]; [|discriminate].
      destruct (n_heap n !! h) as [c|]; [|discriminate].
      destruct (channel_decrypt P c data pr) as [[v ct]|e']; [discriminate|]. injection E as _ <-. auto.
    + injection E as _ <-. auto.
Qed.

(** A datagram that is refused because of its source leaves the node unchanged. *)
Lemma unsigned_key : forall P fuel n now data f rs local contents packet key,
  came_directly P n data local contents -> parse_packet contents = Some packet ->
  ip_from packet = Some (PkEd25519 key) -> ~ signed_by P contents packet key ->
  o_signature_required (n_opts n) = true ->
  let '(o, ds, n') := handle_received_data P fuel n now data f rs in o <> Ok tt /\ ds = [] /\ n' = n.
Proof.
  intros P fuel n now data f rs local contents packet key [v Hd] Hpk Hf Hs Hr. unfold handle_received_data, open_datagram.
  rewrite Hd. cbn [od_version od_contents od_local od_channel_peer od_priority].
  destruct (match v with Some _ => _ | None => false end); [split; [discriminate|auto]|]. rewrite Hpk.
  destruct (check_packet P n now contents packet local None false f rs) as [o n2] eqn:Ec.
  assert (H : (exists e, o = Err e) /\ n2 = n).
  { unfold check_packet, packet_source in Ec. rewrite Hf in Ec. cbn [full_id] in Ec.
    destruct (valid_pub P key); [|injection Ec as <- <-; eauto]. cbv zeta in Ec.
    destruct (match ip_from_short packet with Some i => _ | None => _ end); [injection Ec as <- <-; eauto|].
    destruct (verify_packet P contents (ip_signature packet) key _) eqn:Ev; [injection Ec as <- <-; eauto|].
    exfalso. apply Hs. eapply verify_packet_none; [exact Ev|]. now left. }
  destruct H as [[e ->] ->]. split; [discriminate|auto].
Qed.

(** One packet that anybody can make replaces a channel; what comes over the old one is ignored from then on. *)
Lemma channel_stolen : forall P, prims_ok P -> forall fuel n now (local secret peer : bytes) p h c key own date temp f rs,
  n_keys n !! local = Some secret -> length local = 32%nat -> length peer = 32%nat ->
  get_peer n local peer = Some p -> current n peer h c ->
  length key = 32%nat -> length own = 32%nat -> valid_pub P key = true -> key <> ch_peer_key c -> ch_peer_date c < date < 2 ^ 32 ->
  let new := channel_new P local peer (p_channel_secret p) key date CtxConfirm in
  (forall a b, channel_in_id new a <> channel_in_id c b) -> (forall b, n_keys n !! channel_in_id c b = None) ->
  let '(o, ds, n') := handle_received_data P fuel n now
      (forged_datagram P temp local (pub_of P secret) peer (MConfirmChannel key own date) None) f rs in
  o = Ok tt /\ ds = [] /\ (exists h', current n' peer h' new) /\ ch_ready new = true
  /\ forall priority (data : bytes) now' f' rs', firstn 32 data = channel_in_id c priority ->
     let '(_, ds, n'') := handle_received_data P fuel n' now' data f' rs' in ds = [] /\ n'' = n'.
Proof.
  intros P HP fuel n now local secret peer p h c key own date temp f rs Hk Hl Hpl Hp [Hc1 Hc2] Hkl Hol Hv Hne [Hd1 Hd2] new Hids Hnk.
  rewrite (forged_processed P HP fuel n now local secret peer p); try assumption.
  2:{ split; [exact Hkl|]. split; [exact Hol|exact Hd2]. }
  2:{ discriminate. }
  cbn [process_messages process_message process_whole]. rewrite Hv. unfold create_channel.
  unfold get_peer in Hp. destruct (n_peers n !! local) as [ps|] eqn:Ep; [|discriminate Hp]. rewrite Hp, Hc1, Hc2.
  assert (Ev : is_still_valid c key date = false).
  { unfold is_still_valid. apply orb_false_iff. split; [apply bytes_eqb_neq; congruence|now apply N.leb_gt]. }
  cbv iota beta zeta. rewrite Ev. fold new. cbv iota. split; [reflexivity|]. split; [reflexivity|]. split.
  { eexists. split; cbn [set_channels n_by_peer n_heap]; apply lookup_insert. }
  split; [unfold new, channel_new; destruct (bytes_cmp local peer); reflexivity|].
  intros priority data now' f' rs' Hdata.
  set (n' := set_channels n _ _ _).
  assert (Hno : n_by_id n' !! firstn 32 data = None).
  { unfold n'. cbn [set_channels n_by_id]. rewrite Hdata.
    rewrite !lookup_insert_ne by apply Hids.
    destruct priority; [apply lookup_delete|]. destruct (decide (channel_in_id c true = channel_in_id c false)) as [->|E].
    - apply lookup_delete.
    - rewrite lookup_delete_ne by assumption. apply lookup_delete. }
  assert (Hnk' : n_keys n' !! firstn 32 data = None) by (unfold n'; cbn [set_channels n_keys]; rewrite Hdata; apply Hnk).
  clearbody n'.
  pose proof (unopened P fuel n' now' data f' rs') as Hu. apply Hu.
  - intros l ct [v H]. unfold parse_handshake in H. destruct (Nat.ltb (length data) 96); [discriminate|]. cbv beta zeta in H.
    match type of H with context [match ?x with Some _ => _ | None => _ end] => replace x with (@None bytes) in H by (symmetry; exact Hnk') end. discriminate.
  - intros l i ct (pr & h' & c' & v & H & _). congruence.
Qed.

(** One packet with a late date makes the node refuse every direct packet of the peer from then on. *)
Lemma peer_locked_out : forall P, prims_ok P -> forall fuel n now (local secret peer : bytes) p date temp f rs,
  n_keys n !! local = Some secret -> length local = 32%nat -> length peer = 32%nat ->
  get_peer n local peer = Some p -> date < 2 ^ 32 -> known_date p < date <= now + o_clock_tolerance (n_opts n) ->
  let '(o, ds, n1) := handle_received_data P fuel n now
      (forged_datagram P temp local (pub_of P secret) peer MNop (Some date)) f rs in
  o = Ok tt /\ ds = []
  /\ forall ops, Forall no_reset ops -> forall now' data contents packet dates f' rs',
     let n2 := run P fuel n1 ops in
     came_directly P n2 data local contents -> parse_packet contents = Some packet -> names P packet peer ->
     ip_reinit_dates packet = Some dates -> rd_local dates < date ->
     let '(o', ds', _) := handle_received_data P fuel n2 now' data f' rs' in o' <> Ok tt /\ ds' = [].
Proof.
  intros P HP fuel n now local secret peer p date temp f rs Hk Hl Hpl Hp Hdr [Hd1 Hd2].
  rewrite (forged_processed P HP fuel n now local secret peer p); try assumption.
  2: exact I.
  2:{ intros d E. injection E as <-. split; [exact Hdr|lia]. }
  cbn [process_messages process_message process_whole app]. split; [reflexivity|]. split; [reflexivity|].
  set (p' := snd (try_reinit_sender p date)).
  assert (Hkd : known_date p' = date).
  { unfold p', try_reinit_sender. unfold known_date in Hd1. destruct (N.compare_spec date (ss_reinit (p_send p))); [lia|lia|].
    destruct (negb _); reflexivity. }
  assert (Hp1 : get_peer (put_peer n local peer p') local peer = Some p').
  { apply get_put_same. unfold get_peer in Hp. destruct (n_peers n !! local); [eexists; reflexivity|discriminate]. }
  clearbody p'. intros ops Hops now' data contents packet dates f' rs' [v Hdd] Hpk Hn Hdt Hlt.
  destruct (dates_never_decrease P fuel ops _ _ _ _ Hops Hp1) as (p2 & Hp2 & Hle). set (n2 := run P fuel _ ops) in *.
  unfold handle_received_data, open_datagram. rewrite Hdd.
  cbn [od_version od_contents od_local od_channel_peer od_priority].
  destruct (match v with Some _ => _ | None => false end); [split; [discriminate|auto]|]. rewrite Hpk.
  destruct (check_packet P n2 now' contents packet local None false f' rs') as [[o|e] n3] eqn:Ec; [|split; [discriminate|auto]].
  exfalso. apply check_packet_inv in Ec as (i & chk & n4 & q & q2 & n5 & Hs & Hq & _ & Hr & _).
  assert (Hi : i = peer).
  { pose proof (packet_source_ok _ _ _ _ _ _ _ _ _ _ _ Hs) as Ho. cbv iota in Ho. unfold names in Hn.
    destruct (ip_from packet) as [k|].
    - destruct Ho as (k1 & -> & _ & -> & _). destruct Hn as (k2 & Hk2 & ->). congruence.
    - destruct Ho as [Ho _]. congruence. }
  subst i.
  assert (Hdates : peers_rel any_new dates_up n2 n4).
  { pose proof (packet_source_effect P n2 now' contents packet local None f') as He. rewrite Hs in He. cbn [snd] in He.
    destruct He as [->|(k & a & -> & _)]; [apply peers_rel_eq; [unfold dates_up; lia|reflexivity]|apply add_peer_dates]. }
  destruct Hdates as [_ Hrel]. specialize (Hrel local peer). rewrite Hp2, Hq in Hrel. unfold dates_up in Hrel.
  rewrite Hdt in Hr. unfold check_reinit in Hr.
  destruct (n_start n4 <? rd_target dates); [discriminate|]. destruct (now' + _ <? _); [discriminate|].
  unfold try_reinit_sender in Hr. unfold known_date in Hrel, Hle, Hkd.
  destruct (N.compare_spec (rd_local dates) (ss_reinit (p_send q))); [lia|discriminate|lia].
Qed.
