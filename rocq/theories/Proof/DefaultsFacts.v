(** Broadcasts of users, and the default options. *)
From stdpp Require Import gmap.
From Coq Require Import NArith Lia.
From Coq Require Import ZifyBool ZifyNat ZifyN.
From Verif.Base Require Import Bytes BytesFacts Res.
From Verif.Model Require Import Crypto Tl Scheme ProtoAdnl ProtoDht ProtoOverlay PeersSet Peer Transfer AdnlNode DhtStorage DhtNode DhtTasks
  Compression Fec OverlayPeers Broadcast OverlayNode Defaults OverlayApi.
From Verif.Spec Require Import Codec CryptoSpec FecSpec PeersSetSpec TransferSpec NodeSpec DhtSpec DhtNodeSpec DhtNetSpec BroadcastSpec PairSpec TalkSpec GossipSpec
  LongSpec DefaultsSpec.
From Verif.Spec Require GossipFecSpec.
From Verif.Proof Require Import TlFacts TransferFacts SplitFacts PeersSetFacts HearFacts DhtTripFacts OverlayTripFacts LongSamples.
From Verif.Proof Require RldpQueryFacts.
Open Scope N_scope.

Lemma calls_carried : forall P z F overlay o neighbours node_key data source target picks, prims_ok P -> fec_ok F -> hash_ok overlay ->
  let call := broadcast_call default_ordinary_len o neighbours node_key data source target picks in
  can_be_carried P z F overlay false call
  /\ exists targets, asks_for call = Some (match source with Some k => k | None => node_key end, data, targets)
     /\ forall l, target = Explicit l -> targets = l.
Proof.
  intros P z F overlay o neighbours node_key data source target picks HP HF Ho. unfold broadcast_call, default_ordinary_len. cbv zeta.
  destruct (N.leb_spec (N.of_nat (length data)) 768) as [Hl|Hl]; cbn [can_be_carried asks_for].
  - split; [intros date; now apply broadcast_fits|]. eexists. split; [reflexivity|]. intros l ->. reflexivity.
  - split; [intros date esi; now apply parts_fit|]. eexists. split; [reflexivity|]. intros l ->. reflexivity.
Qed.

Lemma no_repeats_before : forall (l m : list nat), List.NoDup (l ++ m) -> List.NoDup l.
Proof.
  induction l as [|x l IH]; intros m H; [constructor|]. inversion H as [|? ? H1 H2]; subst. constructor; [|now apply (IH m)].
  intros Hi. apply H1. apply in_or_app. now left.
Qed.
Lemma first_picks : forall n k picks, sample_of n n picks -> sample_of n k (firstn k picks).
Proof.
  intros n k picks (H1 & H2 & H3). rewrite Nat.min_id in H3. split; [|split].
  - rewrite <- (firstn_skipn k picks) in H1. apply no_repeats_before in H1. exact H1.
  - intros i Hi. apply H2. rewrite <- (firstn_skipn k picks). apply in_or_app. now left.
  - rewrite firstn_length. lia.
Qed.
Lemma default_targets : forall c init l order,
  let s := snd (ps_inserts (with_peers_and_capacity init c) l) in
  sample_of (ps_len s) (ps_len s) order ->
  let r := chosen_targets default_overlay s RandomNeighbours order in
  List.NoDup r /\ (forall p : bytes, In p r -> In p (ps_members s)) /\ length r = Nat.min 5 (length (ps_members s)).
Proof.
  intros c init l order s Hs r. apply (first_picks _ 5) in Hs.
  destruct (random_selection c init l 5 None (firstn 5 order)) as (H1 & H2 & H3); [reflexivity|exact Hs|].
  split; [exact H1|]. split; [intros p Hp; now apply (H2 p)|].
  assert (He : forall l : list bytes, eligible [] l = l).
  { clear. induction l as [|p r IH]; [reflexivity|]. unfold eligible in *. cbn [List.filter]. now rewrite IH. }
  rewrite He in H3. exact H3.
Qed.

Lemma too_long_sent : forall P z overlay max_ordinary o neighbours node_key data source target picks date, prims_ok P -> hash_ok overlay ->
  2048 <= N.of_nat (length data) <= max_ordinary -> N.of_nat (length data) < 2 ^ 23 ->
  let key := match source with Some k => k | None => node_key end in
  let m := MCustom (the_message P z overlay false key data date) in
  broadcast_call max_ordinary o neighbours node_key data source target picks = EvSend key data (chosen_targets o neighbours target picks)
  /\ exists size, message_size m = Some size /\ forall x, Forall message_ok (extra_messages x) ->
     exists packets contents parts, plan P (extra_arg x) m size = Some packets /\ Forall2 carries packets contents
     /\ concat contents = extra_messages x ++ map part_message parts
     /\ forall fuel ts arrived,
        ts !! sha256 P (put_message m) = None ->
        (forall p, In p arrived -> pt_hash p = sha256 P (put_message m) -> In p parts) ->
        forall p o, In (p, o) (outcomes P fuel ts arrived) -> pt_hash p = sha256 P (put_message m) -> o = Pending.
Proof.
  intros P z overlay max_ordinary o neighbours node_key data source target picks date HP Ho [Hl Hmax] Hb key m. split.
  - unfold broadcast_call. fold key. replace (N.of_nat (length data) <=? max_ordinary) with true by lia. reflexivity.
  - eexists. split; [reflexivity|]. intros x Hx.
    assert (Hlen : N.of_nat (length data) <= N.of_nat (length (the_message P z overlay false key data date)) <= N.of_nat (length data) + 300).
    { unfold the_message, overlay_message, put_overlay_message, the_broadcast, own_broadcast. cbn [put_broadcast bo_compress]. unfold put_ov_broadcast.
      cbn [ob_src ob_certificate ob_flags ob_data ob_date ob_signature put_public_key put_certificate]. unfold put_hash, put_u32.
      rewrite !app_length, ?le_bytes_length, Ho, (pub_len P HP).
      pose proof (RldpQueryFacts.put_bytes_length (sign P key (broadcast_to_sign P data date None))) as H1.
      rewrite (sign_len P HP) in H1. change (N.of_nat 64) with 64 in H1.
      pose proof (RldpQueryFacts.put_bytes_length data) as H2. lia. }
    assert (Hok : message_ok m).
    { cbn [message_ok m]. unfold blob_ok. lia. }
    apply (long_never_arrives P HP x m _ Hok eq_refl Hx).
    assert (longest x <= 2048) by (destruct x; cbn; lia).
    unfold m. cbn [put_message]. rewrite len_app.
    pose proof (put_bytes_bounds (the_message P z overlay false key data date)) as [[Hp _] _]. unfold len in *. lia.
Qed.

Lemma default_party : forall secret channel addr start checks, addr_ok addr -> u32_ok start ->
  party_ok (mk_party secret channel addr start (default_adnl checks)).
Proof. intros secret channel addr start checks Ha Hs. split; [exact Ha|]. split; [exact Hs|]. split; [reflexivity|]. now left. Qed.

Lemma default_server : forall P, prims_ok P -> forall T (get : parser T) secret name data idx ttl x,
  let id := short_id P (pub_of P secret) in
  let v := sign_entry P secret id name idx data ttl in
  let key := sha256 P (put_dht_key_boxed (mk_dht_key id name idx)) in
  entry_ok name idx data ttl -> deserialize get data = Some x -> N.of_nat (length name) <= 127 -> idx <= 15 ->
  forall server e, d_opts server = default_dht -> qe_now e < ttl ->
  (forall old, d_storage server !! key = Some old -> dv_ttl old < ttl) ->
  let query := put_dht_query (DqStore v) in
  let server1 := snd (dht_receive P e server query) in
  let reply := put_value_result (VrFound v) in
  fst (dht_receive P e server query) = Ok (Some put_dht_stored)
  /\ forall ops now, now < ttl -> Forall (nothing_else P v now) (stores ops) ->
     let server2 := dht_run P server1 ops in
     (forall e', qe_now e' < ttl -> dht_receive P e' server2 (lookup_query key) = (Ok (Some reply), server2))
     /\ forall client now fresh, parse_value_result P get client now fresh reply = (Ok (Some (dv_key v, x)), client).
Proof.
  intros P HP T get secret name data idx ttl x id v key Hentry Hdata Hn Hi server e Hd He Hold query server1 reply.
  destruct (@DhtTripFacts.stored_and_found P HP T get secret name data idx ttl x Hentry Hdata server e He) as (H1 & _ & H2);
    [rewrite Hd; exact Hn|rewrite Hd; exact Hi|rewrite Hd; discriminate|exact Hold|].
  split; [exact H1|]. intros ops now Hnow Hops. destruct (H2 ops now Hnow Hops) as (H3 & _ & H4). split; [exact H3|exact H4].
Qed.
