(** C103: broadcasts of users and the default options. *)
From stdpp Require Import gmap.
From Coq Require Import NArith.
From Verif.Base Require Import Bytes Res.
From Verif.Model Require Import Crypto Tl ProtoAdnl ProtoDht PeersSet Peer AdnlNode DhtStorage DhtNode DhtTasks Compression Fec Broadcast RldpTransfer Subscribers RldpNode Defaults OverlayApi.
From Verif.Spec Require Import Codec CryptoSpec FecSpec PeersSetSpec TransferSpec NodeSpec DhtSpec DhtNodeSpec DhtNetSpec PairSpec GossipSpec Sample DhtSample CompressionSpec RldpPairSpec DefaultsSpec.
From Verif.Spec Require RldpPairSample.
From Verif.Proof Require DefaultsFacts DefaultsRldp FecFacts.
Open Scope N_scope.

(** C103: whatever a user broadcasts with the default limit, everything that is sent is short enough for the
    connections between nodes (C72, C102), it is the given data, in the name of the given key or else of the node's, and
    goes to the given peers. *)
Theorem c103_carried : forall P z F overlay o neighbours node_key data source target picks, prims_ok P -> fec_ok F -> hash_ok overlay ->
  let call := broadcast_call default_ordinary_len o neighbours node_key data source target picks in
  can_be_carried P z F overlay false call
  /\ exists targets, asks_for call = Some (match source with Some k => k | None => node_key end, data, targets)
     /\ forall l, target = Explicit l -> targets = l.
Proof. exact DefaultsFacts.calls_carried. Qed.
Print Assumptions c103_carried.
Example c103_carried_example :
  let call n := broadcast_call default_ordinary_len default_overlay (peers_set_new 3) (secret_of 1) (repeat 5 (N.to_nat n)) None (Explicit [t_id 2]) [] in
  hash_ok t_overlay /\ call 768 = EvSend (secret_of 1) (repeat 5 (N.to_nat 768)) [t_id 2]
  /\ call 769 = EvSendFec (secret_of 1) (repeat 5 (N.to_nat 769)) [t_id 2].
Proof. split; [|split]; reflexivity. Qed.

(** C103: if no peers are given, the default options choose five different neighbours, or all if there are fewer. *)
Theorem c103_targets : forall c init l order,
  let s := snd (ps_inserts (with_peers_and_capacity init c) l) in
  sample_of (ps_len s) (ps_len s) order ->
  let r := chosen_targets default_overlay s RandomNeighbours order in
  List.NoDup r /\ (forall p : bytes, In p r -> In p (ps_members s)) /\ length r = Nat.min 5 (length (ps_members s)).
Proof. exact DefaultsFacts.default_targets. Qed.
Print Assumptions c103_targets.
Example c103_targets_example :
  let s := snd (ps_inserts (with_peers_and_capacity [t_id 1; t_id 2] 10) [t_id 3]) in
  sample_of (ps_len s) (ps_len s) [2; 0; 1]%nat /\ chosen_targets default_overlay s RandomNeighbours [2; 0; 1]%nat = [t_id 3; t_id 1; t_id 2].
Proof.
  split; [|vm_compute; reflexivity]. split; [|split].
  - repeat (constructor; [cbn; intuition discriminate|]). constructor.
  - intros i Hi. cbn in Hi. change (ps_len _) with 3%nat. intuition (subst; repeat constructor).
  - reflexivity.
Qed.

(** C103: a higher limit does not work: longer data is still sent in one piece, and no node can put the parts together
    again, whichever of them arrive. *)
Theorem c103_limit_refuted : forall P z overlay max_ordinary o neighbours node_key data source target picks date, prims_ok P -> hash_ok overlay ->
  2048 <= N.of_nat (length data) <= max_ordinary -> N.of_nat (length data) < 2 ^ 23 ->
  let key := match source with Some k => k | None => node_key end in
  let m := MCustom (the_message P z overlay false key data date) in
  broadcast_call max_ordinary o neighbours node_key data source target picks = EvSend key data (chosen_targets o neighbours target picks)
  /\ exists size, message_size m = Some size /\ forall x, Forall message_ok (extra_messages x) ->
     exists packets contents parts, plan P (extra_arg x) m size = Some packets /\ Forall2 carries packets contents
     /\ concat contents = extra_messages x ++ map part_message parts
     /\ forall fuel ts arrived,
        ts !! sha256 P (put_message m) = None ->
        (forall p, In p arrived -> pt_hash p = sha256 P (put_message m) -> In p parts) ->
        forall p o, In (p, o) (outcomes P fuel ts arrived) -> pt_hash p = sha256 P (put_message m) -> o = Transfer.Pending.
Proof. exact DefaultsFacts.too_long_sent. Qed.
Print Assumptions c103_limit_refuted.
Example c103_limit_example :
  let data := repeat 5 (N.to_nat 2048) in
  2048 <= N.of_nat (length data) <= 4096 /\ N.of_nat (length data) < 2 ^ 23 /\ Forall message_ok (extra_messages NoExtra).
Proof. intros data. unfold data. rewrite repeat_length, N2Nat.id. split; [split; discriminate|]. split; [reflexivity|constructor]. Qed.

(** C103: nodes with the default options can be the nodes of C19, C68, C72 and C102. *)
Theorem c103_party : forall secret channel addr start checks, addr_ok addr -> u32_ok start ->
  party_ok (mk_party secret channel addr start (default_adnl checks)).
Proof. exact DefaultsFacts.default_party. Qed.
Print Assumptions c103_party.

(** C103: a DHT node with the default options stores entries with names of up to 127 bytes and indices up to 15, and
    answers the lookups of the library with them. *)
Theorem c103_server : forall P, prims_ok P -> forall T (get : parser T) secret name data idx ttl x,
  let id := short_id P (pub_of P secret) in
  let v := sign_entry P secret id name idx data ttl in
  let key := sha256 P (put_dht_key_boxed (mk_dht_key id name idx)) in
  entry_ok name idx data ttl -> deserialize get data = Some x -> N.of_nat (length name) <= 127 -> idx <= 15 ->
  forall server e, d_opts server = default_dht -> qe_now e < ttl ->
  (forall old, d_storage server !! key = Some old -> dv_ttl old < ttl) ->
  let query := put_dht_query (DqStore v) in
  let server1 := snd (dht_receive P e server query) in
  let reply := put_value_result (VrFound v) in
  fst (dht_receive P e server query) = Ok (Some put_dht_stored)
  /\ forall ops now, now < ttl -> Forall (nothing_else P v now) (stores ops) ->
     let server2 := dht_run P server1 ops in
     (forall e', qe_now e' < ttl -> dht_receive P e' server2 (lookup_query key) = (Ok (Some reply), server2))
     /\ forall client now fresh, parse_value_result P get client now fresh reply = (Ok (Some (dv_key v, x)), client).
Proof. exact DefaultsFacts.default_server. Qed.
Print Assumptions c103_server.
(** The names the library itself uses are short enough, and a new node is such a server. *)
Example c103_server_example :
  let server := dht_new light (t_adnl 3) (sample_bytes 2) default_dht in
  prims_ok light /\ d_opts server = default_dht /\ entry_ok key_address 0 [1; 2; 3] 3000 /\ entry_ok key_nodes 0 [1; 2; 3] 3000
  /\ N.of_nat (length key_address) <= 127 /\ N.of_nat (length key_nodes) <= 127 /\ (forall key : bytes, d_storage server !! key = None).
Proof.
  split; [exact light_ok|]. split; [reflexivity|]. split; [repeat split; reflexivity|]. split; [repeat split; reflexivity|].
  split; [discriminate|]. split; [discriminate|]. intros key. apply lookup_empty.
Qed.

(** C103: between RLDP nodes with the default options, after every history, a query of up to 10485705 bytes can be answered
    with up to 10485717 bytes, and then its result is that answer (payloads that look like compressed data aside). *)
Theorem c103_rldp : forall E F z checked alice bob i qid now p a (subs : list (subscriber E)) (pre : list (pair_event E)),
  fec_ok F -> hash_ok i -> hash_ok qid -> decompress z p = None -> decompress z a = None ->
  N.of_nat (length p) <= 10485760 - 55 -> N.of_nat (length a) <= 10485760 - 43 ->
  fst (process_query subs p) = Ok (Processed (Some a)) ->
  let w := mk_rldp_world F 2000000 checked z default_rldp default_rldp alice bob in
  private_run w i rldp_pair_new pre ->
  let s0 := pair_run w rldp_pair_new pre in
  let k := length (rn_queries (rp_alice s0)) in
  let s1 := pair_step (E:=E) w s0 (AtAlice (NQuery bob i qid now p)) in
  exists cs, forallb RldpPairSample.plain cs = true
    /\ (forall k subs', In (RldpPairSample.Bob (NAnswerTurn k subs')) cs -> subs' = subs)
    /\ alice_result w (pair_run w s1 (RldpPairSample.events_of w s1 cs)) k = Some (RAnswered a).
Proof. exact DefaultsRldp.default_rldp_answered. Qed.
Print Assumptions c103_rldp.
Example c103_rldp_example :
  let p := [1; 2; 3; 4] in let a := [9; 9] in
  fec_ok toy_fec /\ decompress toy_zstd p = None /\ decompress toy_zstd a = None /\ fst (process_query (RldpPairSample.t_subs a) p) = Ok (Processed (Some a)).
Proof. split; [exact FecFacts.toy_fec_ok|]. repeat split. Qed.
