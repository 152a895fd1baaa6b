(** C82: who can disturb a connection. *)
From stdpp Require Import gmap.
From Coq Require Import NArith Lia.
From Verif.Base Require Import Bytes BytesFacts Res.
From Verif.Model Require Import Crypto Tl Scheme ProtoAdnl Channel Peer AdnlNode.
From Verif.Spec Require Import Codec CryptoSpec ChannelSpec NodeSpec Sample.
From Verif.Proof Require Import CutOffFacts.
Open Scope N_scope.

(** C82: a datagram that opens neither with a key of the node nor with a channel changes nothing and
    delivers nothing. *)
Theorem c82_unopened : forall P fuel n now data f rs,
  (forall local contents, ~ came_directly P n data local contents) ->
  (forall local peer contents, ~ came_by_channel P n data local peer contents) ->
  let '(_, ds, n') := handle_received_data P fuel n now data f rs in ds = [] /\ n' = n.
Proof. exact unopened. Qed.
Print Assumptions c82_unopened.
Example c82_unopened_example : let data := repeat 7 200 in
  (forall local contents, ~ came_directly light bob2 data local contents)
  /\ (forall local peer contents, ~ came_by_channel light bob2 data local peer contents).
Proof.
  intros data.
  assert (Ek : n_keys bob2 !! firstn 32 data = None) by (vm_compute; reflexivity).
  assert (Ei : n_by_id bob2 !! firstn 32 data = None) by (vm_compute; reflexivity).
  assert (Eh : Handshake.parse_handshake light (fun i => n_keys bob2 !! i) data = Ok None) by (vm_compute; reflexivity).
  split.
  - intros local contents [v H]. rewrite Eh in H. discriminate H.
  - intros local peer contents (pr & h & c & v & H & _). rewrite Ei in H. discriminate H.
Qed.

(** C82: nor does a packet in the name of a public key without its signature, if signatures are required. *)
Theorem c82_unsigned : forall P fuel n now data f rs local contents packet key,
  came_directly P n data local contents -> parse_packet contents = Some packet ->
  ip_from packet = Some (PkEd25519 key) -> ~ signed_by P contents packet key ->
  o_signature_required (n_opts n) = true ->
  let '(o, ds, n') := handle_received_data P fuel n now data f rs in o <> Ok tt /\ ds = [] /\ n' = n.
Proof. exact unsigned_key. Qed.
Print Assumptions c82_unsigned.
Example c82_unsigned_example :
  let contents := put_u32 id_packet_contents ++ put_bytes [1; 2; 3] ++ put_u32 5
    ++ put_public_key (PkEd25519 (key_of 1)) ++ put_message MNop ++ put_bytes [4; 5; 6] in
  let data := Handshake.build_handshake light (secret_of 9) (id_of 2) (key_of 2) contents (Some 0) in
  came_directly light bob2 data (id_of 2) contents
  /\ (exists packet, parse_packet contents = Some packet /\ ip_from packet = Some (PkEd25519 (key_of 1))
      /\ ~ signed_by light contents packet (key_of 1))
  /\ o_signature_required (n_opts bob2) = true.
Proof.
  intros contents data. split; [exists (Some 0); vm_compute; reflexivity|]. split; [|vm_compute; reflexivity].
  eexists. split; [vm_compute; reflexivity|]. split; [vm_compute; reflexivity|].
  intros (s & t & g & H & _). cbn [ip_signature] in H. discriminate H.
Qed.

(** C82 is false: whoever knows the public key of a node and the id of one of its peers can replace the channel
    between them by one with a key of their own choice.  No secret is needed and no signature, although
    they are required.  Everything the peer sends over its channel is ignored from then on. *)
Theorem c82_channel_refuted : forall P, prims_ok P ->
  forall fuel n now (local secret peer : bytes) p h c key own date temp f rs,
  n_keys n !! local = Some secret -> length local = 32%nat -> length peer = 32%nat ->
  get_peer n local peer = Some p -> current n peer h c ->
  length key = 32%nat -> length own = 32%nat -> valid_pub P key = true -> key <> ch_peer_key c -> ch_peer_date c < date < 2 ^ 32 ->
  let new := channel_new P local peer (p_channel_secret p) key date CtxConfirm in
  (forall a b, channel_in_id new a <> channel_in_id c b) -> (forall b, n_keys n !! channel_in_id c b = None) ->
  let '(o, ds, n') := handle_received_data P fuel n now
      (forged_datagram P temp local (pub_of P secret) peer (MConfirmChannel key own date) None) f rs in
  o = Ok tt /\ ds = [] /\ (exists h', current n' peer h' new) /\ ch_ready new = true
  /\ forall priority (data : bytes) now' f' rs', firstn 32 data = channel_in_id c priority ->
     let '(_, ds, n'') := handle_received_data P fuel n' now' data f' rs' in ds = [] /\ n'' = n'.
Proof. exact channel_stolen. Qed.
Print Assumptions c82_channel_refuted.
Example c82_channel_example : exists p h c,
  n_keys bob2 !! id_of 2 = Some (secret_of 2) /\ length (id_of 2) = 32%nat /\ length (id_of 1) = 32%nat
  /\ get_peer bob2 (id_of 2) (id_of 1) = Some p /\ current bob2 (id_of 1) h c /\ ch_ready c = true
  /\ length (key_of 9) = 32%nat /\ valid_pub light (key_of 9) = true /\ key_of 9 <> ch_peer_key c /\ ch_peer_date c < 1001
  /\ o_signature_required (n_opts bob2) = true
  /\ let new := channel_new light (id_of 2) (id_of 1) (p_channel_secret p) (key_of 9) 1001 CtxConfirm in
     (forall a b, channel_in_id new a <> channel_in_id c b) /\ (forall b, n_keys bob2 !! channel_in_id c b = None).
Proof.
  do 3 eexists. split; [vm_compute; reflexivity|]. split; [vm_compute; reflexivity|]. split; [vm_compute; reflexivity|].
  split; [vm_compute; reflexivity|]. split; [split; vm_compute; reflexivity|]. split; [vm_compute; reflexivity|].
  split; [vm_compute; reflexivity|]. split; [vm_compute; reflexivity|].
  split; [apply bytes_eqb_neq; vm_compute; reflexivity|]. split; [vm_compute; reflexivity|]. split; [vm_compute; reflexivity|].
  split.
  - intros [|] [|]; apply bytes_eqb_neq; vm_compute; reflexivity.
  - intros [|]; vm_compute; reflexivity.
Qed.

(** C82 is false: in the same way they can make the node believe that the peer restarted at a later time.
    Every direct packet of the peer is then refused, whatever else is sent or received, until the peer
    is removed or a query of the node times out. *)
Theorem c82_date_refuted : forall P, prims_ok P -> forall fuel n now (local secret peer : bytes) p date temp f rs,
  n_keys n !! local = Some secret -> length local = 32%nat -> length peer = 32%nat ->
  get_peer n local peer = Some p -> date < 2 ^ 32 -> known_date p < date <= now + o_clock_tolerance (n_opts n) ->
  let '(o, ds, n1) := handle_received_data P fuel n now
      (forged_datagram P temp local (pub_of P secret) peer MNop (Some date)) f rs in
  o = Ok tt /\ ds = []
  /\ forall ops, Forall no_reset ops -> forall now' data contents packet dates f' rs',
     let n2 := run P fuel n1 ops in
     came_directly P n2 data local contents -> parse_packet contents = Some packet -> names P packet peer ->
     ip_reinit_dates packet = Some dates -> rd_local dates < date ->
     let '(o', ds', _) := handle_received_data P fuel n2 now' data f' rs' in o' <> Ok tt /\ ds' = [].
Proof. exact peer_locked_out. Qed.
Print Assumptions c82_date_refuted.
Example c82_date_example :
  (exists p, get_peer bob2 (id_of 2) (id_of 1) = Some p /\ known_date p = 100)
  /\ n_keys bob2 !! id_of 2 = Some (secret_of 2) /\ o_clock_tolerance (n_opts bob2) = 60
  /\ (exists contents packet dates, came_directly light bob2 letter1 (id_of 2) contents /\ parse_packet contents = Some packet
      /\ names light packet (id_of 1) /\ ip_reinit_dates packet = Some dates /\ rd_local dates = 100).
Proof.
  split; [eexists; split; vm_compute; reflexivity|]. split; [vm_compute; reflexivity|]. split; [vm_compute; reflexivity|].
  do 3 eexists. split; [eexists; vm_compute; reflexivity|]. split; [vm_compute; reflexivity|].
  split; [eexists; split; vm_compute; reflexivity|]. split; [vm_compute; reflexivity|]. vm_compute. reflexivity.
Qed.
