(** C71: a signature is good for one purpose only, and so is an identifier. *)
From stdpp Require Import gmap.
From Coq Require Import NArith.
From Verif.Base Require Import Bytes Res.
From Verif.Model Require Import Crypto Tl Scheme ProtoAdnl ProtoRldp ProtoDht ProtoOverlay Channel AdnlNode DhtStorage DhtNode Compression Fec
  OverlayPeers Broadcast OverlayNode.
From Verif.Spec Require Import Codec CryptoSpec CompressionSpec FecSpec DhtSpec OverlaySpec Sample DhtSample BroadcastSpec BroadcastSample
  InPlaceSpec SignedSpec.
From Verif.Proof Require SignedFacts.
Open Scope N_scope.

(** C71: two different statements never put the same bytes under a signature. *)
Theorem c71_one_meaning : forall P s1 s2,
  prims_ok P -> statement_ok s1 -> statement_ok s2 -> separate P (hashed P s1 ++ hashed P s2) ->
  text P s1 = text P s2 -> s1 = s2.
Proof. intros P s1 s2 HP. exact (SignedFacts.text_inj P HP s1 s2). Qed.
Print Assumptions c71_one_meaning.

(** C71: so whatever verifies as a statement of a node was said by that node, with that meaning. *)
Theorem c71_only_what_was_said : forall P key said st sg,
  prims_ok P -> only_says P key said -> List.Forall statement_ok said -> statement_ok st ->
  separate P (hashed P st ++ flat_map (hashed P) said) -> stated_by P key st sg -> In st said.
Proof. intros P key said st sg HP. exact (SignedFacts.only_what_was_said P HP key said st sg). Qed.
Print Assumptions c71_only_what_was_said.

(** C71: nothing but statements is signed. *)
Theorem c71_signs_statements : forall P secret,
  (forall p, exists contents, put_out_packet p = text P (StPacket contents))
  /\ (forall o now, on_signature (sign_overlay_node P o now) = sign P (ov_key o) (text P (StMember (ov_local_id P o) (ov_id o) now)))
  /\ (forall d now, let n := sign_local_node P d now in
       dn_signature n = sign P (d_key d) (text P (StAddress (dn_id n) (dn_addr_list n) (dn_version n))))
  /\ (forall id name idx data ttl, let v := sign_entry P secret id name idx data ttl in
       kd_signature (dv_key v) = sign P secret (text P (StKey (kd_key (dv_key v)) (kd_id (dv_key v)) (kd_rule (dv_key v))))
       /\ dv_signature v = sign P secret (text P (StValue (dv_key v) (dv_value v) (dv_ttl v))))
  /\ (forall z o data date, let b := own_broadcast P z o secret data date in
       ob_signature b = sign P secret (text P (StBroadcast (repeat 0 32) data date)))
  /\ (forall F id payload date esi, let b := own_fec_packet P F secret id payload date esi in
       bf_signature b = sign P secret (text P (StPart (repeat 0 32) (bf_data_hash b) (bf_data_size b) (bf_flags b) (bf_fec b)
                                                 (bf_data b) (bf_seqno b) date))).
Proof. exact SignedFacts.all_signed. Qed.
Print Assumptions c71_signs_statements.

(** C71: a packet is accepted as signed when its sender stated that very packet. *)
Theorem c71_packet : forall P raw q sg key mandatory,
  bytes_ok raw = true -> N.of_nat (length raw) < 2 ^ 16 ->
  parse_packet raw = Some q -> ip_signature q = Some sg -> verify_packet P raw (ip_signature q) key mandatory = None ->
  exists contents, stated_by P key (StPacket contents) (ps_signature sg)
  /\ parse_packet (text P (StPacket contents)) = Some (without_signature q).
Proof. exact SignedFacts.packet_checked. Qed.
Print Assumptions c71_packet.

(** C71: a member of an overlay stated that it is one. *)
Theorem c71_member : forall P overlay n, verify_overlay_node P overlay n = true ->
  exists key, on_id n = PkEd25519 key
  /\ stated_by P key (StMember (identifier P (SbNode key)) overlay (on_version n)) (on_signature n).
Proof. exact SignedFacts.member_checked. Qed.
Print Assumptions c71_member.

(** C71: the owner of a signed DHT value stated the key and the value. *)
Theorem c71_value : forall P v, check_signatures P v = Ok tt ->
  exists key, kd_id (dv_key v) = PkEd25519 key
  /\ stated_by P key (StKey (kd_key (dv_key v)) (kd_id (dv_key v)) (kd_rule (dv_key v))) (kd_signature (dv_key v))
  /\ stated_by P key (StValue (dv_key v) (dv_value v) (dv_ttl v)) (dv_signature v).
Proof. exact SignedFacts.value_checked. Qed.
Print Assumptions c71_value.

(** C71: a new DHT peer stated its address. *)
Theorem c71_address : forall P d now fresh n id d', add_dht_peer P d now fresh n = (Ok (Some id), d') ->
  exists key, dn_id n = PkEd25519 key /\ id = identifier P (SbNode key)
  /\ stated_by P key (StAddress (dn_id n) (dn_addr_list n) (dn_version n)) (dn_signature n).
Proof. exact SignedFacts.address_checked. Qed.
Print Assumptions c71_address.

(** C71: the origin of a broadcast stated it (see C51 and C52 for which broadcasts are genuine). *)
Theorem c71_broadcast : forall P z b data from, genuine_broadcast P z b data from ->
  exists key, ob_src b = PkEd25519 key /\ from = identifier P (SbNode key)
  /\ stated_by P key (StBroadcast (source_field (ob_flags b) from) data (ob_date b)) (ob_signature b).
Proof. exact SignedFacts.broadcast_checked. Qed.
Print Assumptions c71_broadcast.
Theorem c71_part : forall P b id from, genuine_packet P b id from ->
  exists key, bf_src b = PkEd25519 key /\ from = identifier P (SbNode key)
  /\ stated_by P key (StPart (source_field (bf_flags b) from) id (bf_data_size b) (bf_flags b) (bf_fec b) (bf_data b)
                        (bf_seqno b) (bf_date b)) (bf_signature b).
Proof. exact SignedFacts.part_checked. Qed.
Print Assumptions c71_part.

(** C71: identifiers of different things differ. *)
Theorem c71_identifiers : forall P a b,
  subject_ok a -> subject_ok b -> separate P [subject_text a; subject_text b] ->
  identifier P a = identifier P b -> a = b.
Proof. exact SignedFacts.same_subject. Qed.
Print Assumptions c71_identifiers.
Theorem c71_identifiers_used : forall P key secret name workchain zero_state unique_hash nodes k,
  short_id P key = identifier P (SbNode key)
  /\ compute_channel_id P secret = identifier P (SbChannel secret)
  /\ overlay_short_id P name = identifier P (SbOverlay name)
  /\ workchain_overlay P workchain zero_state = identifier P (SbWorkchain workchain zero_state)
  /\ catchain_overlay P unique_hash nodes = identifier P (SbCatchain unique_hash nodes)
  /\ storage_key P k = identifier P (SbKey k).
Proof. exact SignedFacts.identifiers. Qed.
Print Assumptions c71_identifiers_used.

(** C71: overlays of different workchains and validator groups are different overlays. *)
Theorem c71_overlays_differ : forall P a b,
  prims_ok P -> (match a with SbWorkchain _ _ | SbCatchain _ _ => True | _ => False end) ->
  subject_ok a -> subject_ok b ->
  separate P [subject_text a; subject_text b; subject_text (SbOverlay (identifier P a)); subject_text (SbOverlay (identifier P b))] ->
  overlay_short_id P (identifier P a) = overlay_short_id P (identifier P b) -> a = b.
Proof. intros P a b HP. exact (SignedFacts.overlays_differ P HP a b). Qed.
Print Assumptions c71_overlays_differ.

(** C71 does not extend to the overlay a broadcast was meant for: a broadcast sent in one overlay is
    delivered in any other, in the name of its sender, once somebody changes the overlay in front of it. *)
Theorem c71_overlay_refuted : forall P z checks F react ga gb id1 id2 ia ib secret data targets,
  prims_ok P -> zstd_ok z -> hash_ok id2 -> bytes_ok data = true -> N.of_nat (length data) < 2 ^ 32 ->
  gr_overlays ga !! id1 = Some ia -> gr_overlays gb !! id2 = Some ib ->
  let date := now_sec (in_broadcasts ia) in
  let packed := bo_compress (in_options ia) in
  let cb := setup_of P z checks F id2 ib in
  let bid := sha256 P (broadcast_claim P 1 [] data date) in
  N.of_nat (length (wire cb packed data)) < 2 ^ 24 ->
  (forall u, decompress z (wire cb packed data) = Some u -> u <> data ->
     ~ signed_by P (pub_of P secret) (broadcast_claim P 1 [] u date) (sign P secret (broadcast_claim P 1 [] data date))) ->
  br_owned (in_broadcasts ia) !! bid = None -> br_owned (in_broadcasts ib) !! bid = None ->
  timely cb (in_broadcasts ib) date ->
  exists ia' rest,
    gr_overlays (group_step P z checks F react ga (GoBroadcasts id1 (EvSend secret data targets))) !! id1 = Some ia'
    /\ br_sent (in_broadcasts ia') = br_sent (in_broadcasts ia) ++ [(targets, put_overlay_message id1 ++ rest)]
    /\ forall peer picks,
       let '(r, gb') := on_message P z checks gb peer id_overlay_message (put_overlay_message id2 ++ rest) picks in
       r = Ok true
       /\ exists ib', gr_overlays gb' !! id2 = Some ib'
          /\ br_delivered (in_broadcasts ib') = br_delivered (in_broadcasts ib) ++ [mk_delivery bid 1 data (node_id P (pub_of P secret))].
Proof. exact SignedFacts.replayed_elsewhere. Qed.
Print Assumptions c71_overlay_refuted.

(** Two statements that need two hashes to be told apart, and two ids of the same kind. *)
Example c71_example :
  let a := StBroadcast (repeat 0 32) [1; 2; 3] 100 in
  let b := StPart (repeat 0 32) (repeat 7 32) 3 1 (mk_fec_type 3 768 1) [4; 5; 6] 0 100 in
  statement_ok a /\ statement_ok b /\ separate toy (hashed toy a ++ hashed toy b) /\ hashed toy a <> []
  /\ subject_ok (SbWorkchain 0 (repeat 1 32)) /\ subject_ok (SbCatchain (repeat 1 32) [repeat 2 32; repeat 3 32]).
Proof.
  cbv zeta. split; [now split|]. split; [now repeat split|]. split.
  - apply SignedFacts.distinct_separate. vm_compute. reflexivity.
  - split; [discriminate|]. split; [now split|]. split; [reflexivity|]. split; [now repeat constructor|reflexivity].
Qed.

(** A sender and a receiver in different overlays. *)
Example c71_overlay_example :
  let o := bs_options (t_bc 10 0) in
  let other := repeat 6 32 in
  let ga := group_step brief toy_zstd true toy_fec (fun _ _ _ => None) (group_new (secret_of 1)) (GoPublic t_overlay 5 o 100000) in
  let gb := group_step brief toy_zstd true toy_fec (fun _ _ _ => None) (group_new (secret_of 2)) (GoPublic other 5 o 100000) in
  let i := instance_new (secret_of 2) other [] 5 o 100000 [] in
  let cb := setup_of brief toy_zstd true toy_fec other i in
  gr_overlays ga !! t_overlay = Some (instance_new (secret_of 1) t_overlay [] 5 o 100000 [])
  /\ gr_overlays gb !! other = Some i
  /\ decompress toy_zstd (wire cb false [1; 2; 3]) = None
  /\ br_owned (in_broadcasts i) !! t_ordinary_id 100 = None
  /\ timely cb (in_broadcasts i) 100 /\ hash_ok other /\ other <> t_overlay.
Proof.
  cbv zeta. split; [exact (lookup_insert ∅ t_overlay _)|]. split; [exact (lookup_insert ∅ (repeat 6 32) _)|].
  split; [vm_compute; reflexivity|]. split; [vm_compute; reflexivity|]. split; [split; vm_compute; [reflexivity|discriminate]|].
  split; [reflexivity|]. intros E. assert (H : nth 31 (repeat 6 32) 0 = nth 31 t_overlay 0) by now rewrite E. revert H. vm_compute. discriminate.
Qed.
