(** C90: packets go where the peer is known to be and tell where their sender is. *)
From stdpp Require Import gmap.
From Coq Require Import NArith Lia.
From Verif.Base Require Import Bytes Res.
From Verif.Model Require Import Crypto Tl ProtoAdnl History Channel Handshake Peer AdnlNode.
From Verif.Spec Require Import CryptoSpec NodeSpec AddressingSpec Sample.
From Verif.Proof Require Import AddressingFacts.
Open Scope N_scope.

(** C90: a message that was accepted for sending leaves as one or more packets.  All go to the address known of
    the peer (or over the loopback interface), and say at which address the node itself is to be found.  Once a
    channel is ready they go over it and only over it: the urgent way if the user wants it and the peer was heard
    there or was not yet tried eleven times.  Before that they are sealed for the key of the peer.  Packets of a
    kind are numbered without gaps. *)
Theorem c90_sent : forall P n now l i m priority rs n' p,
  send_message P n now l i m priority rs = (Ok tt, n') -> get_peer n l i = Some p ->
  let room := 2 ^ 64 - N.of_nat (length (n_out n') - length (n_out n)) in
  ss_seqno false (p_send p) < room -> ss_seqno true (p_send p) < room ->
  exists packets dest own, packets <> [] /\ addressed n (peer_addr p) dest own
  /\ n_out n' = n_out n ++ map (fun x => (dest, on_route P n i (p_key p) (fst x) (snd x))) packets
  /\ Forall (fun x => introduces n now own (snd x)) packets
  /\ (forall h c, current n i h c -> ch_ready c = true ->
      Forall (fun x => exists pr, fst x = Over c pr) packets
      /\ map (fun x => (match route_kind (fst x) with Some pr => pr | None => false end, op_seqno (snd x))) packets
         = numbered priority (negb (h_seqno (rs_history true (p_recv p)) =? 0)) (ss_seqno false (p_send p))
             (ss_seqno true (p_send p)) (length packets))
  /\ ((forall h c, current n i h c -> ch_ready c = false) ->
      Forall (fun x => route_kind (fst x) = None) packets
      /\ map (fun x => op_seqno (snd x)) packets
         = map (fun k => ss_seqno false (p_send p) + 1 + N.of_nat k) (seq 0 (length packets))).
Proof. exact messages_routed. Qed.
Print Assumptions c90_sent.
(** Alice has a ready channel with Bob and wants a message to be sent the urgent way. *)
Example c90_sent_example :
  let r := send_message light alice1 1004 (id_of 1) (id_of 2) (MCustom [7]) true sample_rnd in
  (fst r, length (n_out alice1), length (n_out (snd r))) = (Ok tt, 2%nat, 3%nat)
  /\ option_map (fun p => (peer_addr p, ss_seqno false (p_send p), ss_seqno true (p_send p)))
       (get_peer alice1 (id_of 1) (id_of 2)) = Some (addr_of 2, 2, 0)
  /\ (match n_by_peer alice1 !! id_of 2 with Some h => option_map ch_ready (n_heap alice1 !! h) | None => None end) = Some true
  /\ numbered true false 2 0 3 = [(true, 1); (true, 2); (true, 3)]
  /\ numbered true false 2 9 4 = [(true, 10); (true, 11); (false, 3); (false, 4)]
  /\ numbered true true 2 9 3 = [(true, 10); (true, 11); (true, 12)].
Proof.
  intros r. split; [vm_compute; reflexivity|]. split; [vm_compute; reflexivity|].
  split; [vm_compute; reflexivity|].
  split; [vm_compute; reflexivity|]. split; vm_compute; reflexivity.
Qed.

(** C90: an address told in a packet sealed for the node is used from then on, unless the node declines it; then
    nothing changes. *)
Theorem c90_learned : forall P fuel n now data f rs ds n' local contents i a,
  handle_received_data P fuel n now data f rs = (Ok tt, ds, n') ->
  came_directly P n data local contents -> tells_address P n contents i a -> is_Some (n_peers n !! local) ->
  (~ declined n local i a -> get_peer_address n' local i = Some a)
  /\ (declined n local i a -> get_peer_address n' local i = get_peer_address n local i).
Proof. exact address_learned. Qed.
Print Assumptions c90_learned.

(** C90: there is no other way to change the known address of a peer by packets. *)
Theorem c90_origin : forall P fuel n now data f rs o ds n' l i,
  handle_received_data P fuel n now data f rs = (o, ds, n') ->
  get_peer_address n' l i <> get_peer_address n l i ->
  exists contents a, came_directly P n data l contents /\ tells_address P n contents i a
    /\ get_peer_address n' l i = Some a.
Proof. exact address_origin. Qed.
Print Assumptions c90_origin.
(** Bob, who never heard of Alice, gets her letter. *)
Example c90_learned_example :
  let n := sample_node 2 sample_options in
  let r := handle_received_data light 10 n 1001 letter1 (secret_of 99) sample_rnd in
  (fst (fst r), length (snd (fst r))) = (Ok tt, 1%nat)
  /\ get_peer_address n (id_of 2) (id_of 1) = None
  /\ get_peer_address (snd r) (id_of 2) (id_of 1) = Some (addr_of 1).
Proof. intros n r. split; [vm_compute; reflexivity|]. split; vm_compute; reflexivity. Qed.
