(** C47, C48, C65: the peers of an overlay. *)
From stdpp Require Import gmap.
From Coq Require Import NArith.
From Verif.Base Require Import Bytes Res.
From Verif.Model Require Import Crypto Tl Scheme ProtoAdnl ProtoOverlay Peer AdnlNode PeersSet OverlayPeers.
From Verif.Spec Require Import CryptoSpec Sample DhtSpec DhtSample OverlaySpec OverlaySample.
From Verif.Proof Require OverlayPeersFacts.
Open Scope N_scope.

(** C47: every peer an overlay knows, sends broadcasts to or tells others about is one of the peers
    it was created with or presented a record signed for this overlay, and is not the node itself. *)
Theorem c47_peers : forall P id key initial m picks ops,
  let o := overlay_run P (overlay_new key id initial m picks) ops in
  let self := node_id P (pub_of P key) in
  let verified := fun p => exists n, In n (flat_map offered ops) /\ record_of P id self p n in
  (forall p, is_known_peer o p = true -> In p initial \/ verified p)
  /\ (forall p amount except picks', In p (broadcast_targets o amount except picks') -> In p initial \/ verified p)
  /\ (forall p, In p (ps_members (ov_neighbours o)) -> In p initial \/ verified p)
  /\ (forall p n, ov_nodes o !! p = Some n -> In n (flat_map offered ops) /\ record_of P id self p n)
  /\ (forall k n, fst (take_new_peers o) !! k = Some n ->
        In n (flat_map gossiped ops) /\ signed_node P id n /\ on_id n <> PkEd25519 (pub_of P key)).
Proof. exact OverlayPeersFacts.peers_are_verified. Qed.
Print Assumptions c47_peers.

(** C47: a peer is added exactly when its record is signed for this overlay and the ADNL node accepts
    it; then it is active, and otherwise nothing changes. *)
Theorem c47_added : forall P id key initial m picks ops adnl addr n fresh,
  let o := overlay_run P (overlay_new key id initial m picks) ops in
  let self := node_id P (pub_of P key) in
  let '(r, o', _) := add_public_peer P o adnl addr n fresh in
  (forall p, r = Ok (Some p) <-> record_of P id self p n /\ acceptable adnl self p addr)
  /\ match r with
     | Ok (Some p) =>
       is_active_public_peer o' p = true
       /\ (ps_is_full (ov_neighbours o) = false -> ps_contains (ov_neighbours o') p = true)
       /\ exists kept, ov_nodes o' !! p = Some kept /\ on_version n <= on_version kept
     | _ => o' = o
     end.
Proof. exact OverlayPeersFacts.added_is_active. Qed.
Print Assumptions c47_added.

(** C47: when many records are added at once, the peers reported as added are exactly those. *)
Theorem c47_many : forall P id key initial m picks ops adnl l,
  let o := overlay_run P (overlay_new key id initial m picks) ops in
  let self := node_id P (pub_of P key) in
  let '(r, _, _) := add_public_peers P o adnl l in
  (is_Some (n_peers adnl !! self) -> exists ps, r = Ok ps)
  /\ forall ps, r = Ok ps -> forall p, List.In p ps <->
       exists addr n fresh, List.In (addr, n, fresh) l /\ record_of P id self p n /\ acceptable adnl self p addr.
Proof. exact OverlayPeersFacts.many_added. Qed.
Print Assumptions c47_many.

Example c47_example :
  ps_members (ov_known t_ov) = [t_id 2; t_id 4] /\ ps_members (ov_neighbours t_ov) = [t_id 2; t_id 4]
  /\ ov_nodes t_ov !! t_id 2 = Some (t_member 2 6)
  /\ map_to_list (ov_received t_ov) = [(put_public_key (PkEd25519 (t_key 5)), t_member 5 4)]
  /\ fst (fst (add_public_peer brief t_ov (t_adnl 3) (addr_of 5) (t_member 5 4) (secret_of 95))) = Ok (Some (t_id 5))
  /\ fst (fst (add_public_peer brief t_ov (t_adnl 3) (addr_of 3) (t_member 3 4) (secret_of 95))) = Ok None
  /\ fst (fst (add_public_peers brief t_ov (t_adnl 3) [(addr_of 5, t_member 5 4, secret_of 95); (addr_of 3, t_member 3 4, secret_of 96)]))
     = Ok [t_id 5].
Proof. vm_compute. auto 10. Qed.

(** C48 as stated is false: the removed peer still receives broadcasts. *)
Theorem c48_refuted :
  exists P, prims_ok P /\ exists id key m ops p picks,
    let o := overlay_run P (overlay_new key id [] m []) ops in
    let '(removed, o') := remove_public_peer o p picks in
    removed = true /\ is_active_public_peer o' p = false
    /\ In p (ps_members (ov_neighbours o')) /\ broadcast_targets o' 5 None [0]%nat = [p].
Proof.
  exists brief. split; [exact brief_ok|].
  exists t_overlay, (secret_of 3), 2, [OvAdd (t_adnl 3) (addr_of 2) (t_member 2 5) (secret_of 91)], (t_id 2), [0%nat].
  vm_compute. auto 10.
Qed.
Print Assumptions c48_refuted.

(** C48, what holds: after its removal and until a record of it is offered again, a peer is not
    active, is not handed out as a cached peer, and once it is not a neighbour it is not one again.
    Missing: it is not taken out of the neighbours when it is removed. *)
Theorem c48_removed_partial : forall P id key initial m picks ops p picks' later,
  let o := snd (remove_public_peer (overlay_run P (overlay_new key id initial m picks) ops) p picks') in
  Forall (fun op => ~ offers P p op) later ->
  let o' := overlay_run P o later in
  is_active_public_peer o' p = false
  /\ (forall c l amount picks'', let dst := snd (ps_inserts (peers_set_new c) l) in
        ps_contains dst p = false -> ps_contains (write_cached_peers o' amount dst picks'') p = false)
  /\ (~ In p (ps_members (ov_neighbours o)) ->
      ~ In p (ps_members (ov_neighbours o')) /\ forall amount except picks'', ~ In p (broadcast_targets o' amount except picks'')).
Proof. exact OverlayPeersFacts.removed_peer. Qed.
Print Assumptions c48_removed_partial.

Example c48_example :
  is_active_public_peer t_ov (t_id 2) = true
  /\ let o := snd (remove_public_peer t_ov (t_id 2) [0; 1]%nat) in
     is_active_public_peer o (t_id 2) = false
     /\ Forall (fun op => ~ offers brief (t_id 2) op)
          [OvUpdate 1 [0; 1]%nat; OvAdd (t_adnl 3) (addr_of 5) (t_member 5 4) (secret_of 95)]
     /\ ps_members (write_cached_peers o 2 (peers_set_new 5) [0; 1]%nat) = [t_id 4].
Proof.
  split; [vm_compute; reflexivity|]. cbv zeta. split; [vm_compute; reflexivity|]. split; [|vm_compute; reflexivity].
  constructor; [intros (n & k & [] & _)|]. constructor; [|constructor].
  intros (n & k & [<-|[]] & Hk & Hp). injection Hk as <-. revert Hp. vm_compute. discriminate.
Qed.

(** C65: what a node tells about random peers: itself and at most four neighbours, each at most once,
    all with records signed for this overlay; another member accepts every record but its own. *)
Theorem c65_answer : forall P id key initial m picks ops now picks',
  prims_ok P ->
  let o := overlay_run P (overlay_new key id initial m picks) ops in
  let answer := prepare_random_peers P o now picks' in
  let self := node_id P (pub_of P key) in
  (length answer <= 5)%nat
  /\ Forall (signed_node P id) answer
  /\ List.NoDup (map on_id answer)
  /\ (exists own rest, answer = own :: rest /\ on_id own = PkEd25519 (pub_of P key) /\ on_version own = now
      /\ (forall n, In n rest -> exists p, In p (ps_members (ov_neighbours o)) /\ record_of P id self p n
                                           /\ In n (flat_map offered ops)))
  /\ (forall other n, ov_id other = id -> In n answer -> on_id n <> PkEd25519 (pub_of P (ov_key other)) ->
        In n (filter_nodes P other answer)).
Proof. exact OverlayPeersFacts.random_peers_answer. Qed.
Print Assumptions c65_answer.

(** C65: the received peers are the newest valid record of each node since they were last taken. *)
Theorem c65_received : forall P id key initial m picks ops,
  let o := overlay_run P (overlay_new key id initial m picks) ops in
  let valid := fun n => signed_node P id n /\ on_id n <> PkEd25519 (pub_of P key) in
  (forall k n, fst (take_new_peers o) !! k = Some n -> In n (since_taken ops) /\ valid n /\ k = put_public_key (on_id n))
  /\ (forall n, In n (since_taken ops) -> valid n ->
        exists newest, fst (take_new_peers o) !! put_public_key (on_id n) = Some newest
                       /\ on_version n <= on_version newest).
Proof. exact OverlayPeersFacts.received_newest. Qed.
Print Assumptions c65_received.

(** C65: the peers learned from an answer. *)
Theorem c65_exchange : forall P o existing answer p,
  In p (new_random_peers P o existing answer)
  <-> existing p = false
      /\ exists n key, In n answer /\ signed_node P (ov_id o) n /\ on_id n = PkEd25519 key
         /\ key <> pub_of P (ov_key o) /\ p = node_id P key.
Proof. exact OverlayPeersFacts.new_peers_of_answer. Qed.
Print Assumptions c65_exchange.

Example c65_example :
  let answer := prepare_random_peers brief t_ov 1000 [1; 0]%nat in
  answer = [t_member 3 1000; t_member 4 7; t_member 2 6]
  /\ new_random_peers brief (overlay_new (secret_of 4) t_overlay [] 2 []) (fun p => bytes_eqb p (t_id 3)) answer = [t_id 2]
  /\ since_taken t_ov_ops = [t_member 5 1; t_stranger; t_member 3 1; t_member 5 4; t_member 5 3].
Proof. vm_compute. auto. Qed.
