(** C78: how channels are keyed, and when they are replaced. *)
From stdpp Require Import gmap.
From Coq Require Import NArith Lia.
From Verif.Base Require Import Bytes Res.
From Verif.Model Require Import Crypto Tl ProtoAdnl Channel Peer AdnlNode.
From Verif.Spec Require Import CryptoSpec ChannelSpec NodeSpec Sample.
From Verif.Proof Require Import ChannelFacts.
Open Scope N_scope.

(** C78: the peer with the smaller id receives with the shared secret and sends with the reversed one, the
    other peer the other way round.  The secrets for priority packets are these with the bytes of each pair
    exchanged, and all four are announced by their hashes. *)
Theorem c78_keys : forall P local peer secret key date ctx,
  let c := channel_new P local peer secret key date ctx in
  let s := dh P secret key in
  (smaller local peer -> sc_secret (pick false (ch_in c)) = s /\ sc_secret (pick false (ch_out c)) = rev s)
  /\ (smaller peer local -> sc_secret (pick false (ch_in c)) = rev s /\ sc_secret (pick false (ch_out c)) = s)
  /\ (local = peer -> sc_secret (pick false (ch_in c)) = s /\ sc_secret (pick false (ch_out c)) = s)
  /\ pairs_exchanged (sc_secret (pick false (ch_in c))) (sc_secret (pick true (ch_in c)))
  /\ pairs_exchanged (sc_secret (pick false (ch_out c))) (sc_secret (pick true (ch_out c)))
  /\ forall priority, sc_id (pick priority (ch_in c)) = known_as P (sc_secret (pick priority (ch_in c)))
      /\ sc_id (pick priority (ch_out c)) = known_as P (sc_secret (pick priority (ch_out c))).
Proof. exact keys_derived. Qed.
Print Assumptions c78_keys.
Example c78_keys_example :
  smaller [1; 2; 3] [1; 4; 0] /\ pairs_exchanged [1; 2; 3; 4] [2; 1; 4; 3]
  /\ length (dh light (secret_of 1) (key_of 2)) = 32%nat.
Proof.
  split; [|split; [split; [reflexivity|]|vm_compute; reflexivity]].
  - exists [1], 2, 4, [3], [0]. split; [reflexivity|split; reflexivity].
  - intros [|[|i]] Hi; [split; reflexivity|split; reflexivity|]. cbn [length] in Hi. lia.
Qed.

(** C78: when a proposal or a confirmation of a channel comes from a peer, the channel in use stays (and
    becomes ready by a confirmation) if it has the same key or a date that is not older; otherwise,
    or if there is none, a new channel takes its place. *)
Theorem c78_replaced : forall P fuel n local peer key date ps p,
  n_peers n !! local = Some ps -> ps !! peer = Some p -> valid_pub P key = true ->
  forall m, (m = MCreateChannel key date \/ exists own, m = MConfirmChannel key own date) ->
  let n' := snd (process_message P fuel n local peer m) in
  let confirmed := match m with MConfirmChannel _ _ _ => true | _ => false end in
  let new := channel_new P local peer (p_channel_secret p) key date (if confirmed then CtxConfirm else CtxCreate) in
  (forall h c, current n peer h c -> key = ch_peer_key c \/ date <= ch_peer_date c ->
     current n' peer h (if confirmed then set_ready c else c))
  /\ (forall h c, current n peer h c -> key <> ch_peer_key c -> ch_peer_date c < date ->
     exists h', n_heap n !! h' = None /\ current n' peer h' new)
  /\ (n_by_peer n !! peer = None -> exists h', n_heap n !! h' = None /\ current n' peer h' new).
Proof. exact proposal. Qed.
Print Assumptions c78_replaced.
Example c78_replaced_example : exists ps p h c,
  n_peers bob2 !! id_of 2 = Some ps /\ ps !! id_of 1 = Some p /\ current bob2 (id_of 1) h c
  /\ valid_pub light (key_of 9) = true /\ bytes_eqb (key_of 9) (ch_peer_key c) = false
  /\ ch_peer_date c = 1000.
Proof.
  do 4 eexists. split; [vm_compute; reflexivity|]. split; [vm_compute; reflexivity|].
  split; [split; vm_compute; reflexivity|]. split; [vm_compute; reflexivity|]. split; vm_compute; reflexivity.
Qed.
