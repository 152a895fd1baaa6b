(** Two nodes that know each other, a network between them that may lose, repeat, delay and
    reorder what they send, and anybody else. *)
From stdpp Require Import gmap.
From Coq Require Import NArith.
From Verif.Base Require Import Bytes Res.
From Verif.Model Require Import Crypto Encryption Tl ProtoAdnl Channel Peer AdnlNode.
From Verif.Spec Require Import Codec ChannelSpec NodeSpec BystanderSpec.
Open Scope N_scope.

(** One of the two: its key, the channel key it uses for the other one, its address, start time
    and options. *)
Record party := mk_party
  { pa_secret : bytes; pa_channel : bytes; pa_addr : sockaddr; pa_start : N; pa_opts : options }.
Definition party_key (P : prims) (x : party) : bytes := pub_of P (pa_secret x).
Definition party_id (P : prims) (x : party) : bytes := id_of_key P (party_key P x).

(** Its node, after it was told about the other one. *)
Definition party_node (P : prims) (x y : party) : node :=
  snd (add_peer
    (node_new (pa_addr x) (pa_start x) (pa_opts x) None {[party_id P x := pa_secret x]})
    CtxDht (party_id P x) (party_id P y) (pa_addr y) (party_key P y) (pa_channel x)).

(** The ids of the four one-way channels the two can have; they are hashes of different secrets. *)
Definition channel_ids (P : prims) (x y : party) : list bytes :=
  let secret := dh P (pa_channel x) (pub_of P (pa_channel y)) in
  map (fun s => sha256 P (put_public_key (PkAes s)))
    [secret; build_priority_secret secret; rev secret; build_priority_secret (rev secret)].

Definition party_ok (x : party) : Prop :=
  addr_ok (pa_addr x) /\ u32_ok (pa_start x) /\ o_loopback (pa_opts x) = false
  /\ (o_version (pa_opts x) = None \/ o_version (pa_opts x) = Some 0).
Definition parties_ok (P : prims) (x y : party) : Prop :=
  party_ok x /\ party_ok y /\ pa_addr x <> pa_addr y
  /\ List.NoDup (party_id P x :: party_id P y :: channel_ids P x y).

Inductive who := Alice | Bob.
Definition other (w : who) : who := match w with Alice => Bob | Bob => Alice end.
Definition pick_who {A} (w : who) (a b : A) : A := match w with Alice => a | Bob => b end.

(** A datagram under way, with what it was sent for. *)
Record letter := mk_letter
  { lt_from : who; lt_time : N; lt_message : message; lt_dest : sockaddr; lt_data : bytes }.

(** The nodes, everything ever sent, and the letters (by position) that arrived at least once. *)
Record pair := mk_pair { pr_alice : node; pr_bob : node; pr_letters : list letter; pr_seen : list nat }.
Definition node_of (s : pair) (w : who) : node := pick_who w (pr_alice s) (pr_bob s).
Definition pair_start (P : prims) (a b : party) : pair :=
  mk_pair (party_node P a b) (party_node P b a) [] [].

(** The node of [w] became [n']: what it sent meanwhile is under way. *)
Definition changed (s : pair) (w : who) (n' : node) (now : N) (m : message) (seen : list nat) : pair :=
  let posted := map (fun d => mk_letter w now m (fst d) (snd d)) (skipn (length (n_out (node_of s w))) (n_out n')) in
  mk_pair (pick_who w n' (pr_alice s)) (pick_who w (pr_bob s) n') (pr_letters s ++ posted) seen.

Section pair.
Variables (P : prims) (fuel : nat) (a b : party).
Definition id_of_who (w : who) : bytes := party_id P (pick_who w a b).

(** [w] sends a message to the other one. *)
Definition says (s : pair) (w : who) (now : N) (m : message) (priority : bool) (r : rnd) : pair :=
  changed s w
    (snd (send_message P (node_of s w) now (id_of_who w) (id_of_who (other w)) m priority (fun _ => r)))
    now m (pr_seen s).

(** The letter arrives; [now] is the clock of the receiver. *)
Definition arrival (s : pair) (l : letter) (now : N) (fresh : bytes) (rs : nat -> rnd)
  : res node_error unit * list delivery * node :=
  handle_received_data P fuel (node_of s (other (lt_from l))) now (lt_data l) fresh rs.
Definition gets (s : pair) (i : nat) (l : letter) (now : N) (fresh : bytes) (rs : nat -> rnd) : pair :=
  changed s (other (lt_from l)) (snd (arrival s l now fresh rs)) now MNop (i :: pr_seen s).

(** Messages that fit into one packet. *)
Definition small_payload (m : message) : Prop :=
  message_ok m
  /\ match m with
     | MAnswer _ d | MQuery _ d => N.of_nat (length d) <= 908
     | MCustom d => N.of_nat (length d) <= 940
     | MNop => True
     | _ => False
     end.
(** No letter happens to look like a packet with a version. *)
Definition plain (l : letter) : Prop :=
  o_version (pa_opts (pick_who (lt_from l) a b)) = None ->
  ~ accidentally_versioned P 32 (lt_data l) /\ ~ accidentally_versioned P 64 (lt_data l).
Definition may_say (s : pair) (w : who) (now : N) (m : message) (priority : bool) (r : rnd) : Prop :=
  u32_ok now /\ small_payload m /\ length (r_bytes r) = 10%nat
  /\ N.of_nat (length (pr_letters s)) < 2 ^ 62
  /\ List.Forall plain (pr_letters (says s w now m priority r)).

(** The letter arrives while the address in it is valid, and the start of the sender does not lie
    in the receiver's future. *)
Definition timely (l : letter) (now : N) : Prop :=
  let sender := pick_who (lt_from l) a b in
  let receiver := pick_who (other (lt_from l)) a b in
  pa_start sender <= now + o_clock_tolerance (pa_opts receiver)
  /\ now <= lt_time l + o_address_list_timeout (pa_opts sender)
  /\ lt_time l + o_address_list_timeout (pa_opts sender) < 2 ^ 32.
Definition may_get (s : pair) (i : nat) (l : letter) (now : N) : Prop :=
  nth_error (pr_letters s) i = Some l /\ timely l now.

(** Something else happens at the node of [w]: it adds, removes or sends to other peers, receives
    anything that is not from the other one of the two, or drops something after a timeout.  The channels
    with others do not have the ids of the channels of the two. *)
Definition elsewhere (s : pair) (w : who) (o : op) : pair :=
  let n' := step P fuel (node_of s w) o in
  mk_pair (pick_who w n' (pr_alice s)) (pick_who w (pr_bob s) n') (pr_letters s) (pr_seen s).
Definition may_happen (s : pair) (w : who) (o : op) : Prop :=
  ~ concerns P (node_of s w) o (id_of_who w) (id_of_who (other w))
  /\ forall h c priority, n_heap (step P fuel (node_of s w) o) !! h = Some c -> ch_peer c <> id_of_who (other w) ->
     ~ In (channel_in_id c priority) (channel_ids P a b).

(** Everything that can happen: any letter may arrive any number of times, at any time, or never, and
    both nodes may have to do with others. *)
Inductive exchange : pair -> Prop :=
| ex_start : exchange (pair_start P a b)
| ex_says : forall s w now m priority r, exchange s -> may_say s w now m priority r ->
    exchange (says s w now m priority r)
| ex_gets : forall s i l now fresh rs, exchange s -> may_get s i l now ->
    exchange (gets s i l now fresh rs)
| ex_else : forall s w o, exchange s -> may_happen s w o -> exchange (elsewhere s w o).

(** What the layers above the receiver are given when a letter is accepted. *)
Definition shown (l : letter) : list delivery :=
  match delivered_as (id_of_who (other (lt_from l))) (id_of_who (lt_from l)) (lt_message l) with
  | Some d => [d]
  | None => []
  end.

(** The channel of [w] with the other one. *)
Definition channel_of (s : pair) (w : who) : option channel :=
  match n_by_peer (node_of s w) !! id_of_who (other w) with
  | Some h => n_heap (node_of s w) !! h
  | None => None
  end.
Definition uses_channel (s : pair) (w : who) : Prop :=
  exists c, channel_of s w = Some c /\ ch_ready c = true.

(** One sends and the other one receives it. *)
Record turn := mk_turn
  { tn_who : who; tn_sent : N; tn_message : message; tn_priority : bool; tn_rnd : rnd;
    tn_received : N; tn_fresh : bytes; tn_rnds : nat -> rnd }.
Definition sent_in (s : pair) (t : turn) : pair :=
  says s (tn_who t) (tn_sent t) (tn_message t) (tn_priority t) (tn_rnd t).
Definition last_letter (s : pair) : option letter := nth_error (pr_letters s) (length (pr_letters s) - 1).
Definition take_turn (s : pair) (t : turn) : pair :=
  let s' := sent_in s t in
  match last_letter s' with
  | Some l => gets s' (length (pr_letters s') - 1) l (tn_received t) (tn_fresh t) (tn_rnds t)
  | None => s'
  end.
Definition may_turn (s : pair) (t : turn) : Prop :=
  may_say s (tn_who t) (tn_sent t) (tn_message t) (tn_priority t) (tn_rnd t)
  /\ forall l, last_letter (sent_in s t) = Some l -> timely l (tn_received t).
End pair.

(** A sample: the history is enabled, packets carry version 0. *)
Definition pair_options : options := mk_options 60 30 1000 true true false (Some 0) true.
Definition sample_bytes (k : N) : bytes := map (fun i => (k * (N.of_nat i + 1)) mod 256) (seq 0 32).
Definition sample_alice : party :=
  mk_party (sample_bytes 1) (sample_bytes 51) (mk_sockaddr 0x0a000001 30001) 100 pair_options.
Definition sample_bob : party :=
  mk_party (sample_bytes 2) (sample_bytes 52) (mk_sockaddr 0x0a000002 30002) 200 pair_options.
Definition pair_rnd (k : N) : rnd := mk_rnd [1; 2; 3; 4; 5; 6; 7; 8; 9; 10] (sample_bytes k).
Definition sample_turn (w : who) (now : N) (m : message) (priority : bool) : turn :=
  mk_turn w now m priority (pair_rnd now) (now + 1) (sample_bytes 99) (fun _ => pair_rnd 7).
Definition turn1 : turn := sample_turn Bob 1000 (MCustom [1]) false.
Definition turn2 : turn := sample_turn Alice 1010 (MQuery (sample_bytes 3) [2]) true.
Definition turn3 : turn := sample_turn Bob 1020 (MAnswer (sample_bytes 3) [3]) true.
