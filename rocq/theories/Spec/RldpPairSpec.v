(** Two RLDP nodes and the network between them. *)
From stdpp Require Import gmap.
From Coq Require Import NArith.
From Verif.Base Require Import Bytes Res.
From Verif.Model Require Import ProtoRldp Compression Subscribers Fec RldpTransfer RldpQuery RldpNode.
From Verif.Spec Require Import CompressionSpec FecSpec RldpSpec.
Open Scope N_scope.

(** What both nodes are built from, their options and their addresses (ADNL ids). *)
Record rldp_world := mk_rldp_world {
  rw_fec : fec; rw_slice : N; rw_checked : bool; rw_zstd : zstd;
  rw_alice : rldp_options; rw_bob : rldp_options; rw_alice_id : bytes; rw_bob_id : bytes }.
Definition world_ok (w : rldp_world) : Prop :=
  fec_ok (rw_fec w) /\ 0 < rw_slice w /\ rw_slice w < u32_max.

(** The nodes, and everything they have sent so far, with destinations. *)
Record rldp_pair := mk_rldp_pair {
  rp_alice : rldp_node; rp_bob : rldp_node;
  rp_from_alice : list (bytes * message_part); rp_from_bob : list (bytes * message_part) }.
Definition rldp_pair_new : rldp_pair := mk_rldp_pair rldp_node_new rldp_node_new [] [].

(** Something happens at one of them. *)
Inductive pair_event (E : Type) := AtAlice (ev : rldp_event E) | AtBob (ev : rldp_event E).
Arguments AtAlice {E} ev.
Arguments AtBob {E} ev.

Section world.
Context {E : Type} (w : rldp_world).

Definition pair_step (s : rldp_pair) (ev : pair_event E) : rldp_pair :=
  match ev with
  | AtAlice ev =>
      let (n, out) := rldp_step (rw_fec w) (rw_slice w) (rw_checked w) (rw_zstd w) (rw_alice w) (rp_alice s) ev in
      mk_rldp_pair n (rp_bob s) (rp_from_alice s ++ out) (rp_from_bob s)
  | AtBob ev =>
      let (n, out) := rldp_step (rw_fec w) (rw_slice w) (rw_checked w) (rw_zstd w) (rw_bob w) (rp_bob s) ev in
      mk_rldp_pair (rp_alice s) n (rp_from_alice s) (rp_from_bob s ++ out)
  end.
Definition pair_run (s : rldp_pair) (evs : list (pair_event E)) : rldp_pair := fold_left pair_step evs s.

(** The transfer a message belongs to. *)
Definition message_id (m : message_part) : bytes :=
  match m with MpPart id _ _ _ _ _ | MpConfirm id _ _ | MpComplete id _ => id end.
(** The two transfers of the query [id]: there and back. *)
Definition of_query (id k : bytes) : Prop := k = id \/ k = negate_id id.

(** As far as the transfers of query [id] are concerned: what arrives at one node was sent to it by the
    other one (perhaps long ago, perhaps it arrived before), and nobody else chose this id for a query.
    Messages of other transfers are arbitrary and may come from anyone. *)
Definition private (id : bytes) (s : rldp_pair) (ev : pair_event E) : Prop :=
  match ev with
  | AtAlice (NMessage peer m) =>
      of_query id (message_id m) -> peer = rw_bob_id w /\ In (rw_alice_id w, m) (rp_from_bob s)
  | AtBob (NMessage peer m) =>
      of_query id (message_id m) -> peer = rw_alice_id w /\ In (rw_bob_id w, m) (rp_from_alice s)
  | AtAlice (NQuery _ k _ _ _) | AtBob (NQuery _ k _ _ _) => ~ of_query id k
  | _ => True
  end.
Fixpoint private_run (id : bytes) (s : rldp_pair) (evs : list (pair_event E)) : Prop :=
  match evs with
  | [] => True
  | ev :: r => private id s ev /\ private_run id (pair_step s ev) r
  end.

(** Whenever Bob's subscribers are asked the query [q], they react in the same way. *)
Definition bob_gives (q : bytes) (given : res (query_error E) processed) (evs : list (pair_event E)) : Prop :=
  forall k subs, In (AtBob (NAnswerTurn k subs)) evs -> fst (process_query subs q) = given.

(** Bob's subscribers were asked [q], on behalf of Alice's query [id]. *)
Definition bob_asked (s : rldp_pair) (id q : bytes) : Prop :=
  exists log, In (rw_alice_id w, id, log) (rn_asked (rp_bob s)) /\ hd_error log = Some (0%nat, q).

(** How often Bob's subscribers were asked for the query [id], and whether Bob has forgotten it. *)
Definition bob_calls (s : rldp_pair) (id : bytes) : nat :=
  length (List.filter (fun e => bytes_eqb (snd (fst e)) id) (rn_asked (rp_bob s))).
Definition bob_forgot (s : rldp_pair) (id : bytes) : Prop :=
  exists a, In a (rn_answers (rp_bob s)) /\ an_id a = id /\ an_stage a = AEnded.

(** The timer of Bob's answer to the query [id] has not come yet; Bob has received all of [d] as this
    query. *)
Definition bob_waits (s : rldp_pair) (id : bytes) : Prop :=
  forall a, In a (rn_answers (rp_bob s)) -> an_id a = id -> an_timer a = true.
Definition bob_received (s : rldp_pair) (id d : bytes) : Prop :=
  exists rc, In rc (rn_receivers (rp_bob s)) /\ it_id (rc_transfer rc) = id /\ it_data (rc_transfer rc) = d.

(** What Bob's subscribers see of the payload [p], and what Alice sees of the answer [a] to it. *)
Definition as_asked (p : bytes) : bytes := received_payload (rw_zstd w) (sent_payload (rw_zstd w) (ro_force (rw_alice w)) p).
Definition on_the_wire (p a : bytes) : bytes :=
  sent_payload (rw_zstd w)
    (match decompress (rw_zstd w) (sent_payload (rw_zstd w) (ro_force (rw_alice w)) p) with
     | Some _ => true | None => ro_force (rw_bob w) end) a.
Definition as_answered (p a : bytes) : bytes := received_payload (rw_zstd w) (on_the_wire p a).

(** The result of Alice's query number [k], once there is one. *)
Definition alice_result (s : rldp_pair) (k : nat) : option rldp_result :=
  match nth_error (rn_queries (rp_alice s)) k with Some q => query_returns (rw_zstd w) q | None => None end.
End world.
