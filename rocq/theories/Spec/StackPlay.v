(** Histories of RLDP for the ADNL layers to carry out. *)
From stdpp Require Import gmap.
From Coq Require Import NArith.
From Verif.Base Require Import Bytes Res.
From Verif.Model Require Import Crypto ProtoAdnl ProtoRldp Channel Peer AdnlNode Fec Compression Subscribers RldpTransfer RldpQuery RldpNode.
From Verif.Spec Require Import Codec NodeSpec BystanderSpec RldpSpec RldpPairSample RldpPairSpec PairSpec StackSpec.
Open Scope N_scope.

Section play.
Context {E : Type} (P : prims) (a b : party) (w : rldp_world).

(** What [x] sends goes to the other one, its numbers fit into their fields, and it needs one datagram. *)
Definition fine_out (x : who) (e : bytes * message_part) : Prop :=
  fst e = id_of_who P a b (other x) /\ message_part_ok (snd e) /\ small_payload (as_custom (snd e)).
Definition at_of (ev : pair_event E) : who * rldp_event E := match ev with AtAlice ev => (Alice, ev) | AtBob ev => (Bob, ev) end.
Definition outs_of (r : rldp_pair) (ev : pair_event E) : list (bytes * message_part) := sends w r (fst (at_of ev)) (snd (at_of ev)).
Fixpoint fine_run (r : rldp_pair) (cs : list (command E)) : Prop :=
  match cs with
  | [] => True
  | c :: cs =>
      match event_of w r c with
      | Some ev => List.Forall (fine_out (fst (at_of ev))) (outs_of r ev) /\ fine_run (pair_step w r ev) cs
      | None => fine_run r cs
      end
  end.

(** The piece of data in the message is one symbol of the encoder of the code, or smaller. *)
Definition short_piece (m : message_part) : Prop :=
  match m with MpPart _ _ _ _ _ d => N.of_nat (length d) <= 768 | _ => True end.

(** How many messages both have sent, and which of them arrive. *)
Definition total_sent (r : rldp_pair) : nat := length (rp_from_alice r) + length (rp_from_bob r).
Definition targets (cs : list (command E)) : list (who * nat) :=
  flat_map (fun c => match c with ToBob k => [(Alice, k)] | ToAlice k => [(Bob, k)] | _ => [] end) cs.
(** Each at most once, and only messages which are not sent yet; otherwise only tasks of RLDP run. *)
Definition tidy (r : rldp_pair) (cs : list (command E)) : Prop :=
  List.NoDup (targets cs)
  /\ (forall x k, In (x, k) (targets cs) -> (length (sent_by r x) <= k)%nat)
  /\ Forall (fun c => match c with RldpPairSample.Alice (NMessage _ _) | RldpPairSample.Bob (NMessage _ _) => False | _ => True end) cs.

(** At time [T] neither finds the packets of the other too new or too old. *)
Definition clocks_agree (T : N) : Prop :=
  u32_ok T
  /\ forall x, pa_start (pick_who x a b) <= T + o_clock_tolerance (pa_opts (pick_who (other x) a b))
     /\ T + o_address_list_timeout (pa_opts (pick_who x a b)) < 2 ^ 32.
End play.
