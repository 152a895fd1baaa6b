(** Messages that may need several datagrams. *)
From stdpp Require Import gmap.
From Coq Require Import NArith.
From Verif.Base Require Import Bytes Res.
From Verif.Model Require Import Crypto Tl ProtoAdnl Peer AdnlNode.
From Verif.Spec Require Import Codec ChannelSpec PairSpec.
Open Scope N_scope.

(** Queries, answers and messages of applications of up to 1936 bytes with their header.  (Longer ones do not
    arrive: C10.) *)
Definition long_payload (m : message) : Prop :=
  message_ok m /\ N.of_nat (length (put_message m)) <= 1936
  /\ match m with MAnswer _ _ | MQuery _ _ | MCustom _ => True | _ => False end.

(** A datagram that arrives, with the clock of the receiver and its random choices. *)
Record arriving := mk_arriving { ar_data : bytes; ar_time : N; ar_fresh : bytes; ar_rnds : nat -> rnd }.

(** Several datagrams arrive one after the other: the results, everything handed to the layers above, and the node. *)
Fixpoint all_arrive (P : prims) (fuel : nat) (n : node) (l : list arriving)
  : list (res node_error unit) * list delivery * node :=
  match l with
  | [] => ([], [], n)
  | x :: r =>
    let '(o, ds, n1) := handle_received_data P fuel n (ar_time x) (ar_data x) (ar_fresh x) (ar_rnds x) in
    let '(os, ds', n2) := all_arrive P fuel n1 r in
    (o :: os, ds ++ ds', n2)
  end.

(** They arrive while the address in them is valid, the start of the sender does not lie in the receiver's
    future, and they do not happen to look like packets with a version. *)
Definition in_time (P : prims) (sender receiver : party) (sent : N) (x : arriving) : Prop :=
  pa_start sender <= ar_time x + o_clock_tolerance (pa_opts receiver)
  /\ ar_time x <= sent + o_address_list_timeout (pa_opts sender)
  /\ (o_version (pa_opts sender) = None -> ~ accidentally_versioned P 32 (ar_data x) /\ ~ accidentally_versioned P 64 (ar_data x)).
