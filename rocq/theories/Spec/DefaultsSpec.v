(** Words for C103. *)
From stdpp Require Import gmap.
From Coq Require Import NArith.
From Verif.Base Require Import Bytes.
From Verif.Model Require Import Crypto Compression Fec ProtoAdnl AdnlNode Broadcast.
From Verif.Spec Require Import BroadcastSpec PairSpec GossipSpec LongSpec.
From Verif.Spec Require GossipFecSpec.
Open Scope N_scope.

(** Everything that is sent because of a call can be carried by the connections of C72 and C102. *)
Definition can_be_carried (P : prims) (z : zstd) (F : fec) (overlay : bytes) (packed : bool) (call : bc_event) : Prop :=
  match call with
  | EvSend key data _ => forall date, small_payload (MCustom (the_message P z overlay packed key data date))
  | EvSendFec key data _ => forall date esi, long_payload (MCustom (GossipFecSpec.part_message P z F overlay packed key data date esi))
  | _ => True
  end.
(** By whom, what and to whom. *)
Definition asks_for (call : bc_event) : option (bytes * bytes * list bytes) :=
  match call with EvSend key data targets | EvSendFec key data targets => Some (key, data, targets) | _ => None end.
