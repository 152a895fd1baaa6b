(** What a node hands to the layers above when one letter is sent to it and arrives. *)
From stdpp Require Import gmap.
From Coq Require Import NArith.
From Verif.Base Require Import Bytes Res.
From Verif.Model Require Import Crypto ProtoAdnl Peer AdnlNode Compression Fec OverlayPeers Broadcast OverlayNode.
From Verif.Spec Require Import PairSpec.
Open Scope N_scope.

Definition handed_over (P : prims) (fuel : nat) (a b : party) (s : pair) (t : turn) : list AdnlNode.delivery :=
  match last_letter (sent_in P a b s t) with
  | Some l => snd (fst (arrival P fuel (sent_in P a b s t) l (tn_received t) (tn_fresh t) (tn_rnds t)))
  | None => []
  end.

(** What the user of a node got from one of its overlays, and what this overlay sent to others. *)
Definition user_got (g : group) (id : bytes) : list Broadcast.delivery :=
  match gr_overlays g !! id with Some i => br_delivered (in_broadcasts i) | None => [] end.
Definition sent_out (g : group) (id : bytes) : list (list bytes * bytes) :=
  match gr_overlays g !! id with Some i => br_sent (in_broadcasts i) | None => [] end.
