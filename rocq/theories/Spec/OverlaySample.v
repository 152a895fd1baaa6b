(** Small overlays used to show that the hypotheses of theorems are met. *)
From stdpp Require Import gmap.
From Coq Require Import NArith.
From Verif.Base Require Import Bytes Res.
From Verif.Model Require Import Crypto Tl Scheme ProtoAdnl ProtoOverlay Peer AdnlNode PeersSet OverlayPeers.
From Verif.Spec Require Import CryptoSpec Sample DhtSample.
Open Scope N_scope.

(** Node 3 in the overlay of members 2, 4 and 5; 6 is a member of another overlay. *)
Definition t_stranger : ov_node :=
  mk_ov_node (PkEd25519 (t_key 6)) (repeat 1 32) 5
    (sign brief (secret_of 6) (put_node_to_sign (t_id 6) (repeat 1 32) 5)).
Definition t_ov0 : overlay := overlay_new (secret_of 3) t_overlay [] 2 [].
Definition t_ov_ops : list overlay_op :=
  [OvAdd (t_adnl 3) (addr_of 2) (t_member 2 5) (secret_of 91);
   OvAddMany (t_adnl 3) [(addr_of 6, t_stranger, secret_of 92); (addr_of 4, t_member 4 7, secret_of 93);
                         (addr_of 2, t_member 2 6, secret_of 94)];
   OvGetRandomPeers [t_member 5 1; t_stranger; t_member 3 1; t_member 5 4; t_member 5 3] 1000 [0; 1]%nat].
Definition t_ov : overlay := overlay_run brief t_ov0 t_ov_ops.
