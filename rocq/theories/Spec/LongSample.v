(** A sample for [LongSpec]: the first message between two nodes has 1100 bytes. *)
From stdpp Require Import gmap.
From Coq Require Import NArith.
From Verif.Base Require Import Bytes Res.
From Verif.Model Require Import Crypto ProtoAdnl Peer AdnlNode.
From Verif.Spec Require Import CryptoSpec Sample PairSpec LongSpec.
Open Scope N_scope.

Definition l_start : pair := pair_start light sample_alice sample_bob.
Definition l_message : message := MCustom (repeat 5 (N.to_nat 1100)).
Definition l_sent : res node_error unit * node :=
  send_message light (node_of l_start Alice) 1000 (party_id light sample_alice) (party_id light sample_bob) l_message false (fun _ => pair_rnd 7).
(** What was sent arrives in the opposite order. *)
Definition l_arriving : list arriving :=
  map (fun x => mk_arriving (snd x) 1001 (sample_bytes 99) (fun _ => pair_rnd 8)) (rev (n_out (snd l_sent))).
