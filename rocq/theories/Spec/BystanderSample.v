(** A third node, Carol (3), that talks with Alice while she talks with Bob. *)
From stdpp Require Import gmap.
From Coq Require Import NArith.
From Verif.Base Require Import Bytes Res.
From Verif.Model Require Import Crypto Tl ProtoAdnl Channel Peer AdnlNode.
From Verif.Spec Require Import CryptoSpec NodeSpec TransferSpec PairSpec Sample.
Open Scope N_scope.

Definition carol_letter : bytes :=
  last_out (srun (sample_node 3 sample_options) [knows 3 1; says 1009 3 1 (MCustom [8])]).
Definition carol_ops : list op :=
  [knows 1 3; gets 1010 carol_letter; says 1011 1 3 (MCustom [9]); gets 1012 carol_letter; gets 1013 [1; 2; 3];
   OTimeout 1014 (id_of 1) (id_of 3) (Some 1%nat) (secret_of 80);
   OTimeout 2014 (id_of 1) (id_of 3) (Some 1%nat) (secret_of 81); ORemovePeer (id_of 1) (id_of 3)].

(** The same between the two of [PairSpec]. *)
Definition sample_carol : party :=
  mk_party (sample_bytes 5) (sample_bytes 55) (mk_sockaddr 0x0a000003 30003) 300 pair_options.
Definition carol_hears : op :=
  OAddPeer CtxPublicOverlay (party_id light sample_alice) (party_id light sample_carol) (pa_addr sample_carol)
    (party_key light sample_carol) (sample_bytes 56).
Definition carol_writes : op :=
  OReceive 1005 (last_out (snd (send_message light (party_node light sample_carol sample_alice) 1004
    (party_id light sample_carol) (party_id light sample_alice) (MCustom [7]) false (fun _ => pair_rnd 8))))
    (sample_bytes 57) (fun _ => pair_rnd 9).
Definition pair_with_carol : pair :=
  let s0 := take_turn light 0 sample_alice sample_bob (pair_start light sample_alice sample_bob) turn1 in
  elsewhere light 0 (elsewhere light 0 s0 Alice carol_hears) Alice carol_writes.

(** C96: two peers send the same message in two parts, and the parts arrive alternately. *)
Definition both_send (local first second : bytes) (parts : list part) : list heard :=
  flat_map (fun p => [mk_heard local first (part_message p); mk_heard local second (part_message p)]) parts.
