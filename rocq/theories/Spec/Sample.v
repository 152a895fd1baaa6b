(** Two small nodes used to show that the hypotheses of theorems are met. *)
From stdpp Require Import gmap.
From Coq Require Import NArith.
From Verif.Base Require Import Bytes Res.
From Verif.Model Require Import Crypto Tl ProtoAdnl Channel Peer AdnlNode.
From Verif.Spec Require Import CryptoSpec NodeSpec.
Open Scope N_scope.

Definition sample_options : options := mk_options 60 30 1000 true true false None true.
Definition secret_of (x : N) : bytes := map (fun i => (x * (N.of_nat i + 1)) mod 256) (seq 0 32).
Definition key_of (x : N) : bytes := pub_of light (secret_of x).
Definition id_of (x : N) : bytes := id_of_key light (key_of x).
Definition addr_of (x : N) : sockaddr := mk_sockaddr (0x0a000000 + x) (30000 + x).
Definition sample_node (x : N) (o : options) : node :=
  node_new (addr_of x) 100 o None {[id_of x := secret_of x]}.
Definition sample_rnd (i : nat) : rnd := mk_rnd [1; 2; 3; 4; 5; 6; 7; 8; 9; 10] (secret_of (200 + N.of_nat i)).

Definition knows (x y : N) : op := OAddPeer CtxDht (id_of x) (id_of y) (addr_of y) (key_of y) (secret_of (50 + x)).
Definition says (now x y : N) (m : message) : op := OSend now (id_of x) (id_of y) m false sample_rnd.
Definition srun (n : node) (l : list op) : node := run light 10 n l.
(** The last datagram sent. *)
Definition last_out (n : node) : bytes := match last (n_out n) with Some (_, d) => d | None => [] end.
Definition gets (now : N) (d : bytes) : op := OReceive now d (secret_of 99) sample_rnd.

(** Alice (1) and Bob (2): Alice writes to Bob, Bob replies, Alice writes again. *)
Definition alice0 : node := srun (sample_node 1 sample_options) [knows 1 2; says 1000 1 2 (MCustom [1])].
Definition letter1 : bytes := last_out alice0.
Definition bob0 : list op := [knows 2 1; gets 1001 letter1; says 1002 2 1 (MCustom [2])].
Definition bob1 : node := srun (sample_node 2 sample_options) bob0.
Definition letter2 : bytes := last_out bob1.
Definition alice_ops : list op :=
  [knows 1 2; says 1000 1 2 (MCustom [1]); gets 1003 letter2; says 1004 1 2 (MCustom [3])].
Definition alice1 : node := srun (sample_node 1 sample_options) alice_ops.
Definition letter3 : bytes := last_out alice1.
Definition bob_ops : list op := bob0 ++ [gets 1005 letter3].
Definition bob2 : node := srun (sample_node 2 sample_options) bob_ops.

(** Bob loses his state and comes back later with other channel keys. *)
Definition bob_back : node := node_new (addr_of 2) 1500 sample_options None {[id_of 2 := secret_of 2]}.
Definition knows_again : op := OAddPeer CtxDht (id_of 2) (id_of 1) (addr_of 1) (key_of 1) (secret_of 61).
Definition letter4 : bytes := last_out (srun bob_back [knows_again; says 2100 2 1 (MCustom [4])]).
Definition alice2_ops : list op :=
  alice_ops ++ [OTimeout 2000 (id_of 1) (id_of 2) (Some 0%nat) (secret_of 70); gets 2101 letter4;
                says 2102 1 2 (MCustom [5])].
Definition letter5 : bytes := last_out (srun (sample_node 1 sample_options) alice2_ops).
Definition letter6 : bytes :=
  last_out (srun bob_back [knows_again; says 2100 2 1 (MCustom [4]); gets 2103 letter5; says 2104 2 1 (MCustom [6])]).
