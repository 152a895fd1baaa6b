(** C95: what the reset of a connection leads to. *)
From stdpp Require Import gmap.
From Coq Require Import NArith.
From Verif.Base Require Import Bytes Res.
From Verif.Model Require Import Crypto ProtoAdnl Channel Peer AdnlNode.
From Verif.Spec Require Import CryptoSpec PairSpec ResetSpec.
From Verif.Proof Require Import ResetFacts.
Open Scope N_scope.

(** C95, with two restrictions: neither of the two remembers packets, and the one that did the reset is the first
    to send something that arrives.  Whatever happened between them before, its message and the two next ones,
    sent alternately, get through, and then both use a channel made from the new key. *)
Theorem c95_recovers_partial : forall P, prims_ok P -> forall fuel a b, parties_ok P a b ->
  forall s w fresh t1 t2 t3, exchange P fuel a b s -> none_remembers a b ->
  new_key P a b s w fresh -> older P a b s w (tn_sent t1) -> may_talk P fuel a b s w fresh t1 t2 t3 ->
  recovers P fuel a b s w fresh t1 t2 t3.
Proof. intros P HP fuel a b Hab. exact (recovers_after P fuel a b HP Hab). Qed.
Print Assumptions c95_recovers_partial.
Example c95_example : let a := reset_alice false in let b := reset_bob false in let s := before_reset light false in
  prims_ok light /\ parties_ok light a b /\ none_remembers a b
  /\ exchange light 0 a b s /\ new_key light a b s Bob reset_key /\ older light a b s Bob (tn_sent turn4)
  /\ may_talk light 0 a b s Bob reset_key turn4 turn5 turn6.
Proof. exact (conj light_ok (conj (reset_parties false) (conj (conj eq_refl eq_refl) (reset_sample false)))). Qed.

(** C95 is false when the other one remembers packets: the numbers of the one that did the reset start again at 1,
    and its packets are dropped as repeated ones. *)
Theorem c95_silenced_refuted : ~ forall P fuel a b s w fresh t1 t2 t3,
  prims_ok P -> parties_ok P a b -> exchange P fuel a b s ->
  new_key P a b s w fresh -> older P a b s w (tn_sent t1) -> may_talk P fuel a b s w fresh t1 t2 t3 ->
  recovers P fuel a b s w fresh t1 t2 t3.
Proof. exact silenced. Qed.
Print Assumptions c95_silenced_refuted.

(** C95 is also false when the other one sends first: it confirms the old key, which is taken for a confirmation
    of the new one; from then on what the one that did the reset sends is not understood. *)
Theorem c95_crossed_refuted : ~ forall P fuel a b s w fresh t1 t2 t3 t4,
  prims_ok P -> parties_ok P a b -> exchange P fuel a b s -> none_remembers a b ->
  new_key P a b s w fresh -> older P a b s w (tn_sent t1) -> heard_later P fuel a b s w fresh t1 t2 t3 t4.
Proof. exact crossed. Qed.
Print Assumptions c95_crossed_refuted.
