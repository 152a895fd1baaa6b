(** What happens between the two nodes of [PairSpec] when one of them resets the other one in its table. *)
From stdpp Require Import gmap.
From Coq Require Import NArith.
From Verif.Base Require Import Bytes Res.
From Verif.Model Require Import Crypto ProtoAdnl Channel Peer AdnlNode.
From Verif.Spec Require Import ChannelSpec NodeSpec PairSpec.
Open Scope N_scope.

(** [x] with another channel key. *)
Definition rekeyed (x : party) (fresh : bytes) : party :=
  mk_party (pa_secret x) fresh (pa_addr x) (pa_start x) (pa_opts x).

Section reset.
Variables (P : prims) (fuel : nat) (a b : party).

(** [w] resets the other one, with the new channel key [fresh]. *)
Definition resets (s : pair) (w : who) (fresh : bytes) : pair :=
  changed s w (snd (reset_peer (node_of s w) (id_of_who P a b w) (id_of_who P a b (other w)) fresh)) 0 MNop (pr_seen s).

(** The message of the turn arrives and is handed to the layers above the other one, as it was sent. *)
Definition gets_through (s : pair) (t : turn) : Prop :=
  exists l n', last_letter (sent_in P a b s t) = Some l /\ lt_from l = tn_who t /\ lt_message l = tn_message t
  /\ arrival P fuel (sent_in P a b s t) l (tn_received t) (tn_fresh t) (tn_rnds t) = (Ok tt, shown P a b l, n').

(** The new key of [w] is a new one: the four channel ids it makes with the key of the other one are as
    different as those of [parties_ok], and the key is not the one the other one has. *)
Definition new_key (s : pair) (w : who) (fresh : bytes) : Prop :=
  parties_ok P (rekeyed (pick_who w a b) fresh) (pick_who (other w) a b)
  /\ forall c, channel_of P a b s (other w) = Some c -> ch_peer_key c <> pub_of P fresh.
(** The channel that the other one has is older than [now]. *)
Definition older (s : pair) (w : who) (now : N) : Prop :=
  forall c, channel_of P a b s (other w) = Some c -> ch_peer_date c < now.

(** After the reset the two send each other three messages, the one that did the reset starts; all get
    through, and then both use a new channel. *)
Definition recovers (s : pair) (w : who) (fresh : bytes) (t1 t2 t3 : turn) : Prop :=
  let s0 := resets s w fresh in
  let s1 := take_turn P fuel a b s0 t1 in
  let s2 := take_turn P fuel a b s1 t2 in
  let s3 := take_turn P fuel a b s2 t3 in
  gets_through s0 t1 /\ gets_through s1 t2 /\ gets_through s2 t3 /\ (forall v, uses_channel P a b s3 v)
  /\ exists c, channel_of P a b s3 (other w) = Some c /\ ch_peer_key c = pub_of P fresh.
Definition may_talk (s : pair) (w : who) (fresh : bytes) (t1 t2 t3 : turn) : Prop :=
  let s0 := resets s w fresh in
  let s1 := take_turn P fuel a b s0 t1 in
  let s2 := take_turn P fuel a b s1 t2 in
  tn_who t1 = w /\ tn_who t2 = other w /\ tn_who t3 = w
  /\ may_turn P a b s0 t1 /\ may_turn P a b s1 t2 /\ may_turn P a b s2 t3.
(** The same with the other one starting: after three messages, sent alternately, the next one of [w] gets
    through. *)
Fixpoint takes (s : pair) (ts : list turn) : pair :=
  match ts with [] => s | t :: ts => takes (take_turn P fuel a b s t) ts end.
Fixpoint may_turns (s : pair) (ts : list turn) : Prop :=
  match ts with [] => True | t :: ts => may_turn P a b s t /\ may_turns (take_turn P fuel a b s t) ts end.
Definition heard_later (s : pair) (w : who) (fresh : bytes) (t1 t2 t3 t4 : turn) : Prop :=
  map tn_who [t1; t2; t3; t4] = [other w; w; other w; w] ->
  may_turns (resets s w fresh) [t1; t2; t3; t4] ->
  gets_through (takes (resets s w fresh) [t1; t2; t3]) t4.
Definition none_remembers : Prop := o_history_enabled (pa_opts a) = false /\ o_history_enabled (pa_opts b) = false.
End reset.

(** A sample: the two of [PairSpec], which remember packets or do not; they have sent each other two messages
    when Bob resets Alice. *)
Definition reset_options (remember : bool) : options := mk_options 60 30 1000 remember true false (Some 0) true.
Definition reset_alice (remember : bool) : party :=
  mk_party (sample_bytes 1) (sample_bytes 51) (mk_sockaddr 0x0a000001 30001) 100 (reset_options remember).
Definition reset_bob (remember : bool) : party :=
  mk_party (sample_bytes 2) (sample_bytes 52) (mk_sockaddr 0x0a000002 30002) 200 (reset_options remember).
Definition before_reset (P : prims) (remember : bool) : pair :=
  let turn := take_turn P 0 (reset_alice remember) (reset_bob remember) in
  turn (turn (pair_start P (reset_alice remember) (reset_bob remember)) turn1) turn2.
Definition reset_key : bytes := sample_bytes 53.
Definition turn4 : turn := sample_turn Bob 2000 (MCustom [4]) false.
Definition turn5 : turn := sample_turn Alice 2010 (MCustom [5]) false.
Definition turn6 : turn := sample_turn Bob 2020 (MCustom [6]) true.
(** Another course: Alice starts. *)
Definition turn7 : turn := sample_turn Alice 2000 (MCustom [7]) false.
Definition turn8 : turn := sample_turn Bob 2010 (MCustom [8]) false.
Definition turn9 : turn := sample_turn Alice 2020 (MCustom [9]) false.
Definition turn10 : turn := sample_turn Bob 2030 (MCustom [10]) false.
