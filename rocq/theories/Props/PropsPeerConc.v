(** C92: packets of one peer that are handled at the same time. *)
From Coq Require Import List NArith Bool Permutation.
From Verif.Base Require Import Bytes Res.
From Verif.Model Require Import History Peer PeerConc.
From Verif.Spec Require Import PeerConcSpec.
From Verif.Proof Require Import PeerConcFacts.
Import ListNotations.
Open Scope N_scope.

(** C92: however the tasks are interleaved, the known date of the peer never falls below what it was when
    their packets had not been looked at, and no packet that is older than that passes. *)
Theorem c92_floor_partial : forall checks p ts sched, Forall waiting ts ->
  ss_reinit (p_send p) <= known_date (peers_run checks (p, ts) sched)
  /\ forall j d s v, nth_error (snd (peers_run checks (p, ts) sched)) j = Some (Handled (Some d) s v) ->
     d < ss_reinit (p_send p) -> v = TooOld.
Proof. exact floor. Qed.
Print Assumptions c92_floor_partial.
Example c92_floor_example :
  let ts := [CheckDate 4 1 false; CheckDate 9 1 true; Send false; Number 2 false] in
  Forall waiting ts
  /\ snd (peers_run true (known_peer 5, ts) [1; 0; 1; 2; 3; 1; 1; 1; 1; 1]%nat)
     = [Handled (Some 4) 1 TooOld; Handled (Some 9) 1 Passed; Sent false 1; Handled None 2 Passed].
Proof. split; [repeat constructor|]. vm_compute. reflexivity. Qed.

(** C92: as long as all packets belong to one life of the peer, which is known or the first one, the packets sent
    meanwhile are numbered without gaps and without repetition. *)
Theorem c92_numbered_partial : forall checks p ts sched D, Forall waiting ts -> Forall (dated D) ts ->
  (ss_reinit (p_send p) = D \/ ss_reinit (p_send p) = 0) ->
  forall pr, ss_seqno pr (p_send p) + to_send ts < 2 ^ 64 ->
  let sent := numbers pr (snd (peers_run checks (p, ts) sched)) in
  Permutation sent (map (fun k => ss_seqno pr (p_send p) + 1 + N.of_nat k) (seq 0 (length sent)))
  /\ ss_seqno pr (p_send (fst (peers_run checks (p, ts) sched))) = ss_seqno pr (p_send p) + N.of_nat (length sent).
Proof. exact numbered. Qed.
Print Assumptions c92_numbered_partial.
Example c92_numbered_example :
  let ts := [Send false; CheckDate 9 1 true; Send false; Send true; Send false] in
  Forall waiting ts /\ Forall (dated 9) ts
  /\ numbers false (snd (peers_run true (known_peer 0, ts) [1; 4; 1; 2; 3; 1]%nat)) = [2; 1].
Proof. split; [repeat constructor|]. split; [repeat constructor|]. vm_compute. reflexivity. Qed.

(** A task that is alone does what the model of a single connection (C09) does. *)
Theorem c92_alone : forall checks p d s pr, exists n,
  let r := try_reinit_sender p d in
  peers_run checks (p, [CheckDate d s pr]) (repeat 0%nat n)
  = if fst r then
      let (o, h) := deliver checks (rs_history pr (p_recv (snd r))) s in
      (set_recv (snd r) (set_rs_history pr h (p_recv (snd r))),
       [Handled (Some d) s (match o with Accepted => Passed | Rejected => Repeated | Panicked => Overflow end)])
    else (snd r, [Handled (Some d) s TooOld]).
Proof. exact alone. Qed.
Print Assumptions c92_alone.

(** C92 is false for dates: two packets of a peer that was restarted twice (at 6 and at 9) leave the older date
    behind, and a packet of second 7, which would have been refused, passes. *)
Theorem c92_date_refuted : exists p ts before after, Forall waiting ts
  /\ known_date (peers_run true (p, ts) (before ++ after)) < known_date (peers_run true (p, ts) before)
  /\ snd (peers_run true (p, ts) (before ++ after))
     = [Handled (Some 6) 1 Passed; Handled (Some 9) 1 Passed; Handled (Some 7) 2 Passed]
  /\ known_date (peers_run true (p, ts) before) = 9
  /\ nth_error (snd (peers_run true (p, ts) before)) 2 = Some (CheckDate 7 2 false).
Proof. exact date_falls. Qed.
Print Assumptions c92_date_refuted.

(** C92 is false for replay: of two packets of the new life of a restarted peer both reset the histories, the second
    one after the first has passed; a copy of the first packet then passes again. *)
Theorem c92_replay_refuted : exists p ts before after, Forall waiting ts /\ Forall (dated 9) ts
  /\ nth_error (snd (peers_run true (p, ts) before)) 0 = Some (Handled (Some 9) 1 Passed)
  /\ nth_error (snd (peers_run true (p, ts) before)) 2 = Some (CheckDate 9 1 false)
  /\ nth_error (snd (peers_run true (p, ts) (before ++ after))) 2 = Some (Handled (Some 9) 1 Passed).
Proof. exact number_twice. Qed.
Print Assumptions c92_replay_refuted.

(** C92 is false for numbers: in the same way two packets are sent to the restarted peer under one number, and the
    peer takes the second for a copy of the first. *)
Theorem c92_numbers_refuted : exists p ts sched, Forall waiting ts /\ Forall (dated 9) ts
  /\ snd (peers_run true (p, ts) sched)
     = [Handled (Some 9) 1 Passed; Handled (Some 9) 2 Passed; Sent false 1; Sent false 1].
Proof. exact sent_twice. Qed.
Print Assumptions c92_numbers_refuted.
