(** Two RLDP nodes: every query can be answered. *)
From stdpp Require Import gmap.
From Coq Require Import NArith Lia.
From Coq Require Import ZifyBool ZifyNat ZifyN.
From Verif.Base Require Import Bytes BytesFacts Res.
From Verif.Model Require Import Tl Scheme ProtoRldp Compression Subscribers Fec RldpTransfer RldpQuery RldpNode.
From Verif.Spec Require Import Codec CompressionSpec FecSpec RldpSpec RldpExchangeSpec RldpPairSpec RldpPairSample.
From Verif.Proof Require Import CompressionFacts FecFacts RldpParts RldpInFacts RldpOutFacts RldpQueryFacts LocalFacts
  RldpNodeFacts RldpExchange RldpPairFacts.
Open Scope N_scope.

(** ** Playing commands *)

Definition play {E} (w : rldp_world) (s : rldp_pair) (cs : list (command E)) : rldp_pair :=
  pair_run w s (events_of w s cs).

Lemma play_cons : forall E w s (c : command E) cs,
  play w s (c :: cs) = play w (match event_of w s c with Some ev => pair_step w s ev | None => s end) cs.
Proof. intros E w s c cs. unfold play. cbn [events_of]. destruct (event_of w s c); reflexivity. Qed.
Lemma play_app : forall E w (a b : list (command E)) s, play w s (a ++ b) = play w (play w s a) b.
Proof.
  intros E w a b. induction a as [|c a IH]; intros s; [reflexivity|]. cbn [app]. rewrite !play_cons. apply IH.
Qed.

(** Plain commands respect the privacy of every query. *)
Lemma plain_private : forall E w i (cs : list (command E)) s, forallb plain cs = true -> private_run w i s (events_of w s cs).
Proof.
  intros E w i cs. induction cs as [|c cs IH]; intros s Hp; [exact I|]. cbn [forallb] in Hp. apply andb_prop in Hp as [H1 H2].
  cbn [events_of]. destruct (event_of w s c) as [ev|] eqn:Eev; [|now apply IH]. cbn [private_run]. split; [|now apply IH].
  destruct c as [k|k|ev'|ev']; cbn [event_of] in Eev.
  - destruct (nth_error (rp_from_alice s) k) as [[to m]|] eqn:En; [|discriminate].
    destruct (bytes_eqb to (rw_bob_id w)) eqn:Eb; [|discriminate]. injection Eev as <-. apply bytes_eqb_eq in Eb. subst to.
    cbn [private]. intros _. split; [reflexivity|]. eapply nth_error_In. exact En.
  - destruct (nth_error (rp_from_bob s) k) as [[to m]|] eqn:En; [|discriminate].
    destruct (bytes_eqb to (rw_alice_id w)) eqn:Eb; [|discriminate]. injection Eev as <-. apply bytes_eqb_eq in Eb. subst to.
    cbn [private]. intros _. split; [reflexivity|]. eapply nth_error_In. exact En.
  - injection Eev as <-. destruct ev'; try exact I; discriminate.
  - injection Eev as <-. destruct ev'; try exact I; discriminate.
Qed.

(** ** The other way round *)

Definition swap_world (w : rldp_world) : rldp_world :=
  mk_rldp_world (rw_fec w) (rw_slice w) (rw_checked w) (rw_zstd w) (rw_bob w) (rw_alice w) (rw_bob_id w) (rw_alice_id w).
Definition swap_pair (s : rldp_pair) : rldp_pair := mk_rldp_pair (rp_bob s) (rp_alice s) (rp_from_bob s) (rp_from_alice s).
Definition swap_event {E} (ev : pair_event E) : pair_event E := match ev with AtAlice e => AtBob e | AtBob e => AtAlice e end.
Definition swap_command {E} (c : command E) : command E :=
  match c with ToBob k => ToAlice k | ToAlice k => ToBob k | Bob e => Alice e | Alice e => Bob e end.

Lemma swap_step : forall E w s (ev : pair_event E),
  pair_step w (swap_pair s) (swap_event ev) = swap_pair (pair_step (swap_world w) s ev).
Proof.
  intros E w s [ev|ev]; cbn [pair_step swap_event swap_pair swap_world rp_alice rp_bob rp_from_alice rp_from_bob rw_fec rw_slice rw_checked rw_zstd rw_alice rw_bob].
  - destruct (rldp_step _ _ _ _ _ _ _). reflexivity.
  - destruct (rldp_step _ _ _ _ _ _ _). reflexivity.
Qed.
Lemma swap_event_of : forall E w s (c : command E),
  event_of w (swap_pair s) (swap_command c) = option_map swap_event (event_of (swap_world w) s c).
Proof.
  intros E w s [k|k|ev|ev]; cbn [event_of swap_command swap_pair swap_world rp_from_alice rp_from_bob rw_alice_id rw_bob_id]; try reflexivity.
  - destruct (nth_error (rp_from_alice s) k) as [[to m]|]; [|reflexivity]. destruct (bytes_eqb to (rw_alice_id w)); reflexivity.
  - destruct (nth_error (rp_from_bob s) k) as [[to m]|]; [|reflexivity]. destruct (bytes_eqb to (rw_bob_id w)); reflexivity.
Qed.
Lemma swap_play : forall E w (cs : list (command E)) s,
  play w (swap_pair s) (map swap_command cs) = swap_pair (play (swap_world w) s cs).
Proof.
  intros E w cs. induction cs as [|c cs IH]; intros s; [reflexivity|]. cbn [map]. rewrite !play_cons, swap_event_of.
  destruct (event_of (swap_world w) s c) as [ev|]; cbn [option_map]; [rewrite swap_step|]; apply IH.
Qed.

(** ** One transfer between them *)

Definition transfer_only {E} (c : command E) : bool :=
  match c with
  | ToBob _ | ToAlice _ | Bob (NSender _ _) | Bob (NReceiver _) | Alice (NSender _ _) | Alice (NReceiver _) => true
  | _ => false
  end.
Lemma transfer_only_silent : forall E (cs : list (command E)) k subs, forallb transfer_only cs = true ->
  ~ In (Bob (NAnswerTurn k subs)) cs.
Proof. intros E cs k subs H Hin. rewrite forallb_forall in H. now specialize (H _ Hin). Qed.
Lemma transfer_only_swap : forall E (cs : list (command E)), forallb transfer_only cs = true ->
  forallb transfer_only (map swap_command cs) = true.
Proof.
  intros E cs. induction cs as [|c cs IH]; [reflexivity|]. cbn [map forallb]. intros H. apply andb_prop in H as [H1 H2].
  rewrite IH by exact H2. rewrite andb_true_r. destruct c as [| |[]|[]]; first [reflexivity|discriminate].
Qed.
Lemma plain_swap : forall E (cs : list (command E)), forallb plain cs = true -> forallb plain (map swap_command cs) = true.
Proof.
  intros E cs. induction cs as [|c cs IH]; [reflexivity|]. cbn [map forallb]. intros H. apply andb_prop in H as [H1 H2].
  rewrite IH by exact H2. rewrite andb_true_r. destruct c as [| |[]|[]]; first [reflexivity|discriminate].
Qed.

Lemma reply_id : forall F t m, match snd (receive_one F t m) with
  | Some (MpComplete id _) | Some (MpConfirm id _ _) => id = it_id t | _ => True end.
Proof.
  intros F t m. unfold receive_one, process_chunk, process_part, process_current.
  repeat match goal with
  | |- context [match ?x with _ => _ end] =>
      lazymatch x with context [match _ with _ => _ end] => fail | _ => destruct x; cbn end
  end; first [exact I|reflexivity].
Qed.

(** ** What is sent and what arrives *)

Definition to_bob {E} (cs : list (command E)) : list nat := flat_map (fun c => match c with ToBob k => [k] | _ => [] end) cs.
Definition to_alice {E} (cs : list (command E)) : list nat := flat_map (fun c => match c with ToAlice k => [k] | _ => [] end) cs.
Definition within (l : list nat) (x y : nat) : Prop := List.NoDup l /\ forall k, In k l -> (x <= k < y)%nat.

Lemma within_nil : forall x y, within [] x y.
Proof. intros x y. split; [constructor|]. intros k []. Qed.
Lemma within_one : forall k y, (k < y)%nat -> within [k] k y.
Proof. intros k y H. split; [repeat constructor; intros []|]. intros j [<-|[]]. lia. Qed.
Lemma within_app : forall l1 l2 x y z, within l1 x y -> within l2 y z -> (x <= y <= z)%nat -> within (l1 ++ l2) x z.
Proof.
  intros l1 l2 x y z [N1 W1] [N2 W2] Hxy. split.
  - apply NoDup_ListNoDup, NoDup_app. split; [now apply NoDup_ListNoDup|]. split; [|now apply NoDup_ListNoDup].
    intros k H1 H2. apply elem_of_list_In in H1, H2. specialize (W1 k H1). specialize (W2 k H2). lia.
  - intros k Hk. apply in_app_or in Hk as [Hk|Hk]; [specialize (W1 k Hk)|specialize (W2 k Hk)]; lia.
Qed.

Definition chunk_message (id : bytes) (m : chunk) : message_part :=
  MpPart id (ch_fec m) (ch_part m) (ch_total m) (ch_seqno m) (ch_data m).
Definition answers_to (id : bytes) (m : chunk) (y : message_part) : Prop :=
  y = MpComplete id (ch_part m) \/ y = MpConfirm id (ch_part m) (ch_seqno m).
Lemma reply_to : forall F t m y, snd (receive_one F t m) = Some y -> answers_to (it_id t) m y.
Proof.
  intros F t m y. unfold answers_to, receive_one, process_chunk, process_part, process_current, decode.
  repeat match goal with
  | |- context [match ?x with _ => _ end] =>
      lazymatch x with context [match _ with _ => _ end] => fail | _ => destruct x; cbn end
  end; intros H; first [discriminate H|injection H as <-; auto].
Qed.

(** The chunks [ms] of the transfer were sent, some of them were reported, and of all that only something
    that was not sent before arrived, and nothing of it twice. *)
Definition traced {E} (w : rldp_world) (id : bytes) (s s' : rldp_pair) (cs : list (command E)) (ms : list chunk) : Prop :=
  exists reports,
  rp_from_alice s' = rp_from_alice s ++ map (fun m => (rw_bob_id w, chunk_message id m)) ms
  /\ rp_from_bob s' = rp_from_bob s ++ map (fun y => (rw_alice_id w, y)) reports
  /\ (length reports <= length ms)%nat
  /\ Forall (fun y => exists m, In m ms /\ answers_to id m y) reports
  /\ within (to_bob cs) (length (rp_from_alice s)) (length (rp_from_alice s'))
  /\ within (to_alice cs) (length (rp_from_bob s)) (length (rp_from_bob s')).

Lemma traced_nil : forall E w id s, traced w id s s ([] : list (command E)) [].
Proof.
  intros E w id s. exists []. cbn [map]. rewrite !app_nil_r. split; [reflexivity|]. split; [reflexivity|]. split; [cbn; lia|].
  split; [constructor|]. split; apply within_nil.
Qed.
Lemma traced_app : forall E w id s1 s2 s3 (cs1 cs2 : list (command E)) ms1 ms2,
  traced w id s1 s2 cs1 ms1 -> traced w id s2 s3 cs2 ms2 -> traced w id s1 s3 (cs1 ++ cs2) (ms1 ++ ms2).
Proof.
  intros E w id s1 s2 s3 cs1 cs2 ms1 ms2 (l1 & A1 & A2 & A3 & A4 & A5 & A6) (l2 & B1 & B2 & B3 & B4 & B5 & B6).
  exists (l1 ++ l2). rewrite !map_app, B1, A1, B2, A2, <- !app_assoc. split; [reflexivity|]. split; [reflexivity|].
  split; [rewrite !app_length; lia|]. split.
  { apply List.Forall_app. split; (eapply List.Forall_impl; [|eassumption]); intros y (m & Hm & Hy); exists m; (split; [|exact Hy]);
      apply in_or_app; auto. }
  unfold to_bob, to_alice in *. rewrite !flat_map_app.
  rewrite A1, app_length in A5, B5. rewrite A2, app_length in A6, B6. rewrite B1, A1, !app_length in B5. rewrite B2, A2, !app_length in B6.
  rewrite !app_length in *.
  split; (eapply within_app; [eassumption| |]).
  - rewrite Nat.add_assoc. exact B5.
  - lia.
  - rewrite Nat.add_assoc. exact B6.
  - lia.
Qed.

Section Transfer.
Context {E : Type} (w : rldp_world).
Local Notation F := (rw_fec w).
Local Notation slice := (rw_slice w).
Local Notation ck := (rw_checked w).
Local Notation turn := (turn F slice ck false).
Local Notation turns := (turns F slice ck false).

Definition sending (id : bytes) (ks : nat) (s : rldp_pair) (x : sender) : Prop :=
  rn_senders (rp_alice s) !! ks = Some (mk_out_task (rw_bob_id w) x) /\ ot_id (se_transfer x) = id
  /\ rn_table (rp_alice s) !! id = Some (TOutgoing ks).
Definition receiving (id : bytes) (kr : nat) (s : rldp_pair) (t : incoming) : Prop :=
  (exists notify, rn_receivers (rp_bob s) !! kr = Some (mk_receiver (rw_alice_id w) t [] notify (incoming_done t)))
  /\ it_id t = id /\ rn_table (rp_bob s) !! id = Some (TIncoming kr).
Definition unknown (id : bytes) (kr : nat) (s : rldp_pair) (t : incoming) : Prop :=
  rn_table (rp_bob s) !! id = None /\ kr = length (rn_receivers (rp_bob s)) /\ t = incoming_new id (ro_max_answer (rw_bob w)).

(** Where the transfer stands, and what else changed since [s0]. *)
Record linked (id : bytes) (ks kr : nat) (s0 s : rldp_pair) (st : sender * incoming) : Prop := {
  li_sender : sending id ks s (fst st);
  li_receiver :
    unknown id kr s (snd st) /\ rn_table (rp_bob s0) !! id = None /\ rn_answers (rp_bob s) = rn_answers (rp_bob s0)
    \/ receiving id kr s (snd st)
       /\ (rn_table (rp_bob s0) !! id = None
           /\ rn_answers (rp_bob s) = rn_answers (rp_bob s0) ++ [mk_answer_run (rw_alice_id w) id kr AReceiving true]
           \/ rn_table (rp_bob s0) !! id = Some (TIncoming kr) /\ rn_answers (rp_bob s) = rn_answers (rp_bob s0));
  li_table : forall k, k <> id -> rn_table (rp_bob s) !! k = rn_table (rp_bob s0) !! k;
  li_queries : rn_queries (rp_bob s) = rn_queries (rp_bob s0);
  li_alice : rn_table (rp_alice s) = rn_table (rp_alice s0) /\ rn_receivers (rp_alice s) = rn_receivers (rp_alice s0)
    /\ rn_queries (rp_alice s) = rn_queries (rp_alice s0) /\ rn_answers (rp_alice s) = rn_answers (rp_alice s0)
}.

(** The sender's own event. *)
Lemma sender_plays : forall id ks kr s0 s x t ev x' out, linked id ks kr s0 s (x, t) ->
  send_step F slice ck x ev = (x', out) ->
  let r := sender_event F slice ck (rp_alice s) ks ev in
  let s' := mk_rldp_pair (fst r) (rp_bob s) (rp_from_alice s ++ snd r) (rp_from_bob s) in
  linked id ks kr s0 s' (x', t)
  /\ snd r = match out with
             | Some m => [(rw_bob_id w, MpPart id (ch_fec m) (ch_part m) (ch_total m) (ch_seqno m) (ch_data m))]
             | None => []
             end.
Proof.
  intros id ks kr s0 s x t ev x' out [(S1 & S2 & S3) L2 L3 L4 L5] Hst. cbn [fst snd] in *. cbv zeta.
  unfold sender_event. rewrite S1. cbn [ou_sender ou_peer]. rewrite Hst, S2. cbn [fst snd]. split; [|reflexivity].
  constructor; cbn [fst snd rp_alice rp_bob rn_table rn_receivers rn_queries rn_answers set_senders]; try assumption.
  split; [|split].
  - cbn [rn_senders set_senders rp_alice]. apply list_lookup_insert. eapply lookup_lt_Some. exact S1.
  - pose proof (send_step_id F slice ck x ev) as Hid. rewrite Hst in Hid. cbn [fst] in Hid. congruence.
  - exact S3.
Qed.

Definition sent_now (st : sender * incoming) : list chunk :=
  match snd (send_step F slice ck (fst st) EvStep) with Some m => [m] | None => [] end.

Lemma turn_plays : forall id ks kr s0 s st, linked id ks kr s0 s st ->
  exists cs : list (command E), forallb plain cs = true /\ forallb transfer_only cs = true
    /\ linked id ks kr s0 (play w s cs) (turn st) /\ traced w id s (play w s cs) cs (sent_now st).
Proof.
  intros id ks kr s0 s [x t] HL. unfold RldpExchangeSpec.turn, sent_now. cbn [fst].
  destruct (send_step F slice ck x EvStep) as [x1 out] eqn:Est. cbn [snd].
  pose proof (sender_plays id ks kr s0 s x t EvStep x1 out HL Est) as H1. cbv zeta in H1.
  set (r1 := sender_event F slice ck (rp_alice s) ks EvStep) in *. destruct H1 as [H1 Hout].
  set (s1 := mk_rldp_pair (fst r1) (rp_bob s) (rp_from_alice s ++ snd r1) (rp_from_bob s)) in *.
  assert (Hp1 : forall cs : list (command E), play w s (Alice (NSender ks LoopStep) :: cs) = play w s1 cs).
  { intros cs. rewrite play_cons. f_equal. cbn [event_of pair_step rldp_step loop_send_event]. fold r1.
    unfold s1. destruct r1. reflexivity. }
  destruct out as [m|].
  2: { exists [Alice (NSender ks LoopStep)]. split; [reflexivity|]. split; [reflexivity|].
       rewrite Hp1. split; [exact H1|]. exists []. unfold s1. cbn [play events_of pair_run fold_left rp_from_alice rp_from_bob map to_bob to_alice flat_map].
       unfold play. cbn [events_of pair_run fold_left rp_from_alice rp_from_bob app].
       rewrite Hout, !app_nil_r. split; [reflexivity|]. split; [reflexivity|]. split; [cbn; lia|]. split; [constructor|]. split; apply within_nil. }
  assert (Hs1 : rp_from_alice s1 = rp_from_alice s ++ map (fun m => (rw_bob_id w, chunk_message id m)) [m] /\ rp_from_bob s1 = rp_from_bob s).
  { unfold s1. cbn [rp_from_alice rp_from_bob map]. rewrite Hout. split; reflexivity. }
  destruct Hs1 as [Hfa1 Hfb1].
  destruct (incoming_done t) eqn:Ed.
  { exists [Alice (NSender ks LoopStep)]. split; [reflexivity|]. split; [reflexivity|].
    rewrite Hp1. split; [exact H1|]. exists []. unfold play. cbn [events_of pair_run fold_left].
    rewrite Hfa1, Hfb1. cbn [map to_bob to_alice flat_map app]. rewrite !app_nil_r. split; [reflexivity|]. split; [reflexivity|].
    split; [cbn; lia|]. split; [constructor|]. split; apply within_nil. }
  (* the chunk arrives *)
  set (msg := MpPart id (ch_fec m) (ch_part m) (ch_total m) (ch_seqno m) (ch_data m)) in *.
  set (r2 := handle_message F slice ck (rw_bob w) (rp_bob s1) (rw_alice_id w) msg) in *.
  set (s2 := mk_rldp_pair (rp_alice s1) (fst r2) (rp_from_alice s1) (rp_from_bob s1 ++ snd r2)).
  assert (Hp2 : forall cs : list (command E), play w s1 (ToBob (length (rp_from_alice s)) :: cs) = play w s2 cs).
  { intros cs. rewrite play_cons. f_equal. cbn [event_of].
    unfold s1 at 1. cbn [rp_from_alice]. rewrite Hout, nth_error_app2, Nat.sub_diag by lia. cbn [nth_error].
    rewrite bytes_eqb_refl. cbn [pair_step rldp_step]. fold r2. unfold s2. destruct r2. reflexivity. }
  destruct H1 as [M1 M2 M3 M4 M5]. cbn [fst snd] in *.
  assert (Hm : mk_chunk (ch_fec m) (ch_part m) (ch_total m) (ch_seqno m) (ch_data m) = m) by (destruct m; reflexivity).
  assert (Hr2 : snd r2 = [] /\ rn_queries (fst r2) = rn_queries (rp_bob s1)
    /\ (forall k, k <> id -> rn_table (fst r2) !! k = rn_table (rp_bob s1) !! k)
    /\ rn_table (fst r2) !! id = Some (TIncoming kr) /\ it_id t = id
    /\ (exists notify, rn_receivers (fst r2) !! kr = Some (mk_receiver (rw_alice_id w) t [m] notify false))
    /\ (rn_table (rp_bob s0) !! id = None
        /\ rn_answers (fst r2) = rn_answers (rp_bob s0) ++ [mk_answer_run (rw_alice_id w) id kr AReceiving true]
        \/ rn_table (rp_bob s0) !! id = Some (TIncoming kr) /\ rn_answers (fst r2) = rn_answers (rp_bob s0))).
  { unfold r2, msg. cbn [handle_message]. unfold handle_chunk. rewrite Hm.
    destruct M2 as [((U1 & U2 & U3) & U5 & U4)|(((nt & R1) & R2 & R3) & R4)].
    - rewrite U1. cbn [fst snd rn_queries rn_table rn_receivers rn_answers]. split; [reflexivity|]. split; [reflexivity|].
      split; [intros k Hk; rewrite lookup_insert_ne by congruence; reflexivity|].
      split; [rewrite lookup_insert, U2; reflexivity|]. split; [now rewrite U3|]. split.
      + exists None. rewrite U2, lookup_app_r, Nat.sub_diag by lia. cbn. unfold receiver_new. now rewrite U3.
      + left. rewrite U4, U2. split; [exact U5|reflexivity].
    - rewrite R3, R1. cbn [rc_finished rc_peer rc_transfer rc_queue rc_notify]. rewrite Ed. cbn [fst snd app].
      cbn [rn_queries rn_table rn_receivers rn_answers set_receivers]. split; [reflexivity|]. split; [reflexivity|].
      split; [reflexivity|]. split; [exact R3|]. split; [exact R2|]. split; [|exact R4].
      exists nt. apply list_lookup_insert. eapply lookup_lt_Some. exact R1. }
  destruct Hr2 as (Q1 & Q2 & Q3 & Q4 & Q5 & (nt & Q6) & Q7).
  (* it is processed *)
  set (r3 := receiver_turn F slice ck (rp_bob s2) kr).
  set (s3 := mk_rldp_pair (rp_alice s2) (fst r3) (rp_from_alice s2) (rp_from_bob s2 ++ snd r3)).
  assert (Hp3 : forall cs : list (command E), play w s2 (Bob (NReceiver kr) :: cs) = play w s3 cs).
  { intros cs. rewrite play_cons. f_equal. cbn [event_of pair_step rldp_step]. fold r3. unfold s3. destruct r3. reflexivity. }
  pose proof (receive_one_id F t m) as Hid. pose proof (reply_id F t m) as Hrid.
  assert (Hr3 : snd r3 = match snd (receive_one F t m) with Some y => [(rw_alice_id w, y)] | None => [] end
    /\ rn_table (fst r3) = rn_table (fst r2) /\ rn_queries (fst r3) = rn_queries (fst r2) /\ rn_answers (fst r3) = rn_answers (fst r2)
    /\ rn_receivers (fst r3) !! kr = Some (mk_receiver (rw_alice_id w) (fst (receive_one F t m)) [] None (incoming_done (fst (receive_one F t m))))).
  { destruct (receiver_turn_frame F slice ck (rp_bob s2) kr) as (F1 & F2 & F3 & _). fold r3 in F1, F2, F3.
    assert (G : snd r3 = match snd (receive_one F t m) with Some y => [(rw_alice_id w, y)] | None => [] end
      /\ rn_receivers (fst r3) !! kr = Some (mk_receiver (rw_alice_id w) (fst (receive_one F t m)) [] None (incoming_done (fst (receive_one F t m))))).
    { unfold r3, receiver_turn. unfold s2. cbn [rp_bob]. rewrite Q6. cbn [rc_finished rc_queue rc_peer rc_transfer rc_notify].
      destruct (receive_one F t m) as [t' reply]. cbn [fst snd].
      replace (if incoming_done t' then [] else []) with (@nil chunk) by (destruct (incoming_done t'); reflexivity).
      split; [reflexivity|].
      set (n1 := set_receivers _ _).
      assert (Hn : rn_receivers (match nt with Some s => fst (sender_event F slice ck n1 s EvReply) | None => n1 end) = rn_receivers n1).
      { destruct nt; [apply sender_event_frame|reflexivity]. }
      rewrite Hn. cbn [n1 rn_receivers set_receivers]. apply list_lookup_insert. eapply lookup_lt_Some. exact Q6. }
    destruct G as [G1 G2]. split; [exact G1|]. split; [exact F1|]. split; [exact F2|]. split; [exact F3|exact G2]. }
  destruct Hr3 as (T1 & T2 & T3 & T4 & T5).
  assert (H3 : linked id ks kr s0 s3 (x1, fst (receive_one F t m))).
  { constructor; cbn [fst snd]; unfold s3, s2; cbn [rp_alice rp_bob].
    - exact M1.
    - right. rewrite T4. split; [|exact Q7]. split; [exists None; exact T5|]. split; [congruence|]. cbn [rp_bob]. rewrite T2. exact Q4.
    - intros k Hk. rewrite T2, Q3 by exact Hk. now apply M3.
    - rewrite T3, Q2. exact M4.
    - exact M5. }
  pose proof (reply_to F t m) as Hrep. rewrite Q5 in Hrep.
  assert (Htr : exists reports, rp_from_alice s3 = rp_from_alice s ++ map (fun m => (rw_bob_id w, chunk_message id m)) [m]
    /\ rp_from_bob s3 = rp_from_bob s ++ map (fun y => (rw_alice_id w, y)) reports
    /\ (length reports <= length [m])%nat /\ Forall (fun y => exists m', In m' [m] /\ answers_to id m' y) reports
    /\ (forall y, snd (receive_one F t m) = Some y -> reports = [y])).
  { exists (match snd (receive_one F t m) with Some y => [y] | None => [] end).
    unfold s3, s2. cbn [rp_from_alice rp_from_bob]. rewrite Hfa1, Hfb1, Q1, app_nil_r, T1. split; [reflexivity|].
    destruct (snd (receive_one F t m)) as [y|]; cbn [map length].
    - split; [reflexivity|]. split; [lia|]. split; [|intros y' H; now injection H as ->].
      constructor; [|constructor]. exists m. split; [now left|]. now apply Hrep.
    - split; [reflexivity|]. split; [lia|]. split; [constructor|]. intros y' H. discriminate H. }
  destruct Htr as (reports & Z1 & Z2 & Z3 & Z4 & Z5).
  destruct (receive_one F t m) as [t' reply]. cbn [fst snd] in *.
  assert (Hno : exists cs : list (command E), forallb plain cs = true /\ forallb transfer_only cs = true
    /\ linked id ks kr s0 (play w s cs) (x1, t') /\ traced w id s (play w s cs) cs [m]).
  { exists [Alice (NSender ks LoopStep); ToBob (length (rp_from_alice s)); Bob (NReceiver kr)]. split; [reflexivity|].
    split; [reflexivity|]. rewrite Hp1, Hp2, Hp3. split; [exact H3|]. exists reports. unfold play. cbn [events_of pair_run fold_left].
    split; [exact Z1|]. split; [exact Z2|]. split; [exact Z3|]. split; [exact Z4|].
    cbn [to_bob to_alice flat_map app]. split; [|apply within_nil]. apply within_one. rewrite Z1, app_length. cbn [map length]. lia. }
  destruct reply as [[| |id' j]|]; [exact Hno|exact Hno| |exact Hno].
  (* the report arrives *)
  subst id'. rewrite Q5 in T1. clear Hno.
  destruct (send_step F slice ck x1 (EvComplete j)) as [x2 out2] eqn:Est2.
  pose proof (sender_plays id ks kr s0 s3 x1 t' (EvComplete j) x2 out2 H3 Est2) as H4. cbv zeta in H4. destruct H4 as [H4 Ho4].
  assert (Hout2 : out2 = None) by (cbn [send_step] in Est2; now injection Est2 as _ <-). rewrite Hout2 in Ho4.
  exists [Alice (NSender ks LoopStep); ToBob (length (rp_from_alice s)); Bob (NReceiver kr); ToAlice (length (rp_from_bob s))].
  split; [reflexivity|]. split; [reflexivity|].
  assert (Hfb : rp_from_bob s3 = rp_from_bob s ++ [(rw_alice_id w, MpComplete id j)]).
  { unfold s3, s2, s1. cbn [rp_from_bob]. rewrite Q1, app_nil_r, T1. reflexivity. }
  rewrite Hp1, Hp2, Hp3, play_cons. cbn [event_of]. rewrite Hfb, nth_error_app2, Nat.sub_diag by lia. cbn [nth_error].
  rewrite bytes_eqb_refl. cbn [pair_step rldp_step handle_message]. unfold handle_report.
  destruct M1 as (_ & _ & Htab). assert (Htab' : rn_table (rp_alice s3) !! id = Some (TOutgoing ks)) by exact Htab. rewrite Htab'.
  cbn [play events_of pair_run fold_left]. unfold play. cbn [events_of pair_run fold_left fst].
  destruct (sender_event F slice ck (rp_alice s3) ks (EvComplete j)) as [n4 o4]. split; [exact H4|].
  cbn [snd] in Ho4. subst o4. exists reports. cbn [rp_from_alice rp_from_bob]. rewrite app_nil_r.
  split; [exact Z1|]. split; [exact Z2|]. split; [exact Z3|]. split; [exact Z4|]. cbn [to_bob to_alice flat_map app].
  split; apply within_one.
  - rewrite Z1, app_length. cbn [map length]. lia.
  - rewrite Hfb, app_length. cbn [length]. lia.
Qed.

Lemma turns_play : forall n id ks kr s0 s st, linked id ks kr s0 s st ->
  exists cs : list (command E), forallb plain cs = true /\ forallb transfer_only cs = true
    /\ linked id ks kr s0 (play w s cs) (turns n st) /\ traced w id s (play w s cs) cs (outs F slice ck false n st).
Proof.
  induction n as [|n IH]; intros id ks kr s0 s st HL.
  - exists []. split; [reflexivity|]. split; [reflexivity|]. split; [exact HL|apply traced_nil].
  - destruct (turn_plays id ks kr s0 s st HL) as (cs1 & A1 & A2 & A3 & A4).
    destruct (IH id ks kr s0 _ _ A3) as (cs2 & B1 & B2 & B3 & B4).
    exists (cs1 ++ cs2). rewrite !forallb_app, A1, B1, A2, B2. split; [reflexivity|]. split; [reflexivity|].
    rewrite play_app. split; [exact B3|]. cbn [outs]. now apply (traced_app E w id s (play w s cs1)).
Qed.
End Transfer.

(** ** Before the query *)

Definition untouched (i : bytes) (n : rldp_node) : Prop := forall k, of_query i k -> rn_table n !! k = None.

Lemma untouched_step : forall E w i o n (ev : rldp_event E), untouched i n ->
  (forall k a, rn_answers n !! k = Some a -> ~ of_query i (an_id a)) ->
  (forall k a x, rn_answers n !! k = Some a -> an_stage a = ASleeping (Some x) -> x = negate_id (an_id a)) ->
  (forall k q, rn_queries n !! k = Some q -> ~ of_query i (qr_id q)) ->
  (forall peer id q1 t1 p1, ev = NQuery peer id q1 t1 p1 -> ~ of_query i id) ->
  (forall peer id f a b c d, ev = NMessage peer (MpPart id f a b c d) -> ~ of_query i id) ->
  untouched i (fst (rldp_step (rw_fec w) (rw_slice w) (rw_checked w) (rw_zstd w) o n ev)).
Proof.
  intros E w i o n ev H Ha Hx Hq Hnq Hnm.
  assert (Hne : forall id k, ~ of_query i id -> of_query i k -> id <> k /\ negate_id id <> k).
  { intros id k Hid Hk. split; [congruence|]. intros <-. apply Hid. now apply of_query_negate. }
  assert (Hdone : forall id e, ~ of_query i id -> untouched i (set_table n (<[id := e]> (rn_table n)))).
  { intros id e Hid k Hk. destruct (Hne id k Hid Hk). cbn. rewrite lookup_insert_ne by assumption. now apply H. }
  destruct ev as [peer id q1 t1 p1|peer m|r0|s ev|k0 gu|k0 subs|k0]; cbn [rldp_step fst].
  - specialize (Hnq peer id q1 t1 p1 eq_refl). intros k Hk. destruct (Hne id k Hnq Hk). cbn [start_query rn_table].
    rewrite !lookup_insert_ne by assumption. now apply H.
  - destruct m as [id f pt t sq d|id pt sq|id pt]; cbn [handle_message].
    + specialize (Hnm peer id f pt t sq d eq_refl).
      unfold handle_chunk. destruct (rn_table n !! id) as [[r1| |]|]; try exact H.
      * destruct (rn_receivers n !! r1) as [rc1|]; [|exact H]. cbn [fst]. destruct (rc_finished rc1); exact H.
      * cbn [fst]. exact (Hdone id _ Hnm).
    + destruct (report_frame (rw_fec w) (rw_slice w) (rw_checked w) n id (EvConfirm pt sq)) as (F1 & _). unfold untouched. rewrite F1. exact H.
    + destruct (report_frame (rw_fec w) (rw_slice w) (rw_checked w) n id (EvComplete pt)) as (F1 & _). unfold untouched. rewrite F1. exact H.
  - destruct (receiver_turn_frame (rw_fec w) (rw_slice w) (rw_checked w) n r0) as (F1 & _). unfold untouched. rewrite F1. exact H.
  - destruct (sender_event_frame (rw_fec w) (rw_slice w) (rw_checked w) n s (loop_send_event ev)) as (F1 & _). unfold untouched. rewrite F1. exact H.
  - unfold query_turn, put_query. destruct (rn_queries n !! k0) as [q'|] eqn:Ek; [|exact H]. cbv zeta.
    specialize (Hq k0 q' Ek).
    destruct (qr_stage q').
    + destruct (sender_result n (qr_sender q')) as [[[|]|]|]; [| | |exact H]; intros k Hk; destruct (Hne _ k Hq Hk); cbn;
        rewrite ?lookup_insert_ne by assumption; now apply H.
    + destruct gu; [|destruct (rn_receivers n !! qr_receiver q') as [rc1|]; [|exact H]; destruct (rc_finished rc1); [|exact H]];
        intros k Hk; destruct (Hne _ k Hq Hk); cbn; rewrite ?lookup_insert_ne by assumption; now apply H.
    + intros k Hk. destruct (Hne _ k Hq Hk). cbn. rewrite !lookup_delete_ne by assumption. now apply H.
    + exact H.
  - destruct (answer_turn_frame E (rw_zstd w) o subs n k0) as (_ & _ & _ & [->|(b & st & G1 & G2 & G3)]); [exact H|].
    intros k Hk. specialize (Ha k0 b G1). destruct (Hne _ k Ha Hk) as [N1 N2]. rewrite G3; [now apply H|congruence|congruence|].
    intros x Hxx. rewrite (Hx k0 b x G1 Hxx). congruence.
  - unfold timer_fires. destruct (rn_answers n !! k0) as [b|] eqn:Ek; [|exact H]. destruct (an_timer b); [|exact H].
    exact (Hdone (an_id b) _ (Ha k0 b Ek)).
Qed.

Section Ask.
Context {E : Type} (w : rldp_world) (Hw : world_ok w) (i qid : bytes) (Hi : hash_ok i) (Hq : hash_ok qid).

Definition fresh (s : rldp_pair) : Prop :=
  quiet w i s /\ untouched i (rp_alice s) /\ untouched i (rp_bob s)
  /\ forall k q, rn_queries (rp_bob s) !! k = Some q -> ~ of_query i (qr_id q).

Lemma good_answers : forall n, good (rw_fec w) (rw_slice w) (nothing i) (nothing i) n ->
  (forall k a, rn_answers n !! k = Some a -> ~ of_query i (an_id a))
  /\ forall k a x, rn_answers n !! k = Some a -> an_stage a = ASleeping (Some x) -> x = negate_id (an_id a).
Proof.
  intros n Hg. split.
  - intros k a Ha Ho. destruct (g_answers _ _ _ _ n Hg k a Ha) as (_ & B & _). apply B.
    now apply nothing_q.
  - intros k a x Ha Hs. destruct (g_answers _ _ _ _ n Hg k a Ha) as (_ & _ & C). now apply C.
Qed.

Lemma fresh_step : forall s (ev : pair_event E), fresh s -> private w i s ev -> fresh (pair_step w s ev).
Proof.
  intros s ev (Q & UA & UB & QB) Hpr.
  pose proof (quiet_step w Hw i qid Hi 0 [] (Ok (Processed None) : res (query_error E) processed) None (or_introl eq_refl) s ev Q Hpr) as Q'.
  split; [exact Q'|]. destruct Q as ((C1 & C2 & C3 & C4 & C5) & _).
  destruct (good_answers _ C1) as [A1 A2]. destruct (good_answers _ C2) as [B1 B2].
  destruct ev as [ev|ev]; cbn [pair_step].
  - assert (U : untouched i (fst (rldp_step (rw_fec w) (rw_slice w) (rw_checked w) (rw_zstd w) (rw_alice w) (rp_alice s) ev))).
    { apply untouched_step; try assumption.
      - intros ? ? ? ? ? ->. exact Hpr.
      - intros peer id f a b c d -> Ho. destruct (Hpr Ho) as [_ Hin]. specialize (C4 _ _ _ _ _ _ _ Hin).
        unfold chunk_good in C4. now rewrite (nothing_q i Hi _ Ho) in C4. }
    destruct (rldp_step _ _ _ _ _ _ ev) as [n out]. split; [exact U|]. split; [exact UB|exact QB].
  - assert (U : untouched i (fst (rldp_step (rw_fec w) (rw_slice w) (rw_checked w) (rw_zstd w) (rw_bob w) (rp_bob s) ev))).
    { apply untouched_step; try assumption.
      - intros ? ? ? ? ? ->. exact Hpr.
      - intros peer id f a b c d -> Ho. destruct (Hpr Ho) as [_ Hin]. specialize (C3 _ _ _ _ _ _ _ Hin).
        unfold chunk_good in C3. now rewrite (nothing_q i Hi _ Ho) in C3. }
    assert (V : forall k q, rn_queries (fst (rldp_step (rw_fec w) (rw_slice w) (rw_checked w) (rw_zstd w) (rw_bob w) (rp_bob s) ev)) !! k = Some q -> ~ of_query i (qr_id q)).
    { apply queries_ids; [|exact QB]. intros ? ? ? ? ? ->. exact Hpr. }
    destruct (rldp_step _ _ _ _ _ _ ev) as [n out]. split; [exact UA|]. split; [exact U|exact V].
Qed.
Lemma fresh_new : fresh rldp_pair_new.
Proof.
  split; [apply quiet_new|]. split; [intros k _; apply lookup_empty|]. split; [intros k _; apply lookup_empty|].
  intros k q H. cbn in H. rewrite lookup_nil in H. discriminate.
Qed.
Lemma fresh_run : forall (evs : list (pair_event E)) s, fresh s -> private_run w i s evs -> fresh (pair_run w s evs).
Proof.
  induction evs as [|ev evs IH]; intros s Hs Hpr; [exact Hs|]. destruct Hpr as [H1 H2].
  apply (IH (pair_step w s ev)); [now apply fresh_step|exact H2].
Qed.
End Ask.

(** ** Steps of the tasks *)

Lemma query_sent : forall n k pe id q s r, rn_queries n !! k = Some (mk_query_run pe id q s r QSending) ->
  sender_result n s = Some (SendOk true) ->
  query_turn n k false = set_queries (set_table n (<[id := TDone]> (rn_table n))) (<[k := mk_query_run pe id q s r QWaiting]> (rn_queries n)).
Proof. intros n k pe id q s r H1 H2. unfold query_turn. rewrite H1. cbn [qr_stage qr_sender qr_id]. rewrite H2. reflexivity. Qed.
Lemma query_done : forall n k pe id q s r rc, rn_queries n !! k = Some (mk_query_run pe id q s r QWaiting) ->
  rn_receivers n !! r = Some rc -> rc_finished rc = true ->
  rn_queries (query_turn n k false)
  = <[k := mk_query_run pe id q s r (QReturned (Some (Some (it_data (rc_transfer rc)))))]> (rn_queries n).
Proof.
  intros n k pe id q s r rc H1 H2 H3. unfold query_turn. rewrite H1. cbn [qr_stage qr_sender qr_id qr_receiver]. rewrite H2, H3. reflexivity.
Qed.
Lemma answer_received : forall E z o (subs : list (subscriber E)) n k pe id r rc, rn_answers n !! k = Some (mk_answer_run pe id r AReceiving true) ->
  rn_receivers n !! r = Some rc -> rc_finished rc = true ->
  answer_turn z o subs n k
  = set_answers (set_table n (<[id := TDone]> (rn_table n))) (<[k := mk_answer_run pe id r AProcessing true]> (rn_answers n)).
Proof.
  intros E z o subs n k pe id r rc H1 H2 H3. unfold answer_turn. rewrite H1. cbn [an_stage an_receiver an_id]. rewrite H2, H3. reflexivity.
Qed.
Lemma answer_given : forall E z o (subs : list (subscriber E)) n k pe id r rc qid max d x log,
  rn_answers n !! k = Some (mk_answer_run pe id r AProcessing true) ->
  rn_receivers n !! r = Some rc -> query_from_data (it_data (rc_transfer rc)) = Some (qid, max, d) ->
  process_rldp_query z subs (ro_force o) qid max d = (Ok (Processed (Some x)), log) ->
  let n' := answer_turn z o subs n k in
  rn_table n' = <[negate_id id := TOutgoing (length (rn_senders n))]> (rn_table n)
  /\ rn_senders n' = rn_senders n ++ [mk_out_task pe (sender_new (negate_id id) x)].
Proof.
  intros E z o subs n k pe id r rc qid max d x log H1 H2 H3 H4 n'. unfold n', answer_turn. rewrite H1. cbn [an_stage an_receiver an_id].
  rewrite H2, H3, H4. split; reflexivity.
Qed.

Lemma query_length : forall z force max tmo qid now p, hash_ok qid ->
  N.of_nat (length (sent_payload z force p)) < N.of_nat (length (make_query z force max tmo qid now p))
  <= N.of_nat (length (sent_payload z force p)) + 55.
Proof.
  intros z force max tmo qid now p Hq. unfold make_query, sent_payload. cbv zeta. cbn [put_rldp_message]. unfold put_u32, put_u64, put_hash.
  rewrite !app_length, !le_bytes_length. unfold hash_ok in Hq.
  set (d := if force then compress z p else p). clearbody d. pose proof (RldpQueryFacts.put_bytes_length d).
  assert (G : N.of_nat (4 + (length qid + (8 + (4 + length (put_bytes d))))) = N.of_nat (length (put_bytes d)) + 48) by lia.
  rewrite G. lia.
Qed.
Lemma short_parts : forall slice data, 0 < slice -> N.of_nat (length data) < u32_max -> part_count slice data < u32_max.
Proof.
  intros slice data Hs H. destruct (N.lt_ge_cases (part_count slice data) u32_max) as [G|G]; [exact G|]. exfalso.
  assert (Hlt : u32_max - 1 < part_count slice data) by (unfold u32_max in *; lia).
  apply part_count_spec in Hlt; [|exact Hs]. unfold u32_max in *. nia.
Qed.

(** ** Everything sent meanwhile is well-formed, and only that arrives *)

Definition carries (m : message_part) : Prop :=
  message_part_ok m /\ match m with MpPart _ _ _ _ _ d => N.of_nat (length d) <= 768 | _ => True end.
Definition neat {E} (w : rldp_world) (s s' : rldp_pair) (cs : list (command E)) (n : N) : Prop :=
  exists ma mb,
  rp_from_alice s' = rp_from_alice s ++ map (fun m => (rw_bob_id w, m)) ma
  /\ rp_from_bob s' = rp_from_bob s ++ map (fun m => (rw_alice_id w, m)) mb
  /\ Forall carries ma /\ Forall carries mb /\ N.of_nat (length ma + length mb) <= n
  /\ within (to_bob cs) (length (rp_from_alice s)) (length (rp_from_alice s'))
  /\ within (to_alice cs) (length (rp_from_bob s)) (length (rp_from_bob s')).

Lemma neat_silent : forall E w s s' (cs : list (command E)), rp_from_alice s' = rp_from_alice s -> rp_from_bob s' = rp_from_bob s ->
  to_bob cs = [] -> to_alice cs = [] -> neat w s s' cs 0.
Proof.
  intros E w s s' cs H1 H2 H3 H4. exists [], []. cbn [map]. rewrite !app_nil_r, H1, H2, H3, H4. split; [reflexivity|]. split; [reflexivity|].
  split; [constructor|]. split; [constructor|]. split; [cbn; lia|]. split; apply within_nil.
Qed.
Lemma neat_app : forall E w s1 s2 s3 (cs1 cs2 : list (command E)) n1 n2,
  neat w s1 s2 cs1 n1 -> neat w s2 s3 cs2 n2 -> neat w s1 s3 (cs1 ++ cs2) (n1 + n2).
Proof.
  intros E w s1 s2 s3 cs1 cs2 n1 n2 (a1 & b1 & A1 & A2 & A3 & A4 & A5 & A6 & A7) (a2 & b2 & B1 & B2 & B3 & B4 & B5 & B6 & B7).
  exists (a1 ++ a2), (b1 ++ b2). rewrite !map_app, B1, A1, B2, A2, <- !app_assoc. split; [reflexivity|]. split; [reflexivity|].
  split; [now apply List.Forall_app|]. split; [now apply List.Forall_app|]. split; [rewrite !app_length; lia|].
  unfold to_bob, to_alice in *. rewrite !flat_map_app.
  rewrite A1, app_length in A6. rewrite A2, app_length in A7. rewrite B1, A1, !app_length in B6. rewrite B2, A2, !app_length in B7.
  rewrite !app_length in *.
  split; (eapply within_app; [eassumption| |]).
  - rewrite Nat.add_assoc. exact B6.
  - lia.
  - rewrite Nat.add_assoc. exact B7.
  - lia.
Qed.
Lemma to_swap : forall E (cs : list (command E)), to_bob (map swap_command cs) = to_alice cs /\ to_alice (map swap_command cs) = to_bob cs.
Proof.
  intros E cs. unfold to_bob, to_alice. induction cs as [|c cs [I1 I2]]; [split; reflexivity|]. cbn [map flat_map]. rewrite I1, I2.
  destruct c; split; reflexivity.
Qed.
Lemma swap_swap : forall s, swap_pair (swap_pair s) = s.
Proof. now intros []. Qed.
Lemma neat_swap : forall E w s s' (cs : list (command E)) n, neat (swap_world w) (swap_pair s) (swap_pair s') cs n ->
  neat w s s' (map swap_command cs) n.
Proof.
  intros E w s s' cs n (ma & mb & A1 & A2 & A3 & A4 & A5 & A6 & A7). exists mb, ma. destruct (to_swap E cs) as [-> ->].
  split; [exact A2|]. split; [exact A1|]. split; [exact A4|]. split; [exact A3|]. split; [lia|]. split; [exact A7|exact A6].
Qed.

Lemma chunk_carried : forall F slice data id m, fec_ok F -> 0 < slice -> slice < u32_max -> hash_ok id ->
  N.of_nat (length data) < u32_max -> source_chunk F slice data m ->
  carries (chunk_message id m) /\ forall y, answers_to id m y -> carries y.
Proof.
  intros F slice data id m HF Hs Hs32 Hid Hd (p & k & -> & Hp & Hk).
  pose proof (part_of_size slice data p Hs Hp) as Hsz. pose proof (short_parts slice data Hs Hd) as Hpc.
  pose proof (fec_count_bounds F (part_of slice data p) HF ltac:(lia) ltac:(lia)) as Hc.
  assert (Hp32 : u32_ok p) by (unfold u32_ok; unfold u32_max in Hpc; lia).
  assert (Hk32 : u32_ok k) by (unfold u32_ok; unfold u32_max in Hc; lia).
  split.
  - unfold carries, chunk_message, chunk_of. cbn [message_part_ok ch_fec ch_part ch_total ch_seqno ch_data].
    rewrite (fec_symbol_size F HF). split; [|unfold symbol_size; lia].
    split; [exact Hid|]. split; [|split; [exact Hp32|split; [|split; [exact Hk32|]]]].
    + unfold fec_type_ok, fec_params, u32_ok. cbn [ft_total_len ft_packet_len ft_packet_count].
      split; [apply N.mod_lt; discriminate|]. split; [reflexivity|apply N.mod_lt; discriminate].
    + unfold u64_ok. unfold u32_max in Hd. eapply N.lt_trans; [exact Hd|reflexivity].
    + unfold blob_ok. rewrite (fec_symbol_size F HF), N2Nat.id. reflexivity.
  - intros y [-> | ->]; unfold carries, chunk_of; cbn [message_part_ok ch_part ch_seqno]; auto.
Qed.
Lemma traced_neat : forall E w id data s s' (cs : list (command E)) ms, world_ok w -> hash_ok id ->
  N.of_nat (length data) < u32_max -> Forall (source_chunk (rw_fec w) (rw_slice w) data) ms -> (length ms <= length data)%nat ->
  traced w id s s' cs ms -> neat w s s' cs (2 * N.of_nat (length data)).
Proof.
  intros E w id data s s' cs ms (HF & Hs & Hs32) Hid Hd Hms Hl (reports & A1 & A2 & A3 & A4 & A5 & A6).
  rewrite List.Forall_forall in Hms.
  exists (map (chunk_message id) ms), reports. rewrite map_map. split; [exact A1|]. split; [exact A2|].
  split; [|split; [|split; [rewrite map_length; lia|split; [exact A5|exact A6]]]].
  - apply List.Forall_forall. intros y Hy. apply in_map_iff in Hy as (m & <- & Hm).
    exact (proj1 (chunk_carried (rw_fec w) (rw_slice w) data id m HF Hs Hs32 Hid Hd (Hms m Hm))).
  - apply List.Forall_forall. intros y Hy. rewrite List.Forall_forall in A4. destruct (A4 y Hy) as (m & Hm & Hmy).
    exact (proj2 (chunk_carried (rw_fec w) (rw_slice w) data id m HF Hs Hs32 Hid Hd (Hms m Hm)) y Hmy).
Qed.

(** ** Every query can be answered *)

Theorem rldp_answers_neatly : forall E (w : rldp_world) i qid now p a (subs : list (subscriber E)) (pre : list (pair_event E)),
  world_ok w -> hash_ok i -> hash_ok qid -> u64_ok (ro_max_answer (rw_alice w)) ->
  blob_ok (sent_payload (rw_zstd w) (ro_force (rw_alice w)) p) -> blob_ok (on_the_wire w p a) ->
  fst (process_query subs (as_asked w p)) = Ok (Processed (Some a)) ->
  N.of_nat (length (sent_payload (rw_zstd w) (ro_force (rw_alice w)) p)) + 55 <= ro_max_answer (rw_bob w) ->
  N.of_nat (length (on_the_wire w p a)) + 43 <= ro_max_answer (rw_alice w) ->
  private_run w i rldp_pair_new pre ->
  let s0 := pair_run w rldp_pair_new pre in
  let k := length (rn_queries (rp_alice s0)) in
  let s1 := pair_step (E:=E) w s0 (AtAlice (NQuery (rw_bob_id w) i qid now p)) in
  exists cs, forallb plain cs = true
    /\ (forall k subs', In (Bob (NAnswerTurn k subs')) cs -> subs' = subs)
    /\ alice_result w (pair_run w s1 (events_of w s1 cs)) k = Some (RAnswered (as_answered w p a))
    /\ neat w s1 (pair_run w s1 (events_of w s1 cs)) cs (2 ^ 27).
Proof.
  intros E w i qid now p a subs pre Hw Hi Hq Hmax Hp Ha Hsubs Hmb Hma Hpre s0 k s1.
  assert (Hfr : fresh w i s0) by (apply (fresh_run w Hw i qid Hi); [apply fresh_new|exact Hpre]).
  destruct Hfr as (_ & UA & UB & _).
  assert (Hnd : negate_id i <> i) by (apply negate_differs; intros ->; discriminate Hi).
  set (D := make_query (rw_zstd w) (ro_force (rw_alice w)) (ro_max_answer (rw_alice w)) (ro_max_timeout (rw_alice w)) qid now p).
  pose proof (query_length (rw_zstd w) (ro_force (rw_alice w)) (ro_max_answer (rw_alice w)) (ro_max_timeout (rw_alice w)) qid now p Hq) as HD.
  fold D in HD.
  set (ks := length (rn_senders (rp_alice s0))). set (kr := length (rn_receivers (rp_bob s0))).
  set (r0 := length (rn_receivers (rp_alice s0))). set (ka := length (rn_answers (rp_bob s0))).
  assert (Es1 : s1 = mk_rldp_pair (start_query (rw_zstd w) (rw_alice w) (rp_alice s0) (rw_bob_id w) i qid now p) (rp_bob s0)
                       (rp_from_alice s0 ++ []) (rp_from_bob s0)) by reflexivity.
  assert (L1 : linked w i ks kr s1 s1 (sender_new i D, incoming_new i (ro_max_answer (rw_bob w)))).
  { rewrite Es1. constructor; cbn [fst snd rp_alice rp_bob]; try reflexivity.
    - split; [|split]; cbn [rp_alice start_query rn_senders rn_table].
      + fold ks. rewrite lookup_app_r, Nat.sub_diag by (unfold ks; lia). reflexivity.
      + reflexivity.
      + fold ks. rewrite lookup_insert_ne by congruence. apply lookup_insert.
    - left. split; [|split; [|reflexivity]].
      + split; [|split; reflexivity]. cbn [rp_bob]. apply UB. now left.
      + apply UB. now left.
    - repeat split. }
  pose proof Hw as Hw0. destruct Hw as (HF & Hs & Hs32).
  destruct (exchange_chunks (rw_fec w) (rw_slice w) (rw_checked w) false D i i (ro_max_answer (rw_bob w)) HF Hs Hs32) as (n1 & Hn1 & Ho1 & Hl1).
  { discriminate. }
  { intros HD0. rewrite HD0 in HD. cbn in HD. lia. }
  { apply short_parts; [exact Hs|]. unfold blob_ok in Hp. unfold u32_max. lia. }
  { lia. }
  specialize (Hn1 n1 (Nat.le_refl n1)).
  destruct (turns_play (E:=E) w n1 i ks kr s1 s1 _ L1) as (cs1 & P1 & T1 & L2 & Tr1).
  apply (traced_neat E w i D) in Tr1; [|exact Hw0|exact Hi|unfold blob_ok in Hp; unfold u32_max; lia|exact Ho1|exact Hl1]. clear Ho1 Hl1.
  destruct (turns (rw_fec w) (rw_slice w) (rw_checked w) false n1 (sender_new i D, incoming_new i (ro_max_answer (rw_bob w)))) as [x1 t1].
  destruct Hn1 as (X1 & X2 & X3). set (s2 := play w s1 cs1) in *.
  destruct L2 as [(A1 & A2 & A3) B1 B2 B3 (C1 & C2 & C3 & C4)]. cbn [fst snd] in *.
  destruct B1 as [((_ & _ & ->) & _)|(((nt & R1) & R2 & R3) & [(_ & R5)|(R4 & _)])]; [discriminate X2| |].
  2: { rewrite Es1 in R4. cbn [rp_bob] in R4. rewrite (UB i (or_introl eq_refl)) in R4. discriminate R4. }
  assert (Rb : rn_answers (rp_bob s1) = rn_answers (rp_bob s0)) by reflexivity. rewrite Rb in R5. clear Rb.
  (* the sending loop returns *)
  assert (Q2 : rn_queries (rp_alice s2) !! k = Some (mk_query_run (rw_bob_id w) i qid ks r0 QSending)).
  { rewrite C3, Es1. cbn [rp_alice start_query rn_queries]. rewrite lookup_app_r by (unfold k; lia).
    replace (k - length (rn_queries (rp_alice s0)))%nat with 0%nat by (unfold k; lia). reflexivity. }
  assert (SR : sender_result (rp_alice s2) ks = Some (SendOk true)).
  { unfold sender_result. rewrite A1. cbn [ou_sender]. now rewrite X1. }
  set (al3 := set_queries (set_table (rp_alice s2) (<[i := TDone]> (rn_table (rp_alice s2))))
                (<[k := mk_query_run (rw_bob_id w) i qid ks r0 QWaiting]> (rn_queries (rp_alice s2)))).
  (* the answer is given *)
  assert (An : rn_answers (rp_bob s2) !! ka = Some (mk_answer_run (rw_alice_id w) i kr AReceiving true)).
  { rewrite R5, lookup_app_r by (unfold ka; lia).
    replace (ka - length (rn_answers (rp_bob s0)))%nat with 0%nat by (unfold ka; lia). reflexivity. }
  rewrite X2 in R1.
  set (bo4 := set_answers (set_table (rp_bob s2) (<[i := TDone]> (rn_table (rp_bob s2))))
                (<[ka := mk_answer_run (rw_alice_id w) i kr AProcessing true]> (rn_answers (rp_bob s2)))).
  pose proof (answer_received E (rw_zstd w) (rw_bob w) subs (rp_bob s2) ka _ _ _ _ An R1 eq_refl) as E4. fold bo4 in E4.
  assert (An4 : rn_answers bo4 !! ka = Some (mk_answer_run (rw_alice_id w) i kr AProcessing true)).
  { unfold bo4. cbn [rn_answers set_answers]. apply list_lookup_insert. eapply lookup_lt_Some. exact An. }
  destruct (process_query subs (as_asked w p)) as [given log] eqn:Epq. cbn [fst] in Hsubs. subst given.
  pose proof (answer_limit E (rw_zstd w) subs (ro_force (rw_bob w)) qid (ro_max_answer (rw_alice w)) _ a log Epq) as Hal.
  cbv zeta in Hal. fold (on_the_wire w p a) in Hal.
  assert (Hle : (N.of_nat (length (on_the_wire w p a)) <=? ro_max_answer (rw_alice w)) = true) by (apply N.leb_le; lia).
  rewrite Hle in Hal. set (x := put_rldp_message (RAnswer qid (on_the_wire w p a))) in *.
  destruct (answer_given E (rw_zstd w) (rw_bob w) subs bo4 ka (rw_alice_id w) i kr _ qid (ro_max_answer (rw_alice w)) (sent_payload (rw_zstd w) (ro_force (rw_alice w)) p) x log An4 R1) as [G1 G2].
  { cbn [rc_transfer]. rewrite X3. unfold D. now apply query_arrives. }
  { exact Hal. }
  set (bo5 := answer_turn (rw_zstd w) (rw_bob w) subs bo4 ka) in *.
  set (s5 := mk_rldp_pair al3 bo5 ((rp_from_alice s2 ++ [])) ((rp_from_bob s2 ++ []) ++ [])).
  assert (Hp5 : play w s2 [Alice (NQueryTurn k false); Bob (NAnswerTurn ka subs); Bob (NAnswerTurn ka subs)] = s5).
  { rewrite !play_cons. cbn [event_of pair_step rldp_step rp_alice rp_bob rp_from_alice rp_from_bob].
    rewrite (query_sent _ _ _ _ _ _ _ Q2 SR). fold al3. rewrite E4. fold bo5. reflexivity. }
  (* the answer is sent *)
  set (kb := length (rn_senders bo4)) in *.
  set (w' := swap_world w).
  assert (Rc : rn_receivers al3 !! r0 = Some (receiver_new (rw_bob_id w) (negate_id i) (ro_max_answer (rw_alice w)) (Some ks) [])).
  { unfold al3. cbn [rn_receivers set_queries set_table]. rewrite C2, Es1. cbn [rp_alice start_query rn_receivers].
    rewrite lookup_app_r by (unfold r0; lia).
    replace (r0 - length (rn_receivers (rp_alice s0)))%nat with 0%nat by (unfold r0; lia). reflexivity. }
  assert (Ta : rn_table al3 !! negate_id i = Some (TIncoming r0)).
  { unfold al3. cbn [rn_table set_queries set_table]. rewrite lookup_insert_ne by congruence. rewrite C1, Es1.
    cbn [rp_alice start_query rn_table]. apply lookup_insert. }
  assert (L5 : linked w' (negate_id i) kb r0 (swap_pair s5) (swap_pair s5)
                 (sender_new (negate_id i) x, incoming_new (negate_id i) (ro_max_answer (rw_alice w)))).
  { constructor; cbn [fst snd swap_pair rp_alice rp_bob]; try reflexivity.
    - split; [|split]; cbn [swap_pair rp_alice s5 rp_bob w' swap_world rw_bob_id].
      + rewrite G2, lookup_app_r, Nat.sub_diag by (unfold kb; lia). reflexivity.
      + reflexivity.
      + rewrite G1. apply lookup_insert.
    - right. split.
      + split; [|split; [reflexivity|exact Ta]]. exists (Some ks). exact Rc.
      + right. split; [exact Ta|reflexivity].
    - repeat split. }
  pose proof (answer_length qid (on_the_wire w p a) Hq) as Hx. fold x in Hx.
  destruct (exchange_chunks (rw_fec w) (rw_slice w) (rw_checked w) false x (negate_id i) (negate_id i) (ro_max_answer (rw_alice w)) HF Hs Hs32) as (n2 & Hn2 & Ho2 & Hl2).
  { discriminate. }
  { intros HD0. rewrite HD0 in Hx. cbn in Hx. lia. }
  { apply short_parts; [exact Hs|]. unfold blob_ok in Ha. unfold u32_max. lia. }
  { lia. }
  specialize (Hn2 n2 (Nat.le_refl n2)).
  destruct (turns_play (E:=E) w' n2 (negate_id i) kb r0 (swap_pair s5) (swap_pair s5) _ L5) as (cs2 & P2 & T2 & L6 & Tr2).
  apply (traced_neat E w' (negate_id i) x) in Tr2;
    [|exact Hw0|unfold hash_ok in *; now rewrite negate_length|unfold blob_ok in Ha; unfold u32_max; lia|exact Ho2|exact Hl2]. clear Ho2 Hl2.
  cbn [w' swap_world rw_fec rw_slice rw_checked] in L6.
  destruct (turns (rw_fec w) (rw_slice w) (rw_checked w) false n2
              (sender_new (negate_id i) x, incoming_new (negate_id i) (ro_max_answer (rw_alice w)))) as [x2 t2].
  destruct Hn2 as (Y1 & Y2 & Y3). fold w' in L6.
  set (s6 := swap_pair (play w' (swap_pair s5) cs2)).
  assert (Hp6 : play w s5 (map swap_command cs2) = s6) by (unfold s6, w'; rewrite <- swap_play; reflexivity).
  destruct L6 as [_ V1 _ V3 _]. cbn [fst snd] in *.
  assert (V3' : rn_queries (rp_alice s6) = rn_queries al3) by exact V3.
  assert (V1' : exists nt, rn_receivers (rp_alice s6) !! r0 = Some (mk_receiver (rw_bob_id w) t2 [] nt true)).
  { destruct V1 as [((_ & _ & ->) & _)|(((nt2 & V1) & _) & _)]; [discriminate Y2|]. rewrite Y2 in V1. exists nt2. exact V1. }
  destruct V1' as [nt2 V1'].
  assert (Q6 : rn_queries (rp_alice s6) !! k = Some (mk_query_run (rw_bob_id w) i qid ks r0 QWaiting)).
  { rewrite V3'. unfold al3. cbn [rn_queries set_queries]. apply list_lookup_insert. eapply lookup_lt_Some. exact Q2. }
  exists (cs1 ++ [Alice (NQueryTurn k false); Bob (NAnswerTurn ka subs); Bob (NAnswerTurn ka subs)]
            ++ map swap_command cs2 ++ [Alice (NQueryTurn k false)]).
  split; [rewrite !forallb_app, P1, (plain_swap _ _ P2); reflexivity|]. split.
  { intros k' subs' Hin. apply in_app_or in Hin as [Hin|Hin].
    { now apply (transfer_only_silent _ _ _ _ T1) in Hin. }
    apply in_app_or in Hin as [[Hin|[Hin|[Hin|[]]]]|Hin]; [discriminate|congruence|congruence|].
    apply in_app_or in Hin as [Hin|[Hin|[]]]; [|discriminate].
    now apply (transfer_only_silent _ _ _ _ (transfer_only_swap _ _ T2)) in Hin. }
  change (pair_run w s1 (events_of w s1 ?cs)) with (play w s1 cs). rewrite !play_app. fold s2. rewrite Hp5, Hp6. split.
  2: { fold s2 in Tr1.
       assert (Tr2' : neat w s5 s6 (map swap_command cs2) (2 * N.of_nat (length x))).
       { apply neat_swap. unfold s6. rewrite swap_swap. exact Tr2. }
       assert (Hfew : 2 * N.of_nat (length D) + (0 + (2 * N.of_nat (length x) + 0)) <= 2 ^ 27).
       { unfold blob_ok in Hp, Ha. change (2 ^ 27) with 134217728. change (2 ^ 24) with 16777216 in Hp, Ha. lia. }
       assert (Tr3 : neat w s2 s5 [Alice (NQueryTurn k false); Bob (NAnswerTurn ka subs); Bob (NAnswerTurn ka subs)] 0).
       { apply neat_silent; [unfold s5; cbn [rp_from_alice]; now rewrite app_nil_r|unfold s5; cbn [rp_from_bob]; now rewrite !app_nil_r|reflexivity|reflexivity]. }
       assert (Tr4 : neat w s6 (play (E:=E) w s6 [Alice (NQueryTurn k false)]) [Alice (NQueryTurn (E:=E) k false)] 0).
       { rewrite play_cons. cbn [event_of pair_step rldp_step]. unfold play. cbn [events_of pair_run fold_left].
         apply neat_silent; cbn [rp_from_alice rp_from_bob]; [now rewrite app_nil_r|reflexivity|reflexivity|reflexivity]. }
       pose proof (neat_app _ _ _ _ _ _ _ _ _ Tr1 (neat_app _ _ _ _ _ _ _ _ _ Tr3 (neat_app _ _ _ _ _ _ _ _ _ Tr2' Tr4))) as Tr.
       destruct Tr as (ma & mb & N1 & N2 & N3 & N4 & N5 & N6).
       exists ma, mb. split; [exact N1|]. split; [exact N2|]. split; [exact N3|]. split; [exact N4|]. split; [lia|exact N6]. }
  rewrite play_cons.
  cbn [event_of pair_step rldp_step]. unfold play. cbn [events_of pair_run fold_left]. unfold alice_result. cbn [rp_alice].
  rewrite (lookup_nth _ _ _ (mk_query_run (rw_bob_id w) i qid ks r0 (QReturned (Some (Some (it_data t2)))))).
  2: { rewrite (query_done _ _ _ _ _ _ _ _ Q6 V1' eq_refl). cbn [rc_transfer]. apply list_lookup_insert. eapply lookup_lt_Some. exact Q6. }
  cbn [query_returns qr_stage qr_query_id]. rewrite Y3. unfold x, on_the_wire. rewrite answer_arrives; [reflexivity|exact Hq|exact Ha].
Qed.

Theorem rldp_can_answer : forall E (w : rldp_world) i qid now p a (subs : list (subscriber E)) (pre : list (pair_event E)),
  world_ok w -> hash_ok i -> hash_ok qid -> u64_ok (ro_max_answer (rw_alice w)) ->
  blob_ok (sent_payload (rw_zstd w) (ro_force (rw_alice w)) p) -> blob_ok (on_the_wire w p a) ->
  fst (process_query subs (as_asked w p)) = Ok (Processed (Some a)) ->
  N.of_nat (length (sent_payload (rw_zstd w) (ro_force (rw_alice w)) p)) + 55 <= ro_max_answer (rw_bob w) ->
  N.of_nat (length (on_the_wire w p a)) + 43 <= ro_max_answer (rw_alice w) ->
  private_run w i rldp_pair_new pre ->
  let s0 := pair_run w rldp_pair_new pre in
  let k := length (rn_queries (rp_alice s0)) in
  let s1 := pair_step (E:=E) w s0 (AtAlice (NQuery (rw_bob_id w) i qid now p)) in
  exists cs, forallb plain cs = true
    /\ (forall k subs', In (Bob (NAnswerTurn k subs')) cs -> subs' = subs)
    /\ alice_result w (pair_run w s1 (events_of w s1 cs)) k = Some (RAnswered (as_answered w p a)).
Proof.
  intros E w i qid now p a subs pre H1 H2 H3 H4 H5 H6 H7 H8 H9 H10 s0 k s1.
  destruct (rldp_answers_neatly E w i qid now p a subs pre H1 H2 H3 H4 H5 H6 H7 H8 H9 H10) as (cs & A1 & A2 & A3 & _). eauto.
Qed.
