(** Every RLDP query returns, once. *)
From Coq Require Import List NArith Arith Lia Bool.
From Coq Require Import ZifyBool ZifyNat ZifyN.
From stdpp Require Import gmap.
From Verif.Base Require Import Bytes Res.
From Verif.Model Require Import Compression Fec Subscribers RldpTransfer RldpQuery RldpNode ProtoRldp.
From Verif.Spec Require Import ReturnSpec.
Import ListNotations.
Open Scope nat_scope.

Definition over (st : query_stage) : Prop := match st with QReturned _ | QCleared _ => True | _ => False end.
Definition outcome (st : query_stage) : option (option (option bytes)) :=
  match st with QReturned r | QCleared r => Some r | _ => None end.
(** The same query, further on. *)
Definition onward (q q' : query_run) : Prop :=
  qr_query_id q' = qr_query_id q /\ qr_sender q' = qr_sender q
  /\ (forall r, outcome (qr_stage q) = Some r -> outcome (qr_stage q') = Some r).

Lemma onward_refl : forall q, onward q q. Proof. intros q. repeat split. auto. Qed.
Lemma onward_trans : forall a b c, onward a b -> onward b c -> onward a c.
Proof. intros a b c (A1 & A2 & A3) (B1 & B2 & B3). repeat split; [congruence|congruence|]. auto. Qed.

Definition grows (n n' : rldp_node) : Prop :=
  length (rn_senders n) <= length (rn_senders n')
  /\ (forall k q, rn_queries n !! k = Some q -> exists q', rn_queries n' !! k = Some q' /\ onward q q').
Definition housed (n : rldp_node) : Prop :=
  forall k q, rn_queries n !! k = Some q -> qr_sender q < length (rn_senders n).

Lemma grows_same : forall n n', length (rn_senders n) <= length (rn_senders n') -> rn_queries n' = rn_queries n -> grows n n'.
Proof. intros n n' H E. split; [exact H|]. intros k q Hk. exists q. rewrite E. split; [exact Hk|apply onward_refl]. Qed.
Lemma housed_same : forall n n', housed n -> length (rn_senders n) <= length (rn_senders n') -> rn_queries n' = rn_queries n -> housed n'.
Proof. intros n n' H L E k q Hk. rewrite E in Hk. specialize (H k q Hk). lia. Qed.

Section facts.
Context {E : Type} (F : fec) (slice : N) (checked : bool) (z : zstd) (o : rldp_options).
Notation step := (rldp_step (E:=E) F slice checked z o).
Notation after := (rldp_after (E:=E) F slice checked z o).

Lemma sender_same : forall n s ev, let n' := fst (sender_event F slice checked n s ev) in
  length (rn_senders n') = length (rn_senders n) /\ rn_queries n' = rn_queries n.
Proof.
  intros n s ev. unfold sender_event. destruct (rn_senders n !! s) as [u|]; [|split; reflexivity].
  destruct (send_step F slice checked (ou_sender u) ev) as [sd out]. cbn [fst].
  split; [cbn; apply insert_length|reflexivity].
Qed.

Lemma message_same : forall n p m, let n' := fst (handle_message F slice checked o n p m) in
  length (rn_senders n') = length (rn_senders n) /\ rn_queries n' = rn_queries n.
Proof.
  intros n p m. destruct m; cbn [handle_message].
  - unfold handle_chunk. destruct (rn_table n !! _) as [[x|x|]|]; try (split; reflexivity).
    destruct (rn_receivers n !! x) as [rc|]; [|split; reflexivity]. destruct (rc_finished rc); split; reflexivity.
  - unfold handle_report. destruct (rn_table n !! _) as [[x|x|]|]; try (split; reflexivity). apply sender_same.
  - unfold handle_report. destruct (rn_table n !! _) as [[x|x|]|]; try (split; reflexivity). apply sender_same.
Qed.

Lemma receiver_same : forall n r, let n' := fst (receiver_turn F slice checked n r) in
  length (rn_senders n') = length (rn_senders n) /\ rn_queries n' = rn_queries n.
Proof.
  intros n r. unfold receiver_turn. destruct (rn_receivers n !! r) as [rc|]; [|split; reflexivity].
  destruct (rc_finished rc); [split; reflexivity|]. destruct (rc_queue rc) as [|m rest].
  - destruct (channel_open n r); split; reflexivity.
  - destruct (receive_one F (rc_transfer rc) m) as [t reply]. cbv zeta. cbn [fst].
    destruct (rc_notify rc) as [s|]; [|split; reflexivity].
    destruct (sender_same (set_receivers n (<[r := mk_receiver (rc_peer rc) t (if incoming_done t then [] else rest) None
                (incoming_done t)]> (rn_receivers n))) s EvReply) as [A B]. split; [exact A|exact B].
Qed.

Lemma answer_same : forall (subs : list (subscriber E)) n k, let n' := answer_turn z o subs n k in
  length (rn_senders n) <= length (rn_senders n') /\ rn_queries n' = rn_queries n.
Proof.
  intros subs n k. unfold answer_turn. destruct (rn_answers n !! k) as [a|]; [|split; [lia|reflexivity]].
  destruct (an_stage a) as [| |s|out|].
  - destruct (rn_receivers n !! an_receiver a) as [rc|]; [|split; [lia|reflexivity]].
    destruct (rc_finished rc); split; (reflexivity || (cbn; lia)).
  - destruct (rn_receivers n !! an_receiver a) as [rc|]; [|split; [lia|reflexivity]].
    destruct (query_from_data (it_data (rc_transfer rc))) as [[[qid mx] p]|]; [|split; [cbn; lia|reflexivity]].
    destruct (process_rldp_query z subs (ro_force o) qid mx p) as [r log].
    destruct r as [[[x|]|]|]; (split; [|reflexivity]); cbn; rewrite ?app_length; cbn; lia.
  - destruct (sender_result n s) as [[|]|]; (split; [cbn; lia|reflexivity]).
  - split; [cbn; lia|reflexivity].
  - split; [lia|reflexivity].
Qed.

Lemma put_grows : forall n n1 k q st, rn_queries n !! k = Some q -> rn_queries n1 = rn_queries n ->
  length (rn_senders n) <= length (rn_senders n1) ->
  (forall r, outcome (qr_stage q) = Some r -> outcome st = Some r) ->
  grows n (put_query n1 k q st).
Proof.
  intros n n1 k q st Hk E1 L Ho. split; [exact L|]. intros j p Hj. unfold put_query, set_queries. cbn [rn_queries].
  rewrite E1. destruct (Nat.eq_dec j k) as [->|N].
  - exists (mk_query_run (qr_peer q) (qr_id q) (qr_query_id q) (qr_sender q) (qr_receiver q) st).
    rewrite list_lookup_insert by (eapply lookup_lt_Some; exact Hk). split; [reflexivity|].
    rewrite Hk in Hj. apply (f_equal (fun x => match x with Some y => y | None => p end)) in Hj. subst p.
    repeat split. exact Ho.
  - exists p. rewrite list_lookup_insert_ne by congruence. split; [exact Hj|apply onward_refl].
Qed.
Lemma put_housed : forall n n1 k q st, housed n -> rn_queries n !! k = Some q -> rn_queries n1 = rn_queries n ->
  length (rn_senders n) <= length (rn_senders n1) -> housed (put_query n1 k q st).
Proof.
  intros n n1 k q st H Hk E1 L j p Hj. unfold put_query, set_queries in *. cbn [rn_queries rn_senders] in *.
  rewrite E1 in Hj. destruct (Nat.eq_dec j k) as [->|N].
  - rewrite list_lookup_insert in Hj by (eapply lookup_lt_Some; exact Hk). inversion Hj; subst. cbn [qr_sender].
    specialize (H k q Hk). lia.
  - rewrite list_lookup_insert_ne in Hj by congruence. specialize (H j p Hj). lia.
Qed.

Lemma turn_cases : forall n k g, let n' := query_turn n k g in
  n' = n \/ exists q n1 st, rn_queries n !! k = Some q /\ rn_queries n1 = rn_queries n /\ rn_senders n1 = rn_senders n
    /\ (forall r, outcome (qr_stage q) = Some r -> outcome st = Some r) /\ n' = put_query n1 k q st.
Proof.
  intros n k g. unfold query_turn. destruct (rn_queries n !! k) as [q|] eqn:Hk; [|now left].
  assert (D : forall n1 st, rn_queries n1 = rn_queries n -> rn_senders n1 = rn_senders n ->
    (forall r, outcome (qr_stage q) = Some r -> outcome st = Some r) ->
    put_query n1 k q st = n \/ exists q' n2 st', Some q = Some q' /\ rn_queries n2 = rn_queries n
      /\ rn_senders n2 = rn_senders n /\ (forall r, outcome (qr_stage q') = Some r -> outcome st' = Some r)
      /\ put_query n1 k q st = put_query n2 k q' st').
  { intros n1 st H1 H2 H3. right. exists q, n1, st. auto. }
  destruct (qr_stage q) as [| |r|r] eqn:Es; cbv zeta.
  - destruct (sender_result n (qr_sender q)) as [[[|]|]|]; [| | |now left];
      (apply D; [reflexivity|reflexivity|intros r Hr; rewrite ?Es in Hr; cbn in Hr; discriminate Hr]).
  - destruct g; [apply D; [reflexivity|reflexivity|intros r Hr; rewrite ?Es in Hr; cbn in Hr; discriminate Hr]|].
    destruct (rn_receivers n !! qr_receiver q) as [rc|]; [|now left].
    destruct (rc_finished rc); [|now left].
    apply D; [reflexivity|reflexivity|intros r Hr; rewrite ?Es in Hr; cbn in Hr; discriminate Hr].
  - apply D; [reflexivity|reflexivity|]. intros r' Hr. rewrite ?Es in Hr. exact Hr.
  - now left.
Qed.

Lemma step_grows : forall n ev, housed n -> grows n (fst (step n ev)) /\ housed (fst (step n ev)).
Proof.
  intros n ev H.
  assert (S : forall n', length (rn_senders n) <= length (rn_senders n') -> rn_queries n' = rn_queries n -> grows n n' /\ housed n').
  { intros n' L Eq. split; [now apply grows_same|now apply (housed_same n)]. }
  destruct ev as [p i q now pl|p m|r|s le|k g|k subs|k]; cbn [rldp_step fst].
  - unfold start_query. cbv zeta. split.
    + split; [cbn; rewrite app_length; lia|]. intros k x Hk. exists x. cbn [rn_queries].
      rewrite lookup_app_l by (eapply lookup_lt_Some; exact Hk). split; [exact Hk|apply onward_refl].
    + intros k x Hk. cbn [rn_queries rn_senders] in *. rewrite app_length. cbn [length].
      apply lookup_app_Some in Hk. destruct Hk as [Hk|[_ Hk]]; [specialize (H k x Hk); lia|].
      destruct (k - length (rn_queries n)) as [|j]; [|discriminate Hk]. inversion Hk; subst. cbn [qr_sender]. lia.
  - destruct (message_same n p m) as [A B]. apply S; [rewrite A; lia|exact B].
  - destruct (receiver_same n r) as [A B]. apply S; [rewrite A; lia|exact B].
  - destruct (sender_same n s (loop_send_event le)) as [A B]. apply S; [rewrite A; lia|exact B].
  - destruct (turn_cases n k g) as [->|(q & n1 & st & Hk & H1 & H2 & H3 & ->)]; [apply S; [lia|reflexivity]|].
    split; [apply put_grows; auto; rewrite H2; lia|apply (put_housed n); auto; rewrite H2; lia].
  - destruct (answer_same subs n k) as [A B]. now apply S.
  - unfold timer_fires. destruct (rn_answers n !! k) as [a|]; [|apply S; [lia|reflexivity]].
    destruct (an_timer a); apply S; try reflexivity; cbn; lia.
Qed.

Lemma after_grows : forall evs n, housed n -> grows n (after n evs) /\ housed (after n evs).
Proof.
  intros evs. induction evs as [|ev evs IH]; intros n H.
  - split; [now apply grows_same|exact H].
  - cbn [rldp_after fold_left]. destruct (step_grows n ev H) as [G1 H1]. destruct (IH _ H1) as [G2 H2].
    unfold rldp_after in *. split; [|exact H2]. destruct G1 as [L1 Q1], G2 as [L2 Q2]. split; [lia|].
    intros k q Hk. destruct (Q1 k q Hk) as (q1 & K1 & O1). destruct (Q2 k q1 K1) as (q2 & K2 & O2).
    exists q2. split; [exact K2|]. now apply (onward_trans _ q1).
Qed.

Lemma housed_new : housed rldp_node_new.
Proof. intros k q H. cbn in H. discriminate H. Qed.

Lemma nth_lookup : forall A (l : list A) k, nth_error l k = l !! k.
Proof. intros A l. induction l as [|x l IH]; intros [|k]; cbn; auto. Qed.

Lemma returns_outcome : forall q, query_returns z q =
  match outcome (qr_stage q) with
  | Some (Some (Some d)) => Some (match accept_answer z (qr_query_id q) d with Ok a => RAnswered a | Err _ => RError end)
  | Some (Some None) => Some RNoAnswer
  | Some None => Some RError
  | None => None
  end.
Proof. intros q. unfold query_returns. destruct (qr_stage q) as [| |[[d|]|]|[[d|]|]]; reflexivity. Qed.

Lemma result_final : forall before evs k r,
  let n := after rldp_node_new before in
  result_of z n k = Some r -> result_of z (after n evs) k = Some r.
Proof.
  intros before evs k r n. destruct (after_grows before _ housed_new) as [_ H]. fold n in H.
  destruct (after_grows evs n H) as [[_ G] _]. unfold result_of. rewrite !nth_lookup. intros Hr.
  destruct (rn_queries n !! k) as [q|] eqn:Hk; [|discriminate Hr].
  destruct (G k q Hk) as (q' & K & (O1 & O2 & O3)). rewrite K. rewrite returns_outcome in *.
  destruct (outcome (qr_stage q)) as [x|] eqn:Eo; [|discriminate Hr]. rewrite (O3 x eq_refl), O1. exact Hr.
Qed.

(** ** It returns *)

Definition ended (p : send_point) : Prop := match p with SentAll | TimedOut | SendFailed => True | _ => False end.
Notation loop sd ev := (fst (send_step F slice checked sd (loop_send_event ev))).

Lemma sender_ends : forall sd, exists les, Forall (fun l => l <> LoopRefused) les /\ length les <= 4
  /\ ended (se_point (fold_left (fun sd l => loop sd l) les sd)).
Proof.
  assert (TO : forall t p, exists les, Forall (fun l => l <> LoopRefused) les /\ length les <= 1
    /\ ended (se_point (fold_left (fun sd l => loop sd l) les (mk_sender t (AtSend p))))).
  { intros t p. exists [LoopTimeout]. split; [repeat constructor; discriminate|]. split; [cbn; lia|]. cbn. exact I. }
  assert (TP : forall t, exists les, Forall (fun l => l <> LoopRefused) les /\ length les <= 2
    /\ ended (se_point (fold_left (fun sd l => loop sd l) les (mk_sender t AtPart)))).
  { intros t. exists [LoopStep; LoopTimeout]. split; [repeat constructor; discriminate|]. split; [cbn; lia|]. cbn. exact I. }
  assert (TS : forall t, exists les, Forall (fun l => l <> LoopRefused) les /\ length les <= 3
    /\ ended (se_point (fold_left (fun sd l => loop sd l) les (mk_sender t AtStart)))).
  { intros t. destruct (start_next_part F slice t) as [t' [c|]] eqn:Es.
    - destruct (TP t') as (l & A & B & C). exists (LoopStep :: l). split; [constructor; [discriminate|exact A]|].
      split; [cbn; lia|]. cbn [fold_left]. replace (loop (mk_sender t AtStart) LoopStep) with (mk_sender t' AtPart); [exact C|].
      cbn [loop_send_event send_step se_transfer se_point]. now rewrite Es.
    - exists [LoopStep]. split; [repeat constructor; discriminate|]. split; [cbn; lia|]. cbn [fold_left].
      cbn [loop_send_event send_step se_transfer se_point]. rewrite Es. exact I. }
  intros [t [ | |p|p| | | ]].
  - destruct (TS t) as (l & A & B & C). exists l. split; [exact A|]. split; [lia|exact C].
  - destruct (TP t) as (l & A & B & C). exists l. split; [exact A|]. split; [lia|exact C].
  - destruct (TO t p) as (l & A & B & C). exists l. split; [exact A|]. split; [lia|exact C].
  - destruct (is_finished_or_next_part slice t p) as [[|]|] eqn:Ef.
    + destruct (TS t) as (l & A & B & C). exists (LoopStep :: l). split; [constructor; [discriminate|exact A]|].
      split; [cbn; lia|]. cbn [fold_left].
      replace (loop (mk_sender t (AtCheck p)) LoopStep) with (mk_sender t AtStart); [exact C|].
      cbn [loop_send_event send_step se_transfer se_point]. now rewrite Ef.
    + destruct (TO t p) as (l & A & B & C). exists (LoopStep :: l). split; [constructor; [discriminate|exact A]|].
      split; [cbn; lia|]. cbn [fold_left].
      replace (loop (mk_sender t (AtCheck p)) LoopStep) with (mk_sender t (AtSend p)); [exact C|].
      cbn [loop_send_event send_step se_transfer se_point]. now rewrite Ef.
    + exists [LoopStep]. split; [repeat constructor; discriminate|]. split; [cbn; lia|]. cbn [fold_left].
      cbn [loop_send_event send_step se_transfer se_point]. rewrite Ef. exact I.
  - exists []. repeat split; [constructor|cbn; lia].
  - exists []. repeat split; [constructor|cbn; lia].
  - exists []. repeat split; [constructor|cbn; lia].
Qed.

Lemma sender_loops : forall les n s u, rn_senders n !! s = Some u ->
  let n' := after n (map (NSender s) les) in
  rn_queries n' = rn_queries n
  /\ exists u', rn_senders n' !! s = Some u' /\ ou_sender u' = fold_left (fun sd l => loop sd l) les (ou_sender u).
Proof.
  intros les. induction les as [|l les IH]; intros n s u H; [split; [reflexivity|now exists u]|].
  cbn [map rldp_after fold_left rldp_step].
  destruct (sender_same n s (loop_send_event l)) as [_ Q].
  assert (H1 : exists u1, rn_senders (fst (sender_event F slice checked n s (loop_send_event l))) !! s = Some u1
    /\ ou_sender u1 = loop (ou_sender u) l).
  { unfold sender_event. rewrite H. destruct (send_step F slice checked (ou_sender u) (loop_send_event l)) as [sd out].
    cbn [fst]. eexists. split; [cbn; apply list_lookup_insert; eapply lookup_lt_Some; exact H|reflexivity]. }
  destruct H1 as (u1 & H1 & E1). destruct (IH _ s u1 H1) as (Q' & u' & H' & E'). unfold rldp_after in *.
  split; [now rewrite Q', Q|]. exists u'. split; [exact H'|]. now rewrite E', E1.
Qed.

Lemma after_app : forall n a b, after n (a ++ b) = after (after n a) b.
Proof. intros n a b. unfold rldp_after. apply fold_left_app. Qed.

Lemma waiting_ends : forall n k q, rn_queries n !! k = Some q -> qr_stage q = QWaiting ->
  result_of z (fst (step n (NQueryTurn k true))) k = Some RNoAnswer.
Proof.
  intros n k q H Hs. cbn [rldp_step fst]. unfold query_turn. rewrite H, Hs. cbv zeta iota.
  unfold result_of, put_query, set_queries, set_table. cbn [rn_queries]. rewrite nth_lookup.
  rewrite list_lookup_insert by (eapply lookup_lt_Some; exact H). reflexivity.
Qed.

Lemma query_ends : forall before k,
  let n := after rldp_node_new before in
  (k < length (rn_queries n))%nat ->
  exists own, forallb (of_query n k) own = true /\ length own <= 6 /\ exists r, result_of z (after n own) k = Some r.
Proof.
  intros before k n Hk. destruct (after_grows before _ housed_new) as [_ H]. fold n in H.
  destruct (lookup_lt_is_Some_2 _ _ Hk) as [q Hq].
  destruct (qr_stage q) as [| |r|r] eqn:Es.
  - pose proof (H k q Hq) as Hs. destruct (lookup_lt_is_Some_2 _ _ Hs) as [u Hu].
    destruct (sender_ends (ou_sender u)) as (les & A & B & C).
    destruct (sender_loops les n (qr_sender q) u Hu) as (Q & u' & Hu' & Eu). cbv zeta in Q, Hu'.
    set (n1 := after n (map (NSender (qr_sender q)) les)) in *.
    exists (map (NSender (qr_sender q)) les ++ [NQueryTurn k true; NQueryTurn k true]).
    split; [|split].
    + rewrite forallb_app. apply andb_true_intro. split.
      * apply forallb_forall. intros x Hx. apply in_map_iff in Hx. destruct Hx as (l & <- & Hl).
        rewrite List.Forall_forall in A. specialize (A l Hl). cbn [of_query]. rewrite nth_lookup, Hq.
        rewrite Nat.eqb_refl. destruct l; [reflexivity|reflexivity|now destruct A].
      * cbn. rewrite Nat.eqb_refl. reflexivity.
    + rewrite app_length, map_length. cbn. lia.
    + rewrite after_app. fold n1.
      assert (Hq1 : rn_queries n1 !! k = Some q) by (rewrite Q; exact Hq).
      assert (L1 : (k < length (rn_queries n1))%nat) by (rewrite Q; exact Hk).
      cbn [rldp_after fold_left]. change (fold_left (fun n ev => fst (step n ev)) [] ?x) with x.
      set (n2 := fst (step n1 (NQueryTurn k true))).
      assert (R : sender_result n1 (qr_sender q) <> None).
      { unfold sender_result. rewrite Hu', Eu. destruct (se_point _); try discriminate; destruct C. }
      destruct (sender_result n1 (qr_sender q)) as [res|] eqn:Er; [|now destruct R].
      assert (P : forall m st, rn_queries m = rn_queries n1 ->
        rn_queries (put_query m k q st) !! k
        = Some (mk_query_run (qr_peer q) (qr_id q) (qr_query_id q) (qr_sender q) (qr_receiver q) st)).
      { intros m st Em. unfold put_query, set_queries. cbn [rn_queries]. rewrite Em. now apply list_lookup_insert. }
      assert (N2 : exists st, rn_queries n2 !! k
        = Some (mk_query_run (qr_peer q) (qr_id q) (qr_query_id q) (qr_sender q) (qr_receiver q) st)
        /\ (st = QWaiting \/ exists r, st = QReturned r)).
      { unfold n2. cbn [rldp_step fst]. unfold query_turn. rewrite Hq1, Es, Er. cbv zeta.
        destruct res as [[|]|]; eexists; (split; [apply P; reflexivity|]); [now left| |]; right; eexists; reflexivity. }
      destruct N2 as (st & K2 & [->|[r ->]]).
      * exists RNoAnswer. now apply (waiting_ends n2 k _ K2).
      * unfold result_of. rewrite nth_lookup. cbn [rldp_step fst]. unfold query_turn. rewrite K2. cbn [qr_stage].
        unfold put_query, set_queries, set_table. cbn [rn_queries].
        rewrite list_lookup_insert by (eapply lookup_lt_Some; exact K2). rewrite returns_outcome. cbn [qr_stage outcome].
        destruct r as [[d|]|]; eexists; reflexivity.
  - exists [NQueryTurn k true]. split; [cbn; now rewrite Nat.eqb_refl|]. split; [cbn; lia|].
    exists RNoAnswer. exact (waiting_ends n k q Hq Es).
  - exists []. split; [reflexivity|]. split; [cbn; lia|]. unfold result_of. cbn [rldp_after fold_left].
    rewrite nth_lookup, Hq, returns_outcome, Es. cbn [outcome]. destruct r as [[d|]|]; eexists; reflexivity.
  - exists []. split; [reflexivity|]. split; [cbn; lia|]. unfold result_of. cbn [rldp_after fold_left].
    rewrite nth_lookup, Hq, returns_outcome, Es. cbn [outcome]. destruct r as [[d|]|]; eexists; reflexivity.
Qed.

(** ** Which result *)

Lemma sending_fails : forall n k q u g, rn_queries n !! k = Some q -> qr_stage q = QSending ->
  rn_senders n !! qr_sender q = Some u ->
  (forall p, se_point (ou_sender u) = AtCheck p ->
     result_of z (after n [NSender (qr_sender q) LoopRefused; NQueryTurn k g]) k = Some RError)
  /\ (forall p, se_point (ou_sender u) = AtSend p ->
     result_of z (after n [NSender (qr_sender q) LoopTimeout; NQueryTurn k g]) k = Some RNoAnswer).
Proof.
  intros n k q u g Hq Hs Hu.
  assert (K : forall t p res, sender_result (set_senders n (<[qr_sender q := mk_out_task (ou_peer u) (mk_sender t p)]> (rn_senders n))) (qr_sender q) = Some res ->
    forall r, query_returns z (mk_query_run (qr_peer q) (qr_id q) (qr_query_id q) (qr_sender q) (qr_receiver q)
        match res with SendOk true => QWaiting | SendOk false => QReturned (Some None) | SendError => QReturned None end) = r ->
    result_of z (query_turn (set_senders n (<[qr_sender q := mk_out_task (ou_peer u) (mk_sender t p)]> (rn_senders n))) k g) k = r).
  { intros t p res Hr r Hret. set (m := set_senders n _) in *.
    assert (Qm : rn_queries m !! k = Some q) by exact Hq. clearbody m.
    unfold query_turn. rewrite Qm, Hs, Hr. cbv zeta. unfold result_of.
    destruct res as [[|]|]; unfold put_query, set_queries, set_table; cbn [rn_queries]; rewrite nth_lookup;
      (rewrite list_lookup_insert by (eapply lookup_lt_Some; exact Qm)); exact Hret. }
  assert (L : (qr_sender q < length (rn_senders n))%nat) by (eapply lookup_lt_Some; exact Hu).
  split; intros p Hp; unfold rldp_after; cbn [fold_left rldp_step fst]; unfold sender_event; rewrite Hu;
    cbn [loop_send_event send_step]; rewrite Hp; cbn [fst].
  - apply (K _ _ SendError); [|reflexivity]. unfold sender_result. cbn [set_senders rn_senders].
    rewrite list_lookup_insert by exact L. reflexivity.
  - apply (K _ _ (SendOk false)); [|reflexivity]. unfold sender_result. cbn [set_senders rn_senders].
    rewrite list_lookup_insert by exact L. reflexivity.
Qed.
Lemma sending_fails_nth : forall n k q u g, nth_error (rn_queries n) k = Some q -> qr_stage q = QSending ->
  nth_error (rn_senders n) (qr_sender q) = Some u ->
  (forall p, se_point (ou_sender u) = AtCheck p ->
     result_of z (after n [NSender (qr_sender q) LoopRefused; NQueryTurn k g]) k = Some RError)
  /\ (forall p, se_point (ou_sender u) = AtSend p ->
     result_of z (after n [NSender (qr_sender q) LoopTimeout; NQueryTurn k g]) k = Some RNoAnswer).
Proof. intros n k q u g. rewrite !nth_lookup. apply sending_fails. Qed.
End facts.
