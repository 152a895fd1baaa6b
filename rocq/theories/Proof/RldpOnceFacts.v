(** Two RLDP nodes: until it is forgotten, a query is given to the subscribers once. *)
From stdpp Require Import gmap.
From Coq Require Import NArith Lia.
From Coq Require Import ZifyBool ZifyNat ZifyN.
From Verif.Base Require Import Bytes BytesFacts Res.
From Verif.Model Require Import Tl ProtoRldp Compression Subscribers Fec RldpTransfer RldpQuery RldpNode.
From Verif.Spec Require Import Codec CompressionSpec FecSpec RldpSpec RldpPairSpec.
From Verif.Proof Require Import CompressionFacts FecFacts RldpParts RldpInFacts RldpOutFacts RldpQueryFacts
  RldpNodeFacts RldpPairFacts RldpLiveFacts.
Open Scope N_scope.

Section Once.
Context (i : bytes) (Hi : hash_ok i).

Definition calls (n : rldp_node) : nat := length (List.filter (fun e => bytes_eqb (snd (fst e)) i) (rn_asked n)).
Definition stage_calls (st : answer_stage) : nat := match st with AReceiving | AProcessing => 0 | _ => 1 end.

(** The query is new, or one task works on it, or it has been forgotten. *)
Definition taken (n : rldp_node) : Prop :=
  (forall k a, rn_answers n !! k = Some a -> an_id a <> i) /\ calls n = 0%nat
  \/ (exists k a, rn_answers n !! k = Some a /\ an_id a = i
      /\ (forall k' a', rn_answers n !! k' = Some a' -> an_id a' = i -> k' = k)
      /\ rn_table n !! i <> None /\ (calls n <= stage_calls (an_stage a))%nat)
  \/ exists k a, rn_answers n !! k = Some a /\ an_id a = i /\ an_stage a = AEnded.

Lemma taken_same : forall n n', taken n -> rn_answers n' = rn_answers n -> rn_asked n' = rn_asked n ->
  (rn_table n !! i <> None -> rn_table n' !! i <> None) -> taken n'.
Proof.
  intros n n' H E1 E2 E3. unfold taken, calls in *. rewrite E1, E2.
  destruct H as [H|[(k & a & H1 & H2 & H3 & H4 & H5)|H]]; [left; exact H| |right; right; exact H].
  right; left. exists k, a. split; [exact H1|]. split; [exact H2|]. split; [exact H3|]. split; [now apply E3|exact H5].
Qed.

(** Some other answer goes on. *)
Lemma taken_other : forall n n' k0 a0 st tm, taken n -> rn_answers n !! k0 = Some a0 -> an_id a0 <> i ->
  rn_answers n' = <[k0 := mk_answer_run (an_peer a0) (an_id a0) (an_receiver a0) st tm]> (rn_answers n) ->
  calls n' = calls n -> (rn_table n !! i <> None -> rn_table n' !! i <> None) -> taken n'.
Proof.
  intros n n' k0 a0 st tm H Hk Hne E1 E2 E3. unfold taken. rewrite E1, E2.
  assert (Hkeep : forall k a, rn_answers n !! k = Some a -> an_id a = i ->
    <[k0 := mk_answer_run (an_peer a0) (an_id a0) (an_receiver a0) st tm]> (rn_answers n) !! k = Some a).
  { intros k a Ha Hai. rewrite list_lookup_insert_ne; [exact Ha|]. intros ->. congruence. }
  assert (Hback : forall k a, <[k0 := mk_answer_run (an_peer a0) (an_id a0) (an_receiver a0) st tm]> (rn_answers n) !! k = Some a ->
    an_id a = i -> rn_answers n !! k = Some a).
  { intros k a Ha Hai. apply insert_cases in Ha as [->|Ha]; [now cbn in Hai|exact Ha]. }
  destruct H as [[H1 H2]|[(k & a & H1 & H2 & H3 & H4 & H5)|(k & a & H1 & H2 & H3)]].
  - left. split; [|exact H2]. intros k a Ha Hai. apply (H1 k a); [now apply Hback|exact Hai].
  - right; left. exists k, a. split; [now apply Hkeep|]. split; [exact H2|]. split; [|split; [now apply E3|exact H5]].
    intros k' a' Ha Hai. apply (H3 k' a'); [now apply Hback|exact Hai].
  - right; right. exists k, a. auto.
Qed.

(** The answer itself goes on. *)
Lemma taken_own : forall n n' k0 a0 st tm, taken n -> rn_answers n !! k0 = Some a0 -> an_id a0 = i ->
  rn_answers n' = <[k0 := mk_answer_run (an_peer a0) (an_id a0) (an_receiver a0) st tm]> (rn_answers n) ->
  an_stage a0 <> AEnded ->
  (st = AEnded \/ (rn_table n !! i <> None -> rn_table n' !! i <> None)
     /\ ((calls n <= stage_calls (an_stage a0))%nat -> (calls n' <= stage_calls st)%nat)) -> taken n'.
Proof.
  intros n n' k0 a0 st tm H Hk Hid E1 Hns Hst. unfold taken. rewrite E1.
  assert (Hnew : <[k0 := mk_answer_run (an_peer a0) (an_id a0) (an_receiver a0) st tm]> (rn_answers n) !! k0
                 = Some (mk_answer_run (an_peer a0) (an_id a0) (an_receiver a0) st tm)).
  { apply list_lookup_insert. eapply lookup_lt_Some. exact Hk. }
  destruct Hst as [->|[Ht Hc]].
  { right; right. eexists k0, _. split; [exact Hnew|]. split; [exact Hid|reflexivity]. }
  destruct H as [[H1 H2]|[(k & a & H1 & H2 & H3 & H4 & H5)|(k & a & H1 & H2 & H3)]].
  - exfalso. now apply (H1 k0 a0).
  - right; left. assert (k0 = k) as -> by now apply (H3 k0 a0). assert (a0 = a) as -> by congruence.
    eexists k, _. split; [exact Hnew|]. split; [exact Hid|]. split; [|split; [now apply Ht|]].
    + intros k' a' Ha Hai. destruct (decide (k' = k)) as [->|Hne]; [reflexivity|].
      rewrite list_lookup_insert_ne in Ha by congruence. now apply (H3 k' a').
    + cbn [an_stage]. now apply Hc.
  - destruct (decide (k = k0)) as [->|Hne]; [assert (a0 = a) as -> by congruence; congruence|].
    right; right. exists k, a. rewrite list_lookup_insert_ne by congruence. auto.
Qed.

Lemma taken_step : forall E F slice ck z o n (ev : rldp_event E), taken n ->
  (forall k a, rn_answers n !! k = Some a -> an_id a <> negate_id i) ->
  (forall k a x, rn_answers n !! k = Some a -> an_stage a = ASleeping (Some x) -> x = negate_id (an_id a)) ->
  (forall k q, rn_queries n !! k = Some q -> ~ of_query i (qr_id q)) ->
  taken (fst (rldp_step F slice ck z o n ev)).
Proof.
  intros E F slice ck z o n ev H Ha Hx Hq.
  assert (Hins : forall k e, rn_table n !! i <> None -> <[k := e]> (rn_table n) !! i <> None).
  { intros k e Hn. destruct (decide (k = i)) as [->|Hk]; [rewrite lookup_insert; discriminate|now rewrite lookup_insert_ne]. }
  assert (Hneg : forall x, negate_id x = i -> x = negate_id i) by (intros x <-; now rewrite negate_involutive).
  destruct ev as [peer id q1 t1 p1|peer m|r0|s ev|k0 gu|k0 subs|k0]; cbn [rldp_step fst].
  - apply (taken_same n); [exact H|reflexivity|reflexivity|]. intros Hn. cbn [start_query rn_table].
    destruct (decide (negate_id id = i)) as [->|Hk]; [rewrite lookup_insert; discriminate|rewrite lookup_insert_ne by exact Hk; now apply Hins].
  - destruct m as [id f pt t sq d|id pt sq|id pt]; cbn [handle_message].
    + unfold handle_chunk. destruct (rn_table n !! id) as [[r1| |]|] eqn:Et; try exact H.
      * destruct (rn_receivers n !! r1) as [rc1|]; [|exact H]. cbn [fst]. destruct (rc_finished rc1); exact H.
      * cbn [fst]. unfold taken, calls. cbn [rn_answers rn_table rn_asked].
        destruct (decide (id = i)) as [->|Hne].
        -- destruct H as [[H1 H2]|[(k & a & H1 & H2 & H3 & H4 & H5)|(k & a & H1 & H2 & H3)]]; [|contradiction|].
           ++ right; left. exists (length (rn_answers n)), (mk_answer_run peer i (length (rn_receivers n)) AReceiving true).
              split; [now rewrite lookup_app_r, Nat.sub_diag by lia|]. split; [reflexivity|]. split; [|split].
              ** intros k' a' Hk Hai. apply lookup_app_Some in Hk as [Hk|[Hle Hk]]; [now destruct (H1 _ _ Hk)|].
                 apply list_lookup_singleton_Some in Hk as [Hk _]. lia.
              ** rewrite lookup_insert. discriminate.
              ** unfold calls in H2. rewrite H2. cbn. lia.
           ++ right; right. exists k, a. split; [now apply lookup_app_l_Some|auto].
        -- destruct H as [[H1 H2]|[(k & a & H1 & H2 & H3 & H4 & H5)|(k & a & H1 & H2 & H3)]].
           ++ left. split; [|exact H2]. intros k a Hk. apply snoc_cases in Hk as [->|Hk]; [exact Hne|now apply (H1 k)].
           ++ right; left. exists k, a. split; [now apply lookup_app_l_Some|]. split; [exact H2|]. split; [|split].
              ** intros k' a' Hk Hai. apply lookup_app_Some in Hk as [Hk|[Hle Hk]]; [now apply (H3 _ _ Hk)|].
                 apply list_lookup_singleton_Some in Hk as [_ <-]. now cbn in Hai.
              ** now rewrite lookup_insert_ne.
              ** exact H5.
           ++ right; right. exists k, a. split; [now apply lookup_app_l_Some|auto].
    + destruct (report_frame F slice ck n id (EvConfirm pt sq)) as (F1 & _ & F3 & F4 & F5).
      apply (taken_same n); try assumption. rewrite F1. auto.
    + destruct (report_frame F slice ck n id (EvComplete pt)) as (F1 & _ & F3 & F4 & F5).
      apply (taken_same n); try assumption. rewrite F1. auto.
  - destruct (receiver_turn_frame F slice ck n r0) as (F1 & F2 & F3 & F4 & _).
    apply (taken_same n); try assumption. rewrite F1. auto.
  - destruct (sender_event_frame F slice ck n s (loop_send_event ev)) as (F1 & _ & F3 & F4 & F5).
    apply (taken_same n); try assumption. rewrite F1. auto.
  - unfold query_turn, put_query. destruct (rn_queries n !! k0) as [q'|] eqn:Ek; [|exact H]. cbv zeta.
    specialize (Hq k0 q' Ek).
    assert (N1 : qr_id q' <> i) by (intros He; apply Hq; left; exact He).
    assert (N2 : negate_id (qr_id q') <> i) by (intros He; apply Hq; right; now apply Hneg).
    destruct (qr_stage q').
    + destruct (sender_result n (qr_sender q')) as [[[|]|]|]; [| | |exact H]; (apply (taken_same n); [exact H|reflexivity|reflexivity|]);
        intros Hn; cbn; rewrite ?lookup_insert_ne by assumption; exact Hn.
    + destruct gu; [|destruct (rn_receivers n !! qr_receiver q') as [rc1|]; [|exact H]; destruct (rc_finished rc1); [|exact H]];
        (apply (taken_same n); [exact H|reflexivity|reflexivity|]); intros Hn; cbn; rewrite ?lookup_insert_ne by assumption; exact Hn.
    + apply (taken_same n); [exact H|reflexivity|reflexivity|]. intros Hn; cbn. rewrite !lookup_delete_ne by assumption. exact Hn.
    + exact H.
  - unfold answer_turn. destruct (rn_answers n !! k0) as [a|] eqn:Ek; [|exact H]. cbv zeta.
    specialize (Ha k0 a Ek). specialize (Hx k0 a).
    assert (N2 : negate_id (an_id a) <> i) by (intros He; now apply Hneg in He).
    destruct (bytes_eqb (an_id a) i) eqn:Eb.
    + apply bytes_eqb_eq in Eb.
      destruct (an_stage a) eqn:Es.
      * destruct (rn_receivers n !! an_receiver a) as [rc1|]; [|exact H]. destruct (rc_finished rc1); [|exact H].
        refine (taken_own n _ k0 a AProcessing _ H Ek Eb _ _ _); [reflexivity|congruence|]. right. split; [apply Hins|].
        rewrite Es. intros Hc. exact Hc.
      * destruct (rn_receivers n !! an_receiver a) as [rc1|]; [|exact H].
        assert (Hno : forall st n1, rn_asked n1 = rn_asked n -> rn_answers n1 = rn_answers n -> (rn_table n !! i <> None -> rn_table n1 !! i <> None) ->
          taken (put_answer n1 k0 a st)).
        { intros st n1 E2 E3 E4. refine (taken_own n _ k0 a st _ H Ek Eb _ _ _).
          - unfold put_answer. cbn [rn_answers set_answers]. rewrite E3. reflexivity.
          - congruence.
          - right. split; [exact E4|]. rewrite Es. cbn [stage_calls]. unfold calls. cbn [put_answer set_answers rn_asked]. rewrite E2. lia. }
        assert (Hyes : forall st log n1, st <> AReceiving -> st <> AProcessing -> rn_asked n1 = rn_asked n ++ [(an_peer a, an_id a, log)] ->
          rn_answers n1 = rn_answers n -> (rn_table n !! i <> None -> rn_table n1 !! i <> None) -> taken (put_answer n1 k0 a st)).
        { intros st log n1 S1 S2 E2 E3 E4. refine (taken_own n _ k0 a st _ H Ek Eb _ _ _).
          - unfold put_answer. cbn [rn_answers set_answers]. rewrite E3. reflexivity.
          - congruence.
          - right. split; [exact E4|]. rewrite Es. cbn [stage_calls]. unfold calls. cbn [put_answer set_answers rn_asked]. rewrite E2.
            rewrite List.filter_app, app_length. cbn [List.filter fst snd]. rewrite Eb, bytes_eqb_refl. cbn [length].
            intros Hc. destruct st; try contradiction; cbn [stage_calls]; lia. }
        destruct (query_from_data (it_data (rc_transfer rc1))) as [[[query_id max] payload]|]; [|apply Hno; auto].
        destruct (process_rldp_query z subs (ro_force o) query_id max payload) as [r log].
        destruct r as [[[answer|]|]|e]; try (apply (Hyes _ log); try discriminate; auto; fail).
        apply (Hyes _ log); try discriminate; try reflexivity. cbn. apply Hins.
      * destruct (sender_result n sender) as [[[|]|]|]; [| | |exact H];
          (refine (taken_own n _ k0 a _ _ H Ek Eb _ _ _); [reflexivity|congruence|]; right; split; [auto|]; rewrite Es; intros Hc; exact Hc).
      * refine (taken_own n _ k0 a AEnded _ H Ek Eb _ _ _); [reflexivity|congruence|]. left; reflexivity.
      * exact H.
    + assert (N1 : an_id a <> i) by (intros He; rewrite He, bytes_eqb_refl in Eb; discriminate).
      destruct (an_stage a) eqn:Es.
      * destruct (rn_receivers n !! an_receiver a) as [rc1|]; [|exact H]. destruct (rc_finished rc1); [|exact H].
        refine (taken_other n _ k0 a AProcessing _ H Ek N1 _ _ _); [reflexivity|reflexivity|]. apply Hins.
      * destruct (rn_receivers n !! an_receiver a) as [rc1|]; [|exact H].
        assert (Hno : forall st n1 l, rn_asked n1 = rn_asked n ++ l -> List.filter (fun e => bytes_eqb (snd (fst e)) i) l = [] ->
          rn_answers n1 = rn_answers n -> (rn_table n !! i <> None -> rn_table n1 !! i <> None) -> taken (put_answer n1 k0 a st)).
        { intros st n1 l E2 E5 E3 E4. refine (taken_other n _ k0 a st _ H Ek N1 _ _ _).
          - unfold put_answer. cbn [rn_answers set_answers]. rewrite E3. reflexivity.
          - unfold calls. cbn [put_answer set_answers rn_asked]. rewrite E2, List.filter_app, E5, app_nil_r. reflexivity.
          - exact E4. }
        destruct (query_from_data (it_data (rc_transfer rc1))) as [[[query_id max] payload]|].
        2: { apply (Hno _ n []); auto. now rewrite app_nil_r. }
        destruct (process_rldp_query z subs (ro_force o) query_id max payload) as [r log].
        assert (Hl : List.filter (fun e : bytes * bytes * list (nat * bytes) => bytes_eqb (snd (fst e)) i) [(an_peer a, an_id a, log)] = []).
        { cbn [List.filter fst snd]. now rewrite Eb. }
        destruct r as [[[answer|]|]|e]; (eapply Hno; [reflexivity|exact Hl|reflexivity|]); cbn; auto.
      * destruct (sender_result n sender) as [[[|]|]|]; [| | |exact H];
          (refine (taken_other n _ k0 a _ _ H Ek N1 _ _ _); [reflexivity|reflexivity|auto]).
      * refine (taken_other n _ k0 a AEnded _ H Ek N1 _ _ _); [reflexivity|reflexivity|]. cbn. intros Hn.
        rewrite lookup_delete_ne by exact N1. destruct out as [x|]; [|exact Hn].
        rewrite (Hx x Ek eq_refl). rewrite lookup_delete_ne by exact N2. exact Hn.
      * exact H.
  - unfold timer_fires. destruct (rn_answers n !! k0) as [a|] eqn:Ek; [|exact H]. destruct (an_timer a); [|exact H].
    destruct (bytes_eqb (an_id a) i) eqn:Eb.
    + apply bytes_eqb_eq in Eb. assert (Hdec : an_stage a = AEnded \/ an_stage a <> AEnded) by (destruct (an_stage a); first [left; reflexivity|right; discriminate]).
      destruct Hdec as [Es|Es].
      * right; right. eexists k0, _. cbn [rn_answers set_answers]. split; [apply list_lookup_insert; eapply lookup_lt_Some; exact Ek|].
        split; [exact Eb|exact Es].
      * refine (taken_own n _ k0 a (an_stage a) _ H Ek Eb _ Es _); [reflexivity|]. right. split; [apply Hins|]. auto.
    + assert (N1 : an_id a <> i) by (intros He; rewrite He, bytes_eqb_refl in Eb; discriminate).
      refine (taken_other n _ k0 a (an_stage a) _ H Ek N1 _ _ _); [reflexivity|reflexivity|]. apply Hins.
Qed.

Section Pair.
Context {E : Type} (w : rldp_world) (Hw : world_ok w).
Local Notation z := (rw_zstd w).
Local Notation F := (rw_fec w).
Local Notation slice := (rw_slice w).
Local Notation ck := (rw_checked w).
Local Notation oa := (rw_alice w).
Local Notation ob := (rw_bob w).

(** Alice sends nothing back, Bob nothing there. *)
Definition lone_there (k : bytes) : option (option bytes) := if decide (k = negate_id i) then Some None else None.
Definition lone_back (k : bytes) : option (option bytes) := if decide (k = i) then Some None else None.

Lemma lone_there_some : forall k x, lone_there k = Some x -> k = negate_id i /\ x = None.
Proof. intros k x. unfold lone_there. destruct (decide (k = negate_id i)); [|discriminate]. intros H. injection H as <-. auto. Qed.
Lemma lone_back_some : forall k x, lone_back k = Some x -> k = i /\ x = None.
Proof. intros k x. unfold lone_back. destruct (decide (k = i)); [|discriminate]. intros H. injection H as <-. auto. Qed.
Lemma lone_there_n : lone_there (negate_id i) = Some None.
Proof. unfold lone_there. now rewrite decide_True. Qed.
Lemma lone_back_i : lone_back i = Some None.
Proof. unfold lone_back. now rewrite decide_True. Qed.
Lemma lone_other : forall k, ~ of_query i k -> lone_there k = None /\ lone_back k = None.
Proof. intros k H. unfold of_query in H. unfold lone_there, lone_back. rewrite !decide_False by tauto. auto. Qed.

Definition steady (s : rldp_pair) : Prop :=
  good F slice lone_back lone_there (rp_alice s) /\ good F slice lone_there lone_back (rp_bob s)
  /\ sent_good F slice lone_there (rp_from_alice s) /\ sent_good F slice lone_back (rp_from_bob s)
  /\ (forall k q, rn_queries (rp_bob s) !! k = Some q -> ~ of_query i (qr_id q))
  /\ taken (rp_bob s).

Lemma lone_allowed : forall hin hout o n (ev : rldp_event E) sent,
  hin = lone_back /\ hout = lone_there \/ hin = lone_there /\ hout = lone_back ->
  good F slice hin hout n -> sent_good F slice hin sent ->
  (forall peer id q1 t1 p1, ev = NQuery peer id q1 t1 p1 -> ~ of_query i id) ->
  (forall peer m, ev = NMessage peer m -> of_query i (message_id m) -> exists to, In (to, m) sent) ->
  allowed F slice hin hout z o n ev.
Proof.
  intros hin hout o n ev sent Hh Hg Hs Hnq Hnm.
  destruct ev as [peer id q1 t1 p1|peer m|r|s1 ev|k gu|k subs|k]; cbn [allowed]; try exact I.
  - apply content_other. specialize (Hnq _ _ _ _ _ eq_refl). apply lone_other in Hnq as [H1 H2]. destruct Hh as [[_ ->]|[_ ->]]; assumption.
  - destruct m as [id f pt t sq d|id pt sq|id pt]; try exact I.
    assert (Hdec : of_query i id \/ ~ of_query i id) by (unfold of_query; destruct (decide (id = i)), (decide (id = negate_id i)); tauto).
    destruct Hdec as [Ho|Ho].
    + destruct (Hnm _ _ eq_refl Ho) as [to Hin]. exact (Hs _ _ _ _ _ _ _ Hin).
    + apply chunk_other. apply lone_other in Ho as [H1 H2]. destruct Hh as [[-> _]|[-> _]]; assumption.
  - intros a rc q mx pl x Ha _ _ _ _. unfold content_good. destruct (g_answers _ _ _ _ n Hg k a Ha) as (_ & B & _).
    destruct (hout (negate_id (an_id a))) as [y|] eqn:Eh; [|exact I]. exfalso. apply B.
    destruct Hh as [[-> ->]|[-> ->]].
    + apply lone_there_some in Eh as [Eh _]. assert (an_id a = i) as -> by (rewrite <- (negate_involutive i), <- Eh; now rewrite negate_involutive).
      apply lone_back_i.
    + apply lone_back_some in Eh as [Eh _]. assert (an_id a = negate_id i) as -> by (rewrite <- Eh; now rewrite negate_involutive).
      apply lone_there_n.
Qed.

Lemma steady_step : forall s (ev : pair_event E), steady s -> private w i s ev -> steady (pair_step w s ev).
Proof.
  intros s ev (C1 & C2 & C3 & C4 & C5 & C6) Hpr. destruct (id Hw) as (HF & Hs & Hs32).
  assert (NB : forall id d, lone_back id = Some (Some d) -> d <> []) by (intros x d H; apply lone_back_some in H as [_ H]; discriminate).
  assert (NT : forall id d, lone_there id = Some (Some d) -> d <> []) by (intros x d H; apply lone_there_some in H as [_ H]; discriminate).
  destruct ev as [ev|ev]; cbn [pair_step].
  - assert (Hal : allowed F slice lone_back lone_there z oa (rp_alice s) ev).
    { apply (lone_allowed _ _ oa _ ev (rp_from_bob s)); [left; auto|exact C1|exact C4|intros ? ? ? ? ? ->; exact Hpr|].
      intros peer m -> Ho. destruct (Hpr Ho) as [_ Hin]. eauto. }
    destruct (step_good F HF slice Hs Hs32 ck lone_back lone_there NB E z oa _ ev C1 Hal) as [S1 S2].
    destruct (rldp_step F slice ck z oa (rp_alice s) ev) as [n out]. cbn [fst snd] in *.
    split; [exact S1|]. split; [exact C2|]. split; [now apply sent_good_app|]. auto.
  - assert (Hal : allowed F slice lone_there lone_back z ob (rp_bob s) ev).
    { apply (lone_allowed _ _ ob _ ev (rp_from_alice s)); [right; auto|exact C2|exact C3|intros ? ? ? ? ? ->; exact Hpr|].
      intros peer m -> Ho. destruct (Hpr Ho) as [_ Hin]. eauto. }
    destruct (step_good F HF slice Hs Hs32 ck lone_there lone_back NT E z ob _ ev C2 Hal) as [S1 S2].
    assert (V : forall k q, rn_queries (fst (rldp_step F slice ck z ob (rp_bob s) ev)) !! k = Some q -> ~ of_query i (qr_id q)).
    { apply queries_ids; [|exact C5]. intros ? ? ? ? ? ->. exact Hpr. }
    assert (T : taken (fst (rldp_step F slice ck z ob (rp_bob s) ev))).
    { apply taken_step; [exact C6| | |exact C5].
      - intros k a Ha Heq. destruct (g_answers _ _ _ _ _ C2 k a Ha) as (_ & B & _). apply B. rewrite Heq. apply lone_there_n.
      - intros k a x Ha. apply (g_answers _ _ _ _ _ C2 k a Ha). }
    destruct (rldp_step F slice ck z ob (rp_bob s) ev) as [n out]. cbn [fst snd] in *.
    split; [exact C1|]. split; [exact S1|]. split; [exact C3|]. split; [now apply sent_good_app|]. auto.
Qed.
Lemma steady_run : forall (evs : list (pair_event E)) s, steady s -> private_run w i s evs -> steady (pair_run w s evs).
Proof.
  induction evs as [|ev evs IH]; intros s Hs Hpr; [exact Hs|]. destruct Hpr as [H1 H2].
  apply (IH (pair_step w s ev)); [now apply steady_step|exact H2].
Qed.
End Pair.
End Once.

(** No event before the query calls a subscriber for it. *)
Lemma calls_step : forall E (w : rldp_world) i o n (ev : rldp_event E), calls i n = 0%nat ->
  (forall k a, rn_answers n !! k = Some a -> ~ of_query i (an_id a)) ->
  calls i (fst (rldp_step (rw_fec w) (rw_slice w) (rw_checked w) (rw_zstd w) o n ev)) = 0%nat.
Proof.
  intros E w i o n ev H Ha. unfold calls in *.
  destruct ev as [peer id q1 t1 p1|peer m|r0|s ev|k0 gu|k0 subs|k0]; cbn [rldp_step fst].
  - exact H.
  - destruct m as [id f pt t sq d|id pt sq|id pt]; cbn [handle_message].
    + unfold handle_chunk. destruct (rn_table n !! id) as [[r1| |]|]; try exact H.
      destruct (rn_receivers n !! r1) as [rc1|]; [|exact H]. cbn [fst]. destruct (rc_finished rc1); exact H.
    + destruct (report_frame (rw_fec w) (rw_slice w) (rw_checked w) n id (EvConfirm pt sq)) as (_ & _ & _ & _ & ->). exact H.
    + destruct (report_frame (rw_fec w) (rw_slice w) (rw_checked w) n id (EvComplete pt)) as (_ & _ & _ & _ & ->). exact H.
  - destruct (receiver_turn_frame (rw_fec w) (rw_slice w) (rw_checked w) n r0) as (_ & _ & _ & -> & _). exact H.
  - destruct (sender_event_frame (rw_fec w) (rw_slice w) (rw_checked w) n s (loop_send_event ev)) as (_ & _ & _ & _ & ->). exact H.
  - unfold query_turn, put_query. destruct (rn_queries n !! k0) as [q'|]; [|exact H]. cbv zeta. destruct (qr_stage q').
    + destruct (sender_result n (qr_sender q')) as [[[|]|]|]; exact H.
    + destruct gu; [exact H|]. destruct (rn_receivers n !! qr_receiver q') as [rc1|]; [|exact H]. destruct (rc_finished rc1); exact H.
    + exact H.
    + exact H.
  - unfold answer_turn. destruct (rn_answers n !! k0) as [a|] eqn:Ek; [|exact H]. cbv zeta. specialize (Ha k0 a Ek).
    assert (Hb : bytes_eqb (an_id a) i = false).
    { destruct (bytes_eqb (an_id a) i) eqn:Eb; [|reflexivity]. apply bytes_eqb_eq in Eb. exfalso. apply Ha. left. exact Eb. }
    destruct (an_stage a).
    + destruct (rn_receivers n !! an_receiver a) as [rc1|]; [|exact H]. destruct (rc_finished rc1); exact H.
    + destruct (rn_receivers n !! an_receiver a) as [rc1|]; [|exact H].
      destruct (query_from_data (it_data (rc_transfer rc1))) as [[[query_id max] payload]|]; [|exact H].
      destruct (process_rldp_query (rw_zstd w) subs (ro_force o) query_id max payload) as [r log].
      assert (G : forall (l : list (bytes * bytes * list (nat * bytes))), l = rn_asked n ++ [(an_peer a, an_id a, log)] ->
        length (List.filter (fun e => bytes_eqb (snd (fst e)) i) l) = 0%nat).
      { intros l ->. rewrite List.filter_app, app_length. cbn [List.filter fst snd]. rewrite Hb. cbn [length]. lia. }
      destruct r as [[[answer|]|]|e]; apply G; reflexivity.
    + destruct (sender_result n sender) as [[[|]|]|]; exact H.
    + exact H.
    + exact H.
  - unfold timer_fires. destruct (rn_answers n !! k0) as [a|]; [|exact H]. destruct (an_timer a); exact H.
Qed.

Lemma calls_run : forall E w i (qid : bytes), world_ok w -> hash_ok i -> forall (evs : list (pair_event E)) s, fresh w i s ->
  calls i (rp_bob s) = 0%nat -> private_run w i s evs -> calls i (rp_bob (pair_run w s evs)) = 0%nat.
Proof.
  intros E w i qid Hw Hi. induction evs as [|ev evs IH]; intros s Hf Hc Hpr; [exact Hc|]. destruct Hpr as [H1 H2].
  apply (IH (pair_step w s ev)); [now apply (fresh_step w Hw i qid Hi)| |exact H2].
  destruct ev as [ev|ev]; cbn [pair_step].
  - destruct (rldp_step _ _ _ _ _ _ ev). exact Hc.
  - destruct Hf as (((_ & C2 & _) & _) & _). destruct (good_answers w i Hi _ C2) as [B1 _].
    pose proof (calls_step E w i (rw_bob w) (rp_bob s) ev Hc B1) as G. destruct (rldp_step _ _ _ _ _ _ ev). exact G.
Qed.

Theorem rldp_at_most_once : forall E (w : rldp_world) i qid now p (pre post : list (pair_event E)),
  world_ok w -> hash_ok i ->
  let s0 := pair_run w rldp_pair_new pre in
  let s1 := pair_step (E:=E) w s0 (AtAlice (NQuery (rw_bob_id w) i qid now p)) in
  let s2 := pair_run w s1 post in
  private_run w i rldp_pair_new pre -> private_run w i s1 post ->
  ~ bob_forgot s2 i -> (bob_calls s2 i <= 1)%nat.
Proof.
  intros E w i qid now p pre post Hw Hi s0 s1 s2 Hpre Hpost Hnf.
  pose proof (fresh_run w Hw i qid Hi pre _ (fresh_new w i) Hpre) as Hf. fold s0 in Hf.
  pose proof (calls_run E w i qid Hw Hi pre _ (fresh_new w i) eq_refl Hpre) as Hc. fold s0 in Hc.
  assert (Hst : steady i w s1).
  { destruct Hf as (((C1 & C2 & C3 & C4 & C5) & U1 & U2) & _ & _ & QB). destruct (id Hw) as (HF & Hs & Hs32).
    assert (Ht : forall k, ~ of_query i k -> lone_there i k = None) by (intros k Hk; exact (proj1 (lone_other i k Hk))).
    assert (Hb : forall k, ~ of_query i k -> lone_back i k = None) by (intros k Hk; exact (proj2 (lone_other i k Hk))).
    split; [|split; [|split; [|split; [|split]]]]; cbn [s1 pair_step rldp_step rp_alice rp_bob rp_from_alice rp_from_bob].
    - apply start_query_good; [exact Hs|exact Hs32| | |].
      + intros x d H. apply lone_back_some in H as [_ H]. discriminate.
      + exact (good_raise w i qid Hi [] (Ok (Processed None) : res (query_error E) processed) None (or_introl eq_refl) (lone_back i) (lone_there i) _ C1 U1 Hb Ht).
      + unfold content_good. unfold lone_there. rewrite decide_False; [exact I|].
        intros He. symmetry in He. revert He. apply negate_differs. intros ->. discriminate Hi.
    - exact (good_raise w i qid Hi [] (Ok (Processed None) : res (query_error E) processed) None (or_introl eq_refl) (lone_there i) (lone_back i) _ C2 U2 Ht Hb).
    - apply sent_good_app; [now apply (sent_raise w i qid Hi [] (Ok (Processed None) : res (query_error E) processed) None (or_introl eq_refl))|apply sent_good_nil].
    - now apply (sent_raise w i qid Hi [] (Ok (Processed None) : res (query_error E) processed) None (or_introl eq_refl)).
    - exact QB.
    - left. split; [|exact Hc]. intros k a Ha He. destruct (good_answers w i Hi _ C2) as [B1 _]. apply (B1 k a Ha). left. exact He. }
  pose proof (steady_run i Hi w Hw post s1 Hst Hpost) as (_ & _ & _ & _ & _ & HT). fold s2 in HT.
  change (bob_calls s2 i) with (calls i (rp_bob s2)).
  destruct HT as [[_ H]|[(k & a & _ & _ & _ & _ & H)|(k & a & H1 & H2 & H3)]].
  - lia.
  - destruct (an_stage a); cbn [stage_calls] in H; lia.
  - exfalso. apply Hnf. exists a. split; [|auto]. eapply nth_error_In. eapply lookup_nth. exact H1.
Qed.
