(** Two RLDP nodes: a query that was sent completely has been received completely, as long as the
    responder's timer has not come and the responder has not forgotten the query. *)
From stdpp Require Import gmap.
From Coq Require Import NArith Lia.
From Coq Require Import ZifyBool ZifyNat ZifyN.
From Verif.Base Require Import Bytes BytesFacts Res.
From Verif.Model Require Import Tl ProtoRldp Compression Subscribers Fec RldpTransfer RldpQuery RldpNode.
From Verif.Spec Require Import Codec CompressionSpec FecSpec RldpSpec RldpPairSpec.
From Verif.Proof Require Import CompressionFacts FecFacts RldpParts RldpInFacts RldpOutFacts RldpQueryFacts
  RldpNodeFacts RldpPairFacts RldpLiveFacts.
Open Scope N_scope.

(** ** A single receiver *)

Lemma receive_one_more : forall F t m, let (t', reply) := receive_one F t m in
  it_part t <= it_part t' /\ (incoming_done t = true -> incoming_done t' = true)
  /\ forall id j, reply = Some (MpComplete id j) -> j < it_part t' \/ incoming_done t' = true.
Proof.
  intros F t m. unfold receive_one, process_chunk.
  assert (Hcur : forall t0 total d, it_total t0 = Some total -> ch_part m = it_part t0 ->
    let (t', r) := process_current F t0 total d m in
    it_part t0 <= it_part t' /\ (incoming_done t0 = true -> incoming_done t' = true)
    /\ forall id j, r = Ok (Some (MpComplete id j)) -> j < it_part t' \/ incoming_done t' = true).
  { intros t0 total d Ht Hp. unfold process_current. destruct (decode F d (ch_seqno m) (ch_data m)) as [[data|] d'].
    - cbn [set_decoder it_data it_id it_max it_part it_total it_updates it_confirm].
      destruct (total <? N.of_nat (length data + length (it_data t0))) eqn:E1.
      { split; [cbn; lia|]. split; [|discriminate]. intros H. exact H. }
      unfold incoming_done. rewrite Ht. destruct (N.ltb_spec (N.of_nat (length (it_data t0 ++ data))) total) as [E2|E2];
        cbn [it_part it_total it_data]; rewrite ?app_length in *.
      + split; [lia|]. split; [lia|]. intros id j Hj. injection Hj as <- <-. left. lia.
      + split; [lia|]. split; [lia|]. intros id j Hj. right. lia.
    - cbn [set_decoder it_confirm]. destruct (it_confirm t0 =? 9); cbn; (split; [lia|]); (split; [|discriminate]); intros H; exact H. }
  assert (Hpart : forall t0 total, it_total t0 = Some total ->
    let (t', r) := process_part F t0 total m in
    it_part t0 <= it_part t' /\ (incoming_done t0 = true -> incoming_done t' = true)
    /\ forall id j, r = Ok (Some (MpComplete id j)) -> j < it_part t' \/ incoming_done t' = true).
  { intros t0 total Ht. unfold process_part. destruct (N.compare_spec (ch_part m) (it_part t0)) as [E|E|E].
    - destruct (it_decoder t0) as [d|].
      + destruct (fec_type_eqb (de_params d) (ch_fec m)); [now apply Hcur|]. split; [lia|]. split; [auto|discriminate].
      + now apply Hcur.
    - split; [lia|]. split; [auto|]. intros id j Hj. injection Hj as <- <-. left. exact E.
    - split; [lia|]. split; [auto|discriminate]. }
  assert (Hwrap : forall (p : incoming * res in_error (option message_part)) (t0 : incoming),
    (let (t', r) := p in it_part t0 <= it_part t' /\ (incoming_done t0 = true -> incoming_done t' = true)
       /\ forall id j, r = Ok (Some (MpComplete id j)) -> j < it_part t' \/ incoming_done t' = true) ->
    it_part t0 = it_part t -> (incoming_done t = true -> incoming_done t0 = true) ->
    let (t', reply) := (let (t', r) := p in
      (mk_incoming (it_id t') (it_max t') (it_confirm t') (it_data t') (it_decoder t') (it_part t')
         (it_total t') (it_updates t' + 1), match r with Ok reply => reply | Err _ => None end)) in
    it_part t <= it_part t' /\ (incoming_done t = true -> incoming_done t' = true)
    /\ forall id j, reply = Some (MpComplete id j) -> j < it_part t' \/ incoming_done t' = true).
  { intros [t' r] t0 (A & B & C) H1 H2. split; [cbn [it_part]; lia|]. split; [intros H; apply B, H2, H|].
    intros id j Hj. apply (C id j). destruct r; [now f_equal|discriminate]. }
  destruct (it_total t) as [total|] eqn:Et.
  - destruct (total =? ch_total m).
    + apply (Hwrap _ t); [now apply Hpart|reflexivity|auto].
    + apply (Hwrap (t, Err TotalSizeMismatch) t); [|reflexivity|auto]. split; [lia|]. split; [auto|discriminate].
  - destruct (it_max t <? ch_total m).
    + apply (Hwrap (t, Err TooBigTransferSize) t); [|reflexivity|auto]. split; [lia|]. split; [auto|discriminate].
    + apply (Hwrap _ (set_total t (ch_total m))); [now apply Hpart|reflexivity|]. unfold incoming_done at 1. rewrite Et. discriminate.
Qed.

Section Received.
Context (i : bytes).

(** ** The responder *)

Definition grown (rc rc' : receiver) : Prop :=
  it_id (rc_transfer rc') = it_id (rc_transfer rc) /\ it_part (rc_transfer rc) <= it_part (rc_transfer rc')
  /\ (incoming_done (rc_transfer rc) = true -> incoming_done (rc_transfer rc') = true).
Lemma grown_refl : forall rc, grown rc rc.
Proof. intros rc. split; [reflexivity|]. split; [lia|auto]. Qed.

(** Receivers only grow, and new ones are added. *)
Definition later (n : rldp_node) (l l' : list receiver) : Prop :=
  (forall r rc, l !! r = Some rc -> exists rc', l' !! r = Some rc' /\ grown rc rc'
     /\ (rc_finished rc' = true -> rc_finished rc = true \/ incoming_done (rc_transfer rc') = true \/ channel_open n r = false)).
Lemma later_refl : forall n l, later n l l.
Proof. intros n l r rc H. exists rc. split; [exact H|]. split; [apply grown_refl|auto]. Qed.
Lemma later_app : forall n l x, later n l (l ++ x).
Proof. intros n l x r rc H. exists rc. split; [now apply lookup_app_l_Some|]. split; [apply grown_refl|auto]. Qed.
Lemma later_insert : forall n l r0 rc0 rc1, l !! r0 = Some rc0 -> grown rc0 rc1 ->
  (rc_finished rc1 = true -> rc_finished rc0 = true \/ incoming_done (rc_transfer rc1) = true \/ channel_open n r0 = false) ->
  later n l (<[r0 := rc1]> l).
Proof.
  intros n l r0 rc0 rc1 H0 Hg Hf r rc Hr. destruct (decide (r = r0)) as [->|Hne].
  - assert (rc = rc0) as -> by congruence. exists rc1. split; [apply list_lookup_insert; eapply lookup_lt_Some; exact H0|auto].
  - exists rc. rewrite list_lookup_insert_ne by congruence. split; [exact Hr|]. split; [apply grown_refl|auto].
Qed.

Lemma receiver_turn_later : forall F slice ck n r, later n (rn_receivers n) (rn_receivers (fst (receiver_turn F slice ck n r))).
Proof.
  intros F slice ck n r. unfold receiver_turn. destruct (rn_receivers n !! r) as [rc|] eqn:Er; [|apply later_refl].
  destruct (rc_finished rc) eqn:Ef; [apply later_refl|]. destruct (rc_queue rc) as [|m rest].
  - destruct (channel_open n r) eqn:Ec; [apply later_refl|]. cbn [fst set_receivers rn_receivers].
    apply (later_insert n _ r rc); [exact Er| |auto]. apply (grown_refl rc).
  - pose proof (receive_one_id F (rc_transfer rc) m) as Hid. pose proof (receive_one_more F (rc_transfer rc) m) as Hm.
    destruct (receive_one F (rc_transfer rc) m) as [t reply]. cbn [fst] in Hid. destruct Hm as (M1 & M2 & _). cbv zeta.
    set (n1 := set_receivers n _).
    assert (H1 : rn_receivers (match rc_notify rc with Some s => fst (sender_event F slice ck n1 s EvReply) | None => n1 end) = rn_receivers n1).
    { destruct (rc_notify rc); [apply sender_event_frame|reflexivity]. }
    cbn [fst]. rewrite H1. unfold n1. cbn [set_receivers rn_receivers]. apply (later_insert n _ r rc); [exact Er|split; [exact Hid|split; assumption]|].
    cbn. auto.
Qed.
Lemma step_later : forall E F slice ck z o n (ev : rldp_event E),
  later n (rn_receivers n) (rn_receivers (fst (rldp_step F slice ck z o n ev))).
Proof.
  intros E F slice ck z o n ev. destruct ev as [peer id q1 t1 p1|peer m|r0|s ev|k0 gu|k0 subs|k0]; cbn [rldp_step fst].
  - apply later_app.
  - destruct m as [id f pt t sq d|id pt sq|id pt]; cbn [handle_message].
    + unfold handle_chunk. destruct (rn_table n !! id) as [[r1| |]|]; try apply later_refl; [|apply later_app].
      destruct (rn_receivers n !! r1) as [rc1|] eqn:Er; [|apply later_refl]. cbn [fst]. destruct (rc_finished rc1); [apply later_refl|].
      cbn [set_receivers rn_receivers]. apply (later_insert n _ r1 rc1); [exact Er|apply (grown_refl rc1)|cbn; discriminate].
    + destruct (report_frame F slice ck n id (EvConfirm pt sq)) as (_ & -> & _). apply later_refl.
    + destruct (report_frame F slice ck n id (EvComplete pt)) as (_ & -> & _). apply later_refl.
  - apply receiver_turn_later.
  - destruct (sender_event_frame F slice ck n s (loop_send_event ev)) as (_ & -> & _). apply later_refl.
  - unfold query_turn, put_query. destruct (rn_queries n !! k0) as [q'|]; [|apply later_refl]. cbv zeta. destruct (qr_stage q').
    + destruct (sender_result n (qr_sender q')) as [[[|]|]|]; apply later_refl.
    + destruct gu; [apply later_refl|]. destruct (rn_receivers n !! qr_receiver q') as [rc1|]; [|apply later_refl]. destruct (rc_finished rc1); apply later_refl.
    + apply later_refl.
    + apply later_refl.
  - unfold answer_turn. destruct (rn_answers n !! k0) as [a|]; [|apply later_refl]. cbv zeta. destruct (an_stage a).
    + destruct (rn_receivers n !! an_receiver a) as [rc1|]; [|apply later_refl]. destruct (rc_finished rc1); apply later_refl.
    + destruct (rn_receivers n !! an_receiver a) as [rc1|]; [|apply later_refl].
      destruct (query_from_data (it_data (rc_transfer rc1))) as [[[query_id max] payload]|]; [|apply later_refl].
      destruct (process_rldp_query z subs (ro_force o) query_id max payload) as [r log]. destruct r as [[[answer|]|]|e]; apply later_refl.
    + destruct (sender_result n sender) as [[[|]|]|]; apply later_refl.
    + apply later_refl.
    + apply later_refl.
  - unfold timer_fires. destruct (rn_answers n !! k0) as [a|]; [|apply later_refl]. destruct (an_timer a); apply later_refl.
Qed.

(** Part [j] of the query has been received, or all of it. *)
Definition got (n : rldp_node) (j : N) : Prop :=
  exists r rc, rn_receivers n !! r = Some rc /\ it_id (rc_transfer rc) = i
    /\ (j < it_part (rc_transfer rc) \/ incoming_done (rc_transfer rc) = true).
Definition whole (n : rldp_node) : Prop :=
  exists r rc, rn_receivers n !! r = Some rc /\ it_id (rc_transfer rc) = i /\ incoming_done (rc_transfer rc) = true.
Lemma whole_got : forall n j, whole n -> got n j.
Proof. intros n j (r & rc & A & B & C). exists r, rc. auto. Qed.
Lemma got_later : forall n n' j, later n (rn_receivers n) (rn_receivers n') -> got n j -> got n' j.
Proof.
  intros n n' j H (r & rc & A & B & C). destruct (H r rc A) as (rc' & D & (G1 & G2 & G3) & _). exists r, rc'.
  split; [exact D|]. split; [congruence|]. destruct C as [C|C]; [left; lia|right; auto].
Qed.
Lemma whole_later : forall n n', later n (rn_receivers n) (rn_receivers n') -> whole n -> whole n'.
Proof.
  intros n n' H (r & rc & A & B & C). destruct (H r rc A) as (rc' & D & (G1 & G2 & G3) & _). exists r, rc'.
  split; [exact D|]. split; [congruence|auto].
Qed.

(** The responder has forgotten the query, or its timer has come. *)
Definition lost (n : rldp_node) : Prop :=
  exists k a, rn_answers n !! k = Some a /\ an_id a = i /\ (an_stage a = AEnded \/ an_timer a = false).

(** Otherwise the query is new or one task works on it. *)
Definition intact (n : rldp_node) : Prop :=
  (rn_table n !! i = None
   /\ (forall k a, rn_answers n !! k = Some a -> an_id a <> i)
   /\ (forall r rc, rn_receivers n !! r = Some rc -> it_id (rc_transfer rc) <> i))
  \/ exists r rc k a, rn_receivers n !! r = Some rc /\ it_id (rc_transfer rc) = i
     /\ (forall r' rc', rn_receivers n !! r' = Some rc' -> it_id (rc_transfer rc') = i -> r' = r)
     /\ rn_answers n !! k = Some a /\ an_id a = i /\ an_receiver a = r /\ an_timer a = true
     /\ (forall k' a', rn_answers n !! k' = Some a' -> an_id a' = i -> k' = k)
     /\ (rn_table n !! i = Some (TIncoming r) /\ an_stage a = AReceiving
         /\ (rc_finished rc = true -> incoming_done (rc_transfer rc) = true)
         \/ rn_table n !! i = Some TDone /\ an_stage a <> AReceiving /\ an_stage a <> AEnded
            /\ incoming_done (rc_transfer rc) = true).

Lemma intact_frame : forall n n', intact n -> rn_table n' !! i = rn_table n !! i ->
  (forall k a, an_id a = i -> rn_answers n' !! k = Some a <-> rn_answers n !! k = Some a) ->
  later n (rn_receivers n) (rn_receivers n') ->
  (forall r rc', rn_receivers n' !! r = Some rc' -> it_id (rc_transfer rc') = i -> exists rc, rn_receivers n !! r = Some rc /\ it_id (rc_transfer rc) = i) ->
  intact n'.
Proof.
  intros n n' H Ht Ha Hl Hb. unfold intact. rewrite Ht.
  destruct H as [(H1 & H2 & H3)|(r & rc & k & a & R1 & R2 & R3 & A1 & A2 & A3 & A4 & A5 & Hst)].
  - left. split; [exact H1|]. split.
    + intros k a Hk Hai. apply Ha in Hk; [|exact Hai]. now apply (H2 k a).
    + intros r rc' Hr Hri. destruct (Hb r rc' Hr Hri) as (rc & G1 & G2). now apply (H3 r rc).
  - right. destruct (Hl r rc R1) as (rc' & L1 & (L2 & L3 & L4) & L5). exists r, rc', k, a.
    split; [exact L1|]. split; [congruence|]. split.
    { intros r' rc2 Hr Hri. destruct (Hb r' rc2 Hr Hri) as (rc3 & G1 & G2). now apply (R3 r' rc3). }
    split; [now apply Ha|]. split; [exact A2|]. split; [exact A3|]. split; [exact A4|]. split.
    { intros k' a' Hk Hai. apply Ha in Hk; [|exact Hai]. now apply (A5 k' a'). }
    destruct Hst as [(S1 & S2 & S3)|(S1 & S2 & S3 & S4)]; [left|right; auto].
    split; [exact S1|]. split; [exact S2|]. intros Hf. destruct (L5 Hf) as [Hf1|[Hf1|Hf1]]; [auto|exact Hf1|].
    rewrite (open_channel _ _ _ S1) in Hf1. discriminate.
Qed.

(** The answer itself goes on. *)
Lemma intact_own : forall n n' k0 a0 st, intact n -> rn_answers n !! k0 = Some a0 -> an_id a0 = i ->
  rn_receivers n' = rn_receivers n ->
  rn_answers n' = <[k0 := mk_answer_run (an_peer a0) (an_id a0) (an_receiver a0) st (an_timer a0)]> (rn_answers n) ->
  (forall rc, rn_receivers n !! an_receiver a0 = Some rc ->
     (rn_table n !! i = Some (TIncoming (an_receiver a0)) /\ an_stage a0 = AReceiving /\ (rc_finished rc = true -> incoming_done (rc_transfer rc) = true)
      \/ rn_table n !! i = Some TDone /\ an_stage a0 <> AReceiving /\ an_stage a0 <> AEnded /\ incoming_done (rc_transfer rc) = true) ->
     rn_table n' !! i = Some TDone /\ st <> AReceiving /\ st <> AEnded /\ incoming_done (rc_transfer rc) = true) ->
  intact n'.
Proof.
  intros n n' k0 a0 st H Hk Hid Er Ea Hst. unfold intact.
  destruct H as [(_ & H2 & _)|(r & rc & k & a & R1 & R2 & R3 & A1 & A2 & A3 & A4 & A5 & Hs)]; [now destruct (H2 k0 a0)|].
  assert (k0 = k) as -> by now apply (A5 k0 a0). assert (a0 = a) as -> by congruence. subst r.
  specialize (Hst rc R1 Hs). right. rewrite Er, Ea.
  exists (an_receiver a), rc, k, (mk_answer_run (an_peer a) (an_id a) (an_receiver a) st (an_timer a)).
  split; [exact R1|]. split; [exact R2|]. split; [exact R3|].
  split; [apply list_lookup_insert; eapply lookup_lt_Some; exact A1|]. cbn [an_id an_receiver an_timer an_stage].
  split; [exact A2|]. split; [reflexivity|]. split; [exact A4|]. split; [|right; exact Hst].
  intros k' a' Ha Hai. destruct (decide (k' = k)) as [->|Hne]; [reflexivity|].
  rewrite list_lookup_insert_ne in Ha by congruence. now apply (A5 k' a').
Qed.

Lemma other_answers : forall (l : list answer_run) k0 a0 st tm, l !! k0 = Some a0 -> an_id a0 <> i ->
  forall k a, an_id a = i ->
  <[k0 := mk_answer_run (an_peer a0) (an_id a0) (an_receiver a0) st tm]> l !! k = Some a <-> l !! k = Some a.
Proof.
  intros l k0 a0 st tm H Hne k a Hai. destruct (decide (k = k0)) as [->|Hk].
  - rewrite list_lookup_insert by (eapply lookup_lt_Some; exact H). split; intros G; exfalso; apply Hne.
    + injection G as <-. exact Hai.
    + congruence.
  - now rewrite list_lookup_insert_ne by congruence.
Qed.

Context (Hi : hash_ok i).
Lemma negate_ne : negate_id i <> i.
Proof. apply negate_differs. intros ->. discriminate Hi. Qed.
Lemma negate_back : forall x, negate_id x = i -> x = negate_id i.
Proof. intros x <-. now rewrite negate_involutive. Qed.

Lemma intact_step : forall E F slice ck z o n (ev : rldp_event E), intact n ->
  (forall id r, rn_table n !! id = Some (TIncoming r) -> rc_ids n !! r = Some id) ->
  (forall k a, rn_answers n !! k = Some a -> an_id a <> negate_id i) ->
  (forall k a x, rn_answers n !! k = Some a -> an_stage a = ASleeping (Some x) -> x = negate_id (an_id a)) ->
  (forall k q, rn_queries n !! k = Some q -> ~ of_query i (qr_id q)) ->
  (forall peer id q1 t1 p1, ev = NQuery peer id q1 t1 p1 -> ~ of_query i id) ->
  intact (fst (rldp_step F slice ck z o n ev)) \/ lost (fst (rldp_step F slice ck z o n ev)).
Proof.
  intros E F slice ck z o n ev H Htab Ha Hx Hq Hnq.
  pose proof (step_later E F slice ck z o n ev) as Hlat.
  assert (Hsame : forall n', rn_receivers n' = rn_receivers n -> rn_answers n' = rn_answers n -> rn_table n' !! i = rn_table n !! i ->
    intact n' \/ lost n').
  { intros n' E1 E2 E3. left. apply (intact_frame n); [exact H|exact E3|now rewrite E2|rewrite E1; apply later_refl|rewrite E1; eauto]. }
  destruct ev as [peer id q1 t1 p1|peer m|r0|s ev|k0 gu|k0 subs|k0]; cbn [rldp_step fst] in *.
  - specialize (Hnq _ _ _ _ _ eq_refl). left. apply (intact_frame n); [exact H| |reflexivity|exact Hlat|]; cbn [start_query rn_table rn_receivers].
    + assert (N1 : id <> i) by (intros ->; apply Hnq; now left).
      assert (N2 : negate_id id <> i) by (intros He; apply Hnq; right; now apply negate_back).
      now rewrite !lookup_insert_ne.
    + intros r rc' Hr Hri. apply snoc_cases in Hr as [->|Hr]; [|eauto]. cbn in Hri. exfalso. apply Hnq. right. now apply negate_back.
  - destruct m as [id f pt t sq d|id pt sq|id pt]; cbn [handle_message] in *.
    + unfold handle_chunk in *. destruct (rn_table n !! id) as [[r1| |]|] eqn:Et; try (left; exact H).
      * destruct (rn_receivers n !! r1) as [rc1|] eqn:Er; [|left; exact H]. cbn [fst] in *.
        destruct (rc_finished rc1); [left; exact H|]. left.
        apply (intact_frame n); [exact H|reflexivity|reflexivity|exact Hlat|]. cbn [set_receivers rn_receivers].
        intros r rc' Hr Hri. destruct (decide (r = r1)) as [->|Hne].
        -- rewrite list_lookup_insert in Hr by (eapply lookup_lt_Some; exact Er). injection Hr as <-. exists rc1. auto.
        -- rewrite list_lookup_insert_ne in Hr by congruence. eauto.
      * cbn [fst] in *. left. destruct (decide (id = i)) as [->|Hne].
        -- destruct H as [(H1 & H2 & H3)|(r & rc & k & a & R1 & R2 & R3 & A1 & A2 & A3 & A4 & A5 & [(S1 & _)|(S1 & _)])]; [|congruence..].
           right. exists (length (rn_receivers n)), (receiver_new peer i (ro_max_answer o) None [mk_chunk f pt t sq d]), (length (rn_answers n)),
             (mk_answer_run peer i (length (rn_receivers n)) AReceiving true). cbn [rn_receivers rn_answers rn_table].
           split; [now rewrite lookup_app_r, Nat.sub_diag by lia|]. split; [reflexivity|]. split.
           { intros r' rc' Hr Hri. apply lookup_app_Some in Hr as [Hr|[Hle Hr]]; [now destruct (H3 _ _ Hr)|].
             apply list_lookup_singleton_Some in Hr as [Hr _]. lia. }
           split; [now rewrite lookup_app_r, Nat.sub_diag by lia|]. split; [reflexivity|]. split; [reflexivity|]. split; [reflexivity|]. split.
           { intros k' a' Hk Hai. apply lookup_app_Some in Hk as [Hk|[Hle Hk]]; [now destruct (H2 _ _ Hk)|].
             apply list_lookup_singleton_Some in Hk as [Hk _]. lia. }
           left. split; [now rewrite lookup_insert|]. split; [reflexivity|]. cbn. discriminate.
        -- apply (intact_frame n); [exact H| | |exact Hlat|]; cbn [rn_table rn_answers rn_receivers].
           ++ now rewrite lookup_insert_ne.
           ++ intros k a Hai. split; intros G; [|now apply lookup_app_l_Some]. apply snoc_cases in G as [->|G]; [now cbn in Hai|exact G].
           ++ intros r rc' Hr Hri. apply snoc_cases in Hr as [->|Hr]; [now cbn in Hri|eauto].
    + destruct (report_frame F slice ck n id (EvConfirm pt sq)) as (F1 & F2 & F3 & F4 & F5). apply Hsame; [exact F2|exact F4|now rewrite F1].
    + destruct (report_frame F slice ck n id (EvComplete pt)) as (F1 & F2 & F3 & F4 & F5). apply Hsame; [exact F2|exact F4|now rewrite F1].
  - destruct (receiver_turn_frame F slice ck n r0) as (F1 & F2 & F3 & F4 & F5). left.
    apply (intact_frame n); [exact H|now rewrite F1|now rewrite F3|exact Hlat|].
    intros r rc' Hr Hri. destruct F5 as [F5|(rc & rc1 & G1 & G2 & G3 & _)]; [rewrite F5 in Hr; eauto|].
    rewrite G2 in Hr. destruct (decide (r = r0)) as [->|Hne].
    + rewrite list_lookup_insert in Hr by (eapply lookup_lt_Some; exact G1). injection Hr as <-. exists rc. split; [exact G1|congruence].
    + rewrite list_lookup_insert_ne in Hr by congruence. eauto.
  - destruct (sender_event_frame F slice ck n s (loop_send_event ev)) as (F1 & F2 & F3 & F4 & F5). apply Hsame; [exact F2|exact F4|now rewrite F1].
  - unfold query_turn, put_query in *. destruct (rn_queries n !! k0) as [q'|] eqn:Ek; [|left; exact H]. cbv zeta in *.
    specialize (Hq k0 q' Ek).
    assert (N1 : qr_id q' <> i) by (intros He; apply Hq; left; exact He).
    assert (N2 : negate_id (qr_id q') <> i) by (intros He; apply Hq; right; now apply negate_back).
    destruct (qr_stage q').
    + destruct (sender_result n (qr_sender q')) as [[[|]|]|]; [| | |left; exact H]; (apply Hsame; [reflexivity|reflexivity|]);
        cbn; rewrite ?lookup_insert_ne by assumption; reflexivity.
    + destruct gu; [|destruct (rn_receivers n !! qr_receiver q') as [rc1|]; [|left; exact H]; destruct (rc_finished rc1); [|left; exact H]];
        (apply Hsame; [reflexivity|reflexivity|]); cbn; rewrite ?lookup_insert_ne by assumption; reflexivity.
    + apply Hsame; [reflexivity|reflexivity|]. cbn. rewrite !lookup_delete_ne by assumption. reflexivity.
    + left. exact H.
  - unfold answer_turn in *. destruct (rn_answers n !! k0) as [a|] eqn:Ek; [|left; exact H]. cbv zeta in *.
    specialize (Ha k0 a Ek). specialize (Hx k0 a).
    assert (N2 : negate_id (an_id a) <> i) by (intros He; now apply negate_back in He).
    destruct (bytes_eqb (an_id a) i) eqn:Eb.
    + apply bytes_eqb_eq in Eb.
      assert (Hrest : forall n1 st, rn_receivers n1 = rn_receivers n -> rn_answers n1 = rn_answers n -> rn_table n1 !! i = rn_table n !! i ->
        an_stage a <> AReceiving -> st <> AReceiving -> st <> AEnded -> intact (put_answer n1 k0 a st)).
      { intros n1 st E1 E2 E3 S1 S2 S3. apply (intact_own n _ k0 a st H Ek Eb); [exact E1|unfold put_answer; cbn; now rewrite E2|].
        intros rc Hrc [(_ & G & _)|(G1 & _ & _ & G4)]; [contradiction|]. cbn [put_answer set_answers rn_table]. rewrite E3. auto. }
      destruct (an_stage a) eqn:Es.
      * destruct (rn_receivers n !! an_receiver a) as [rc1|] eqn:Er; [|left; exact H]. destruct (rc_finished rc1) eqn:Ef; [|left; exact H].
        left. apply (intact_own n _ k0 a AProcessing H Ek Eb); [reflexivity|reflexivity|]. intros rc Hrc Hs.
        assert (rc = rc1) as -> by congruence. rewrite Eb. split; [apply lookup_insert|]. split; [discriminate|]. split; [discriminate|].
        destruct Hs as [(_ & _ & S)|(_ & _ & _ & S)]; [now apply S|exact S].
      * destruct (rn_receivers n !! an_receiver a) as [rc1|]; [|left; exact H].
        destruct (query_from_data (it_data (rc_transfer rc1))) as [[[query_id max] payload]|].
        2: { left. apply Hrest; try reflexivity; discriminate. }
        destruct (process_rldp_query z subs (ro_force o) query_id max payload) as [r log].
        left. destruct r as [[[answer|]|]|e]; (apply Hrest; try reflexivity; try discriminate).
        cbn. now rewrite lookup_insert_ne.
      * destruct (sender_result n sender) as [[[|]|]|]; [| | |left; exact H]; left; apply Hrest; try reflexivity; discriminate.
      * right. eexists k0, _. cbn [put_answer set_answers rn_answers set_table]. split; [apply list_lookup_insert; eapply lookup_lt_Some; exact Ek|].
        split; [exact Eb|left; reflexivity].
      * left. exact H.
    + assert (N1 : an_id a <> i) by (intros He; rewrite He, bytes_eqb_refl in Eb; discriminate).
      assert (Hrest : forall n1 st, rn_receivers n1 = rn_receivers n -> rn_answers n1 = rn_answers n -> rn_table n1 !! i = rn_table n !! i ->
        intact (put_answer n1 k0 a st)).
      { intros n1 st E1 E2 E3. apply (intact_frame n); [exact H|exact E3| | |]; cbn [put_answer set_answers rn_answers rn_receivers]; rewrite ?E1, ?E2.
        - intros k a1 Hai. now apply other_answers.
        - apply later_refl.
        - eauto. }
      destruct (an_stage a) eqn:Es.
      * destruct (rn_receivers n !! an_receiver a) as [rc1|]; [|left; exact H]. destruct (rc_finished rc1); [|left; exact H].
        left. apply Hrest; try reflexivity. cbn. now rewrite lookup_insert_ne.
      * destruct (rn_receivers n !! an_receiver a) as [rc1|]; [|left; exact H].
        destruct (query_from_data (it_data (rc_transfer rc1))) as [[[query_id max] payload]|].
        2: { left. apply Hrest; reflexivity. }
        destruct (process_rldp_query z subs (ro_force o) query_id max payload) as [r log].
        left. destruct r as [[[answer|]|]|e]; (apply Hrest; try reflexivity).
        cbn. now rewrite lookup_insert_ne.
      * destruct (sender_result n sender) as [[[|]|]|]; [| | |left; exact H]; left; apply Hrest; reflexivity.
      * left. apply Hrest; try reflexivity. cbn. rewrite lookup_delete_ne by exact N1. destruct out as [x|]; [|reflexivity].
        rewrite (Hx x Ek eq_refl). now rewrite lookup_delete_ne.
      * left. exact H.
  - unfold timer_fires in *. destruct (rn_answers n !! k0) as [a|] eqn:Ek; [|left; exact H]. destruct (an_timer a); [|left; exact H].
    destruct (bytes_eqb (an_id a) i) eqn:Eb.
    + apply bytes_eqb_eq in Eb. right. eexists k0, _. cbn [rn_answers set_answers]. split; [apply list_lookup_insert; eapply lookup_lt_Some; exact Ek|].
      split; [exact Eb|right; reflexivity].
    + assert (N1 : an_id a <> i) by (intros He; rewrite He, bytes_eqb_refl in Eb; discriminate).
      left. apply (intact_frame n); [exact H| | |exact Hlat|eauto]; cbn [set_answers set_table rn_table rn_answers].
      * now rewrite lookup_insert_ne.
      * intros k a1 Hai. now apply other_answers.
Qed.

(** What is lost stays lost. *)
Lemma lost_step : forall E F slice ck z o n (ev : rldp_event E), lost n -> lost (fst (rldp_step F slice ck z o n ev)).
Proof.
  intros E F slice ck z o n ev (k & a & H1 & H2 & H3). unfold lost.
  assert (Hsame : forall n', rn_answers n' = rn_answers n -> lost n') by (intros n' En; exists k, a; rewrite En; auto).
  assert (Hput : forall n1 k0 a0 st, rn_answers n1 = rn_answers n -> rn_answers n !! k0 = Some a0 -> an_stage a0 <> AEnded ->
    lost (put_answer n1 k0 a0 st)).
  { intros n1 k0 a0 st E1 Hk Hs. unfold lost. cbn [put_answer set_answers rn_answers]. rewrite E1.
    destruct (decide (k = k0)) as [->|Hne].
    - assert (a0 = a) as -> by congruence. eexists k0, _. split; [apply list_lookup_insert; eapply lookup_lt_Some; exact Hk|]. cbn.
      split; [exact H2|]. right. destruct H3 as [H3|H3]; [contradiction|exact H3].
    - exists k, a. rewrite list_lookup_insert_ne by congruence. auto. }
  destruct ev as [peer id q1 t1 p1|peer m|r0|s ev|k0 gu|k0 subs|k0]; cbn [rldp_step fst].
  - now apply Hsame.
  - destruct m as [id f pt t sq d|id pt sq|id pt]; cbn [handle_message].
    + unfold handle_chunk. destruct (rn_table n !! id) as [[r1| |]|]; try (now apply Hsame).
      * destruct (rn_receivers n !! r1) as [rc1|]; [|now apply Hsame]. cbn [fst]. destruct (rc_finished rc1); now apply Hsame.
      * cbn [fst rn_answers]. exists k, a. split; [now apply lookup_app_l_Some|auto].
    + apply Hsame. apply report_frame.
    + apply Hsame. apply report_frame.
  - apply Hsame. apply receiver_turn_frame.
  - apply Hsame. apply sender_event_frame.
  - unfold query_turn, put_query. destruct (rn_queries n !! k0) as [q'|]; [|now apply Hsame]. cbv zeta. destruct (qr_stage q').
    + destruct (sender_result n (qr_sender q')) as [[[|]|]|]; now apply Hsame.
    + destruct gu; [now apply Hsame|]. destruct (rn_receivers n !! qr_receiver q') as [rc1|]; [|now apply Hsame]. destruct (rc_finished rc1); now apply Hsame.
    + now apply Hsame.
    + now apply Hsame.
  - unfold answer_turn. destruct (rn_answers n !! k0) as [a0|] eqn:Ek; [|now apply Hsame]. cbv zeta. destruct (an_stage a0) eqn:Es.
    + destruct (rn_receivers n !! an_receiver a0) as [rc1|]; [|now apply Hsame]. destruct (rc_finished rc1); [|now apply Hsame].
      apply Hput; [reflexivity|exact Ek|congruence].
    + destruct (rn_receivers n !! an_receiver a0) as [rc1|]; [|now apply Hsame].
      destruct (query_from_data (it_data (rc_transfer rc1))) as [[[query_id max] payload]|]; [|apply Hput; [reflexivity|exact Ek|congruence]].
      destruct (process_rldp_query z subs (ro_force o) query_id max payload) as [r log].
      destruct r as [[[answer|]|]|e]; (apply Hput; [reflexivity|exact Ek|congruence]).
    + destruct (sender_result n sender) as [[[|]|]|]; [| | |now apply Hsame]; (apply Hput; [reflexivity|exact Ek|congruence]).
    + apply Hput; [reflexivity|exact Ek|congruence].
    + now apply Hsame.
  - unfold timer_fires. destruct (rn_answers n !! k0) as [a0|] eqn:Ek; [|now apply Hsame]. destruct (an_timer a0) eqn:Etm; [|now apply Hsame].
    cbn [set_answers set_table rn_answers]. destruct (decide (k = k0)) as [->|Hne].
    + eexists k0, _. split; [apply list_lookup_insert; eapply lookup_lt_Some; exact Ek|]. cbn. split; [congruence|auto].
    + exists k, a. rewrite list_lookup_insert_ne by congruence. auto.
Qed.
(** ** What the responder sends *)

Definition back_senders (n : rldp_node) : Prop :=
  forall s o, rn_senders n !! s = Some o -> ot_id (se_transfer (ou_sender o)) = negate_id i -> whole n.
Definition tells (out : list (bytes * message_part)) (G : N -> Prop) (Wh : Prop) : Prop :=
  (forall to j, In (to, MpComplete i j) out -> G j)
  /\ (forall to f pt t sq d, In (to, MpPart (negate_id i) f pt t sq d) out -> Wh).
Lemma tells_nil : forall G Wh, tells [] G Wh.
Proof. intros G Wh. split; intros; contradiction. Qed.

Lemma sender_event_ids : forall F slice ck n s ev s' o', rn_senders (fst (sender_event F slice ck n s ev)) !! s' = Some o' ->
  exists o, rn_senders n !! s' = Some o /\ ot_id (se_transfer (ou_sender o)) = ot_id (se_transfer (ou_sender o')).
Proof.
  intros F slice ck n s ev s' o' H. unfold sender_event in H. destruct (rn_senders n !! s) as [o|] eqn:Eo; [|eauto].
  pose proof (send_step_id F slice ck (ou_sender o) ev) as Hid.
  destruct (send_step F slice ck (ou_sender o) ev) as [sd out]. cbn [fst set_senders rn_senders] in *.
  destruct (decide (s' = s)) as [->|Hne].
  - rewrite list_lookup_insert in H by (eapply lookup_lt_Some; exact Eo). injection H as <-. exists o. split; [exact Eo|]. cbn. congruence.
  - rewrite list_lookup_insert_ne in H by congruence. eauto.
Qed.
Lemma sender_event_sends : forall F slice ck n s ev to m, In (to, m) (snd (sender_event F slice ck n s ev)) ->
  exists o f pt t sq d, rn_senders n !! s = Some o /\ m = MpPart (ot_id (se_transfer (ou_sender o))) f pt t sq d.
Proof.
  intros F slice ck n s ev to m H. unfold sender_event in H. destruct (rn_senders n !! s) as [o|] eqn:Eo; [|contradiction].
  destruct (send_step F slice ck (ou_sender o) ev) as [sd [m'|]]; cbn [snd] in H; [|contradiction].
  destruct H as [H|[]]. injection H as <- <-. exists o. eauto 8.
Qed.
Lemma sender_event_tells : forall F slice ck n s ev, back_senders n -> tells (snd (sender_event F slice ck n s ev)) (got n) (whole n).
Proof.
  intros F slice ck n s ev H. split.
  - intros to j Hin. apply sender_event_sends in Hin as (o & f & pt & t & sq & d & _ & He). discriminate.
  - intros to f pt t sq d Hin. apply sender_event_sends in Hin as (o & f' & pt' & t' & sq' & d' & Ho & He).
    injection He as He _ _ _ _ _. now apply (H s o).
Qed.
Lemma intact_done : forall n e, intact n -> rn_table n !! i = Some e -> (forall r, e <> TIncoming r) -> whole n.
Proof.
  intros n e [(H & _)|(r & rc & k & a & R1 & R2 & _ & _ & _ & _ & _ & _ & [(S1 & _)|(_ & _ & _ & S4)])] He Hne; [congruence| |].
  - assert (e = TIncoming r) by congruence. now destruct (Hne r).
  - exists r, rc. auto.
Qed.

Lemma responder_tells : forall E F slice ck z o n (ev : rldp_event E), intact n -> back_senders n ->
  let n' := fst (rldp_step F slice ck z o n ev) in
  tells (snd (rldp_step F slice ck z o n ev)) (got n') (whole n').
Proof.
  intros E F slice ck z o n ev H Hb n'. pose proof (step_later E F slice ck z o n ev) as Hlat. fold n' in Hlat.
  assert (Hup : forall out, tells out (got n) (whole n) -> tells out (got n') (whole n')).
  { intros out [A B]. split.
    - intros to j Hin. apply (got_later n); [exact Hlat|now apply (A to)].
    - intros to f pt t sq d Hin. apply (whole_later n); [exact Hlat|now apply (B to f pt t sq d)]. }
  destruct ev as [peer id q1 t1 p1|peer m|r0|s ev|k0 gu|k0 subs|k0]; cbn [rldp_step snd]; try apply tells_nil.
  - destruct m as [id f pt t sq d|id pt sq|id pt]; cbn [handle_message].
    + assert (Hrep : forall e, rn_table n !! id = Some e -> (forall r, e <> TIncoming r) ->
        tells [(peer, MpConfirm id pt sq); (peer, MpComplete id pt)] (got n') (whole n')).
      { intros e He Hne. apply Hup. split; [|intros ? ? ? ? ? ? [A|[A|[]]]; discriminate].
        intros to j [A|[A|[]]]; [discriminate|]. injection A as _ -> _. apply whole_got. now apply (intact_done n e). }
      unfold handle_chunk. destruct (rn_table n !! id) as [[r1| |]|] eqn:Et; cbn [snd].
      * destruct (rn_receivers n !! r1) as [rc1|]; apply tells_nil.
      * apply (Hrep (TOutgoing sender)); [reflexivity|discriminate].
      * apply (Hrep TDone); [reflexivity|discriminate].
      * apply tells_nil.
    + unfold handle_report. destruct (rn_table n !! id) as [[| |]|]; try apply tells_nil. apply Hup. now apply sender_event_tells.
    + unfold handle_report. destruct (rn_table n !! id) as [[| |]|]; try apply tells_nil. apply Hup. now apply sender_event_tells.
  - unfold n'. cbn [rldp_step]. clear n' Hlat Hup. unfold receiver_turn.
    destruct (rn_receivers n !! r0) as [rc|] eqn:Er; [|apply tells_nil].
    destruct (rc_finished rc) eqn:Ef; [apply tells_nil|]. destruct (rc_queue rc) as [|m rest]; [apply tells_nil|].
    pose proof (receive_one_id F (rc_transfer rc) m) as Hid. pose proof (receive_one_more F (rc_transfer rc) m) as Hm.
    assert (Hrep : forall x, snd (receive_one F (rc_transfer rc) m) = Some x ->
      (exists k, x = MpComplete (it_id (rc_transfer rc)) k) \/ exists k q, x = MpConfirm (it_id (rc_transfer rc)) k q).
    { clear Hid Hm. intros x. unfold receive_one, process_chunk, process_part, process_current.
      repeat match goal with
      | |- context [match ?x with _ => _ end] =>
          lazymatch x with context [match _ with _ => _ end] => fail | _ => destruct x; cbn end
      end; intros Hx; inversion Hx; subst; eauto. }
    destruct (receive_one F (rc_transfer rc) m) as [t reply]. cbn [fst snd] in Hid, Hrep. destruct Hm as (_ & _ & M3). cbv zeta.
    set (n1 := set_receivers n _).
    assert (H1 : rn_receivers (match rc_notify rc with Some s => fst (sender_event F slice ck n1 s EvReply) | None => n1 end) = rn_receivers n1).
    { destruct (rc_notify rc); [apply sender_event_frame|reflexivity]. }
    cbn [fst snd]. destruct reply as [x|]; [|apply tells_nil]. split.
    + intros to j [A|[]]. injection A as _ ->. unfold got. rewrite H1. unfold n1. cbn [set_receivers rn_receivers].
      eexists r0, _. split; [apply list_lookup_insert; eapply lookup_lt_Some; exact Er|]. cbn [rc_transfer].
      assert (it_id (rc_transfer rc) = i) as Ei.
      { destruct (Hrep _ eq_refl) as [[k He]|(k & q & He)]; [injection He as He _; congruence|discriminate]. }
      split; [congruence|]. now apply (M3 i).
    + intros to f pt tt sq d [A|[]]. injection A as _ ->. destruct (Hrep _ eq_refl) as [[k He]|(k & q & He)]; discriminate.
  - apply Hup. now apply sender_event_tells.
Qed.

Lemma back_senders_step : forall E F slice ck z o n (ev : rldp_event E), intact n -> back_senders n ->
  (forall peer id q1 t1 p1, ev = NQuery peer id q1 t1 p1 -> ~ of_query i id) ->
  back_senders (fst (rldp_step F slice ck z o n ev)).
Proof.
  intros E F slice ck z o n ev H Hb Hnq s o0 Ho Hid.
  pose proof (step_later E F slice ck z o n ev) as Hlat. apply (whole_later n); [exact Hlat|]. clear Hlat.
  assert (Hev : forall n1 s1 ev1, rn_senders n1 = rn_senders n -> rn_senders (fst (sender_event F slice ck n1 s1 ev1)) !! s = Some o0 -> whole n).
  { intros n1 s1 ev1 E1 G. apply sender_event_ids in G as (o1 & G1 & G2). rewrite E1 in G1. apply (Hb s o1); [exact G1|congruence]. }
  assert (Hsame : forall n1, rn_senders n1 = rn_senders n -> rn_senders n1 !! s = Some o0 -> whole n).
  { intros n1 E1 G. rewrite E1 in G. now apply (Hb s o0). }
  destruct ev as [peer id q1 t1 p1|peer m|r0|s1 ev|k0 gu|k0 subs|k0]; cbn [rldp_step fst] in Ho.
  - cbn [start_query rn_senders] in Ho. apply snoc_cases in Ho as [->|Ho]; [|now apply (Hb s o0)].
    cbn in Hid. exfalso. apply (Hnq _ _ _ _ _ eq_refl). right. exact Hid.
  - destruct m as [id f pt t sq d|id pt sq|id pt]; cbn [handle_message] in Ho.
    + unfold handle_chunk in Ho. destruct (rn_table n !! id) as [[r1| |]|]; try (now apply (Hsame n)).
      destruct (rn_receivers n !! r1) as [rc1|]; [|now apply (Hsame n)]. cbn [fst] in Ho. destruct (rc_finished rc1); now apply (Hb s o0).
    + unfold handle_report in Ho. destruct (rn_table n !! id) as [[| |]|]; try (now apply (Hsame n)). now apply (Hev n sender (EvConfirm pt sq)).
    + unfold handle_report in Ho. destruct (rn_table n !! id) as [[| |]|]; try (now apply (Hsame n)). now apply (Hev n sender (EvComplete pt)).
  - unfold receiver_turn in Ho. destruct (rn_receivers n !! r0) as [rc|]; [|now apply (Hsame n)].
    destruct (rc_finished rc); [now apply (Hsame n)|]. destruct (rc_queue rc) as [|m rest].
    + destruct (channel_open n r0); now apply (Hb s o0).
    + destruct (receive_one F (rc_transfer rc) m) as [t reply]. cbv zeta in Ho. cbn [fst] in Ho. destruct (rc_notify rc) as [s1|].
      * eapply Hev; [|exact Ho]. reflexivity.
      * now apply (Hb s o0).
  - now apply (Hev n s1 (loop_send_event ev)).
  - unfold query_turn, put_query in Ho. destruct (rn_queries n !! k0) as [q'|]; [|now apply (Hsame n)]. cbv zeta in Ho. destruct (qr_stage q').
    + destruct (sender_result n (qr_sender q')) as [[[|]|]|]; now apply (Hb s o0).
    + destruct gu; [now apply (Hb s o0)|]. destruct (rn_receivers n !! qr_receiver q') as [rc1|]; [|now apply (Hb s o0)]. destruct (rc_finished rc1); now apply (Hb s o0).
    + now apply (Hb s o0).
    + now apply (Hb s o0).
  - unfold answer_turn in Ho. destruct (rn_answers n !! k0) as [a|] eqn:Ek; [|now apply (Hsame n)]. cbv zeta in Ho. destruct (an_stage a) eqn:Es.
    + destruct (rn_receivers n !! an_receiver a) as [rc1|]; [|now apply (Hb s o0)]. destruct (rc_finished rc1); now apply (Hb s o0).
    + destruct (rn_receivers n !! an_receiver a) as [rc1|] eqn:Er; [|now apply (Hb s o0)].
      destruct (query_from_data (it_data (rc_transfer rc1))) as [[[query_id max] payload]|]; [|now apply (Hb s o0)].
      destruct (process_rldp_query z subs (ro_force o) query_id max payload) as [r log].
      destruct r as [[[answer|]|]|e]; try (now apply (Hb s o0)).
      cbn [put_answer set_answers set_senders set_table set_asked rn_senders] in Ho.
      apply snoc_cases in Ho as [->|Ho]; [|now apply (Hb s o0)]. cbn in Hid.
      assert (Hai : an_id a = i) by (rewrite <- (negate_involutive i), <- Hid; now rewrite negate_involutive).
      destruct H as [(_ & H2 & _)|(r1 & rc & k & a1 & R1 & R2 & R3 & A1 & A2 & A3 & A4 & A5 & Hst)]; [now destruct (H2 k0 a Ek)|].
      assert (k0 = k) as -> by now apply (A5 k0 a). assert (a1 = a) as -> by congruence.
      destruct Hst as [(_ & S & _)|(_ & _ & _ & S)]; [congruence|]. exists r1, rc. auto.
    + destruct (sender_result n sender) as [[[|]|]|]; now apply (Hb s o0).
    + now apply (Hb s o0).
    + now apply (Hb s o0).
  - unfold timer_fires in Ho. destruct (rn_answers n !! k0) as [a|]; [|now apply (Hsame n)]. destruct (an_timer a); now apply (Hb s o0).
Qed.

(** ** The requester *)

Section Requester.
Context (F : fec) (HF : fec_ok F) (slice : N) (Hs : 0 < slice) (Hs32 : slice < u32_max) (ck : bool) (data : bytes).

(** What the sending task believes, given what is true ([G]: parts received, [Wh]: all received). *)
Definition sender_believes (G : N -> Prop) (Wh : Prop) (sd : sender) : Prop :=
  (forall j, j < os_part (ot_state (se_transfer sd)) -> G j)
  /\ (os_reply (ot_state (se_transfer sd)) = true -> Wh) /\ (se_point sd = SentAll -> Wh).
Record heard (G : N -> Prop) (Wh : Prop) (n : rldp_node) : Prop := {
  h_senders : forall s o, rn_senders n !! s = Some o -> ot_id (se_transfer (ou_sender o)) = i -> sender_believes G Wh (ou_sender o);
  h_queues : forall r rc, rn_receivers n !! r = Some rc -> it_id (rc_transfer rc) = negate_id i -> rc_queue rc <> [] -> Wh;
  h_notify : forall r rc s, rn_receivers n !! r = Some rc -> rc_notify rc = Some s ->
    exists o, rn_senders n !! s = Some o /\ ot_id (se_transfer (ou_sender o)) = negate_id (it_id (rc_transfer rc));
  h_table : forall id s, rn_table n !! id = Some (TOutgoing s) ->
    exists o, rn_senders n !! s = Some o /\ ot_id (se_transfer (ou_sender o)) = id
}.
Lemma heard_mono : forall (G G' : N -> Prop) (Wh Wh' : Prop) n, (forall j, G j -> G' j) -> (Wh -> Wh') -> heard G Wh n -> heard G' Wh' n.
Proof.
  intros G G' Wh Wh' n HG HW H. constructor.
  - intros s o Ho Hid. destruct (h_senders _ _ _ H s o Ho Hid) as (A & B & C). split; [intros j Hj; now apply HG, A|]. split; auto.
  - intros r rc Hr Hid Hq. apply HW. exact (h_queues _ _ _ H r rc Hr Hid Hq).
  - exact (h_notify _ _ _ H).
  - exact (h_table _ _ _ H).
Qed.

Section Step.
Context (G : N -> Prop) (Wh : Prop) (Hdown : forall j k, j <= k -> G k -> G j)
  (Hall : forall p, (forall j, j < p -> G j) -> N.of_nat (length data) <= p * slice -> Wh).

Definition event_ok (ev : send_event) : Prop := match ev with EvComplete j => G j | EvReply => Wh | _ => True end.

Lemma believes_step : forall sd ev, sender_honest slice data sd -> event_ok ev -> sender_believes G Wh sd ->
  sender_believes G Wh (fst (send_step F slice ck sd ev)).
Proof.
  intros sd ev [Hd He] Hok (A & B & C). destruct ev; cbn [send_step].
  - destruct (se_point sd) as [| |part|part| | |] eqn:Ep.
    + unfold start_next_part. destruct (is_finished slice (se_transfer sd)) eqn:Ef.
      { unfold is_finished in Ef. apply andb_prop in Ef as [Ef _]. split; [exact A|]. split; [exact B|]. intros _. now apply B. }
      cbv zeta. rewrite Hd.
      destruct (N.leb_spec (N.of_nat (length data)) (os_part (ot_state (se_transfer sd)) * slice)) as [E1|E1].
      { split; [exact A|]. split; [exact B|]. intros _. now apply (Hall (os_part (ot_state (se_transfer sd)))). }
      set (piece := firstn _ _).
      assert (Hne : 0 < N.of_nat (length piece) <= slice) by (unfold piece; rewrite firstn_length, skipn_length; lia).
      assert (Hc : (0 <? ft_packet_count (fec_params F piece)) = true).
      { apply N.ltb_lt. cbn [fec_params ft_packet_count].
        destruct (fec_count_bounds F piece HF) as [Q1 Q2]; [lia|lia|]. now rewrite N.mod_small. }
      rewrite Hc. split; [exact A|]. split; [exact B|]. discriminate.
    + split; [exact A|]. split; [exact B|]. discriminate.
    + unfold prepare_chunk. destruct (ot_encoder (se_transfer sd)) as [e|]; [|split; [exact A|]; split; [exact B|]; discriminate].
      destruct (encode F e (os_out (ot_state (se_transfer sd)))) as [[sq d] e'].
      destruct (ck && (sq <? os_in (ot_state (se_transfer sd)))); [split; [exact A|]; split; [exact B|]; discriminate|].
      split; [|split; [|discriminate]]; cbn [fst se_transfer ot_state];
        match goal with |- context [if ?b then _ else _] => destruct b end; assumption.
    + destruct (is_finished_or_next_part slice (se_transfer sd) part) as [[|]|]; (split; [exact A|]; split; [exact B|]; discriminate).
    + split; [exact A|]. split; [exact B|]. intros _. now apply C.
    + split; [exact A|]. split; [exact B|]. cbn. congruence.
    + split; [exact A|]. split; [exact B|]. cbn. congruence.
  - destruct (se_point sd) eqn:Ep; (split; [exact A|]; split; [exact B|]; cbn; intros Hx; first [discriminate Hx|apply C; congruence]).
  - destruct (se_point sd) eqn:Ep; (split; [exact A|]; split; [exact B|]; cbn; intros Hx; first [discriminate Hx|apply C; congruence]).
  - split; [|split; [|exact C]]; cbn [fst se_transfer set_state ot_state]; unfold on_confirm, set_seqno_in;
      (destruct (os_part (ot_state (se_transfer sd)) =? part); [|assumption]); destruct (os_out (ot_state (se_transfer sd)) <? seqno); assumption.
  - cbn [event_ok] in Hok. split; [|split; [|exact C]]; cbn [fst se_transfer set_state ot_state]; unfold on_complete, set_part;
      destruct (N.eqb_spec (os_part (ot_state (se_transfer sd))) (((part + 1) mod u32_max + u32_max - 1) mod u32_max)) as [E1|E1]; try assumption.
    cbn [os_part]. intros j Hj. apply (Hdown j part); [|exact Hok].
    assert ((part + 1) mod u32_max <= part + 1) by (apply N.mod_le; unfold u32_max; lia). lia.
  - split; [exact A|]. split; [intros _; exact Hok|exact C].
Qed.

Lemma heard_sender : forall n s ev, heard G Wh n ->
  (forall s o, rn_senders n !! s = Some o -> ot_id (se_transfer (ou_sender o)) = i -> sender_honest slice data (ou_sender o)) ->
  (forall o, rn_senders n !! s = Some o -> ot_id (se_transfer (ou_sender o)) = i -> event_ok ev) ->
  heard G Wh (fst (sender_event F slice ck n s ev)).
Proof.
  intros n s ev H Hh Hok. unfold sender_event. destruct (rn_senders n !! s) as [o|] eqn:Eo; [|exact H].
  pose proof (send_step_id F slice ck (ou_sender o) ev) as Hid. pose proof (believes_step (ou_sender o) ev) as Hb.
  destruct (send_step F slice ck (ou_sender o) ev) as [sd out]. cbn [fst] in *.
  assert (Hkeep : forall s1 o1, rn_senders n !! s1 = Some o1 ->
    exists o2, <[s := mk_out_task (ou_peer o) sd]> (rn_senders n) !! s1 = Some o2
      /\ ot_id (se_transfer (ou_sender o2)) = ot_id (se_transfer (ou_sender o1))).
  { intros s1 o1 Ho1. destruct (decide (s1 = s)) as [->|Hne].
    - eexists. split; [apply list_lookup_insert; eapply lookup_lt_Some; exact Eo|]. cbn. congruence.
    - exists o1. now rewrite list_lookup_insert_ne by congruence. }
  constructor; cbn [set_senders rn_senders rn_receivers rn_table].
  - intros s1 o1 Ho1 Hi1. destruct (decide (s1 = s)) as [->|Hne].
    + rewrite list_lookup_insert in Ho1 by (eapply lookup_lt_Some; exact Eo). injection Ho1 as <-. cbn [ou_sender] in *.
      rewrite Hid in Hi1. apply Hb; [now apply (Hh s o)|now apply (Hok o)|exact (h_senders _ _ _ H s o Eo Hi1)].
    + rewrite list_lookup_insert_ne in Ho1 by congruence. exact (h_senders _ _ _ H s1 o1 Ho1 Hi1).
  - exact (h_queues _ _ _ H).
  - intros r rc s1 Hr Hn. destruct (h_notify _ _ _ H r rc s1 Hr Hn) as (o1 & Ho1 & Hi1).
    destruct (Hkeep s1 o1 Ho1) as (o2 & Ho2 & Hi2). exists o2. split; [exact Ho2|congruence].
  - intros id s1 Ht. destruct (h_table _ _ _ H id s1 Ht) as (o1 & Ho1 & Hi1).
    destruct (Hkeep s1 o1 Ho1) as (o2 & Ho2 & Hi2). exists o2. split; [exact Ho2|congruence].
Qed.

(** Only the table changes, and no outgoing transfer is entered. *)
Lemma heard_table : forall n n', heard G Wh n -> rn_senders n' = rn_senders n -> rn_receivers n' = rn_receivers n ->
  (forall id s, rn_table n' !! id = Some (TOutgoing s) -> rn_table n !! id = Some (TOutgoing s)) -> heard G Wh n'.
Proof.
  intros n n' H E1 E2 E3. constructor; rewrite ?E1, ?E2.
  - exact (h_senders _ _ _ H).
  - exact (h_queues _ _ _ H).
  - exact (h_notify _ _ _ H).
  - intros id s Ht. exact (h_table _ _ _ H id s (E3 id s Ht)).
Qed.
(** A new sender. *)
Lemma believes_new : forall id d, sender_believes G Wh (sender_new id d).
Proof. intros id d. split; [cbn; lia|]. split; discriminate. Qed.

Lemma heard_step : forall E z o n (ev : rldp_event E), heard G Wh n ->
  (forall s o, rn_senders n !! s = Some o -> ot_id (se_transfer (ou_sender o)) = i -> sender_honest slice data (ou_sender o)) ->
  (forall id r, rn_table n !! id = Some (TIncoming r) -> rc_ids n !! r = Some id) ->
  (forall peer j, ev = NMessage peer (MpComplete i j) -> G j) ->
  (forall peer f pt t sq d, ev = NMessage peer (MpPart (negate_id i) f pt t sq d) -> Wh) ->
  heard G Wh (fst (rldp_step F slice ck z o n ev)).
Proof.
  intros E z o n ev H Hh Htab Hc Hp.
  assert (Hins : forall (t : transfer_table) id0 id s, <[id0 := TDone]> t !! id = Some (TOutgoing s) -> t !! id = Some (TOutgoing s)).
  { intros t id0 id s. destruct (decide (id0 = id)) as [->|Hne]; [rewrite lookup_insert; discriminate|now rewrite lookup_insert_ne]. }
  assert (Hdel : forall (t : transfer_table) id0 id s, delete id0 t !! id = Some (TOutgoing s) -> t !! id = Some (TOutgoing s)).
  { intros t id0 id s. destruct (decide (id0 = id)) as [->|Hne]; [rewrite lookup_delete; discriminate|now rewrite lookup_delete_ne]. }
  assert (Hnone : forall n', rn_senders n' = rn_senders n -> rn_receivers n' = rn_receivers n -> rn_table n' = rn_table n -> heard G Wh n').
  { intros n' E1 E2 E3. apply (heard_table n); [exact H|exact E1|exact E2|rewrite E3; auto]. }
  assert (Hsnoc : forall peer sd s o1, rn_senders n !! s = Some o1 -> (rn_senders n ++ [mk_out_task peer sd]) !! s = Some o1)
    by (intros; now apply lookup_app_l_Some).
  destruct ev as [peer id q1 t1 p1|peer m|r0|s1 ev|k0 gu|k0 subs|k0]; cbn [rldp_step fst].
  - unfold start_query. cbv zeta. constructor; cbn [rn_senders rn_receivers rn_table].
    + intros s o1 Ho Hid. apply snoc_cases in Ho as [->|Ho]; [apply believes_new|exact (h_senders _ _ _ H s o1 Ho Hid)].
    + intros r rc Hr Hid Hq. apply snoc_cases in Hr as [->|Hr]; [now destruct Hq|exact (h_queues _ _ _ H r rc Hr Hid Hq)].
    + intros r rc s Hr Hn. apply snoc_cases in Hr as [->|Hr].
      * cbn in Hn. injection Hn as <-. eexists. split; [rewrite lookup_app_r, Nat.sub_diag by lia; reflexivity|]. cbn. now rewrite negate_involutive.
      * destruct (h_notify _ _ _ H r rc s Hr Hn) as (o1 & A & B). exists o1. auto.
    + intros id0 s Ht. destruct (decide (negate_id id = id0)) as [<-|N1]; [rewrite lookup_insert in Ht; discriminate|].
      rewrite lookup_insert_ne in Ht by exact N1. destruct (decide (id = id0)) as [<-|N2].
      * rewrite lookup_insert in Ht. injection Ht as <-. eexists. split; [rewrite lookup_app_r, Nat.sub_diag by lia; reflexivity|]. reflexivity.
      * rewrite lookup_insert_ne in Ht by exact N2. destruct (h_table _ _ _ H id0 s Ht) as (o1 & A & B). exists o1. auto.
  - destruct m as [id f pt t sq d|id pt sq|id pt]; cbn [handle_message].
    + assert (Hw : id = negate_id i -> Wh) by (intros ->; now apply (Hp peer f pt t sq d)).
      unfold handle_chunk. destruct (rn_table n !! id) as [[r1| |]|] eqn:Et; try exact H.
      * destruct (rn_receivers n !! r1) as [rc1|] eqn:Er; [|exact H]. cbn [fst]. destruct (rc_finished rc1); [exact H|].
        pose proof (Htab id r1 Et) as Hr1. unfold rc_ids in Hr1. rewrite list_lookup_fmap, Er in Hr1. cbn in Hr1.
        constructor; cbn [set_receivers rn_senders rn_receivers rn_table].
        -- exact (h_senders _ _ _ H).
        -- intros r rc Hr Hid Hq. destruct (decide (r = r1)) as [->|Hne].
           ++ rewrite list_lookup_insert in Hr by (eapply lookup_lt_Some; exact Er). injection Hr as <-. cbn in Hid. apply Hw. congruence.
           ++ rewrite list_lookup_insert_ne in Hr by congruence. exact (h_queues _ _ _ H r rc Hr Hid Hq).
        -- intros r rc s Hr Hn. destruct (decide (r = r1)) as [->|Hne].
           ++ rewrite list_lookup_insert in Hr by (eapply lookup_lt_Some; exact Er). injection Hr as <-. cbn in *.
              exact (h_notify _ _ _ H r1 rc1 s Er Hn).
           ++ rewrite list_lookup_insert_ne in Hr by congruence. exact (h_notify _ _ _ H r rc s Hr Hn).
        -- exact (h_table _ _ _ H).
      * cbn [fst]. constructor; cbn [rn_senders rn_receivers rn_table].
        -- exact (h_senders _ _ _ H).
        -- intros r rc Hr Hid Hq. apply snoc_cases in Hr as [->|Hr]; [now apply Hw|exact (h_queues _ _ _ H r rc Hr Hid Hq)].
        -- intros r rc s Hr Hn. apply snoc_cases in Hr as [->|Hr]; [discriminate|exact (h_notify _ _ _ H r rc s Hr Hn)].
        -- intros id0 s Ht. destruct (decide (id = id0)) as [<-|N2]; [rewrite lookup_insert in Ht; discriminate|].
           rewrite lookup_insert_ne in Ht by exact N2. exact (h_table _ _ _ H id0 s Ht).
    + unfold handle_report. destruct (rn_table n !! id) as [[| |]|] eqn:Et; try exact H. now apply heard_sender.
    + unfold handle_report. destruct (rn_table n !! id) as [[| |]|] eqn:Et; try exact H. apply heard_sender; [exact H|exact Hh|].
      intros o1 Ho Hid. destruct (h_table _ _ _ H id sender Et) as (o2 & A & B). cbn. apply (Hc peer). assert (o2 = o1) as -> by congruence.
      now rewrite <- B, Hid.
  - unfold receiver_turn. destruct (rn_receivers n !! r0) as [rc|] eqn:Er; [|exact H].
    destruct (rc_finished rc); [exact H|]. destruct (rc_queue rc) as [|m rest] eqn:Eq.
    + destruct (channel_open n r0); [exact H|]. cbn [fst]. constructor; cbn [set_receivers rn_senders rn_receivers rn_table].
      * exact (h_senders _ _ _ H).
      * intros r rc' Hr Hid Hq. apply insert_cases in Hr as [->|Hr]; [now destruct Hq|exact (h_queues _ _ _ H r rc' Hr Hid Hq)].
      * intros r rc' s Hr Hn. apply insert_cases in Hr as [->|Hr]; [exact (h_notify _ _ _ H r0 rc s Er Hn)|exact (h_notify _ _ _ H r rc' s Hr Hn)].
      * exact (h_table _ _ _ H).
    + pose proof (receive_one_id F (rc_transfer rc) m) as Hid0.
      destruct (receive_one F (rc_transfer rc) m) as [t reply]. cbn [fst] in Hid0. cbv zeta. cbn [fst].
      set (n1 := set_receivers n _).
      assert (H1 : heard G Wh n1).
      { unfold n1. constructor; cbn [set_receivers rn_senders rn_receivers rn_table].
        - exact (h_senders _ _ _ H).
        - intros r rc' Hr Hid Hq. apply insert_cases in Hr as [->|Hr]; [|exact (h_queues _ _ _ H r rc' Hr Hid Hq)].
          cbn in Hid. apply (h_queues _ _ _ H r0 rc Er); [congruence|]. rewrite Eq. discriminate.
        - intros r rc' s Hr Hn. apply insert_cases in Hr as [->|Hr]; [discriminate|exact (h_notify _ _ _ H r rc' s Hr Hn)].
        - exact (h_table _ _ _ H). }
      destruct (rc_notify rc) as [s|] eqn:En; [|exact H1]. apply heard_sender; [exact H1|exact Hh|].
      intros o1 Ho Hid. cbn [event_ok]. destruct (h_notify _ _ _ H r0 rc s Er En) as (o2 & A & B).
      unfold n1 in Ho. cbn [set_receivers rn_senders] in Ho. assert (o2 = o1) as -> by congruence.
      apply (h_queues _ _ _ H r0 rc Er); [|rewrite Eq; discriminate]. apply negate_back. congruence.
  - apply heard_sender; [exact H|exact Hh|]. intros o1 _ _. destruct ev; exact I.
  - unfold query_turn, put_query. destruct (rn_queries n !! k0) as [q'|]; [|exact H]. cbv zeta. destruct (qr_stage q').
    + destruct (sender_result n (qr_sender q')) as [[[|]|]|]; [| | |exact H];
        (apply (heard_table n); [exact H|reflexivity|reflexivity|]); cbn; intros id0 s Ht; repeat apply Hins in Ht; exact Ht.
    + destruct gu; [|destruct (rn_receivers n !! qr_receiver q') as [rc1|]; [|exact H]; destruct (rc_finished rc1); [|exact H]];
        (apply (heard_table n); [exact H|reflexivity|reflexivity|]); cbn; intros id0 s Ht; repeat apply Hins in Ht; exact Ht.
    + apply (heard_table n); [exact H|reflexivity|reflexivity|]. cbn; intros id0 s Ht; repeat apply Hdel in Ht; exact Ht.
    + exact H.
  - unfold answer_turn. destruct (rn_answers n !! k0) as [a|]; [|exact H]. cbv zeta. destruct (an_stage a).
    + destruct (rn_receivers n !! an_receiver a) as [rc1|]; [|exact H]. destruct (rc_finished rc1); [|exact H].
      apply (heard_table n); [exact H|reflexivity|reflexivity|]. cbn; intros id0 s Ht; apply Hins in Ht; exact Ht.
    + destruct (rn_receivers n !! an_receiver a) as [rc1|]; [|exact H].
      destruct (query_from_data (it_data (rc_transfer rc1))) as [[[query_id max] payload]|]; [|now apply Hnone].
      destruct (process_rldp_query z subs (ro_force o) query_id max payload) as [r log].
      destruct r as [[[answer|]|]|e]; try (now apply Hnone).
      constructor; cbn [put_answer set_answers set_senders set_table set_asked rn_senders rn_receivers rn_table].
      * intros s o1 Ho Hid. apply snoc_cases in Ho as [->|Ho]; [apply believes_new|exact (h_senders _ _ _ H s o1 Ho Hid)].
      * exact (h_queues _ _ _ H).
      * intros r rc s Hr Hn. destruct (h_notify _ _ _ H r rc s Hr Hn) as (o1 & A & B). exists o1. auto.
      * intros id0 s Ht. destruct (decide (negate_id (an_id a) = id0)) as [<-|N2].
        -- rewrite lookup_insert in Ht. injection Ht as <-. eexists. split; [rewrite lookup_app_r, Nat.sub_diag by lia; reflexivity|]. reflexivity.
        -- rewrite lookup_insert_ne in Ht by exact N2. destruct (h_table _ _ _ H id0 s Ht) as (o1 & A & B). exists o1. auto.
    + destruct (sender_result n sender) as [[[|]|]|]; now apply Hnone.
    + apply (heard_table n); [exact H|reflexivity|reflexivity|]. cbn. intros id0 s Ht. apply Hdel in Ht. destruct out as [x|]; [apply Hdel in Ht|]; exact Ht.
    + exact H.
  - unfold timer_fires. destruct (rn_answers n !! k0) as [a|]; [|exact H]. destruct (an_timer a); [|exact H].
    apply (heard_table n); [exact H|reflexivity|reflexivity|]. cbn; intros id0 s Ht; apply Hins in Ht; exact Ht.
Qed.
End Step.
End Requester.

(** Senders keep their ids. *)
Lemma senders_stay : forall E F slice ck z o n (ev : rldp_event E) s o0, rn_senders n !! s = Some o0 ->
  exists o1, rn_senders (fst (rldp_step F slice ck z o n ev)) !! s = Some o1
    /\ ot_id (se_transfer (ou_sender o1)) = ot_id (se_transfer (ou_sender o0)).
Proof.
  intros E F slice ck z o n ev s o0 H.
  assert (Hsame : forall n', rn_senders n' = rn_senders n -> exists o1, rn_senders n' !! s = Some o1 /\ ot_id (se_transfer (ou_sender o1)) = ot_id (se_transfer (ou_sender o0))).
  { intros n' ->. eauto. }
  assert (Hev : forall n1 s1 ev1, rn_senders n1 = rn_senders n -> exists o1, rn_senders (fst (sender_event F slice ck n1 s1 ev1)) !! s = Some o1
    /\ ot_id (se_transfer (ou_sender o1)) = ot_id (se_transfer (ou_sender o0))).
  { intros n1 s1 ev1 E1. unfold sender_event. rewrite E1. destruct (rn_senders n !! s1) as [o1|] eqn:Eo; [|rewrite <- E1 in H; eauto].
    pose proof (send_step_id F slice ck (ou_sender o1) ev1) as Hid.
    destruct (send_step F slice ck (ou_sender o1) ev1) as [sd out]. cbn [fst set_senders rn_senders] in *.
    destruct (decide (s = s1)) as [->|Hne].
    - eexists. split; [apply list_lookup_insert; eapply lookup_lt_Some; exact Eo|]. cbn. congruence.
    - exists o0. now rewrite list_lookup_insert_ne by congruence. }
  destruct ev as [peer id q1 t1 p1|peer m|r0|s1 ev|k0 gu|k0 subs|k0]; cbn [rldp_step fst].
  - exists o0. split; [now apply lookup_app_l_Some|reflexivity].
  - destruct m as [id f pt t sq d|id pt sq|id pt]; cbn [handle_message].
    + unfold handle_chunk. destruct (rn_table n !! id) as [[r1| |]|]; try now apply Hsame.
      destruct (rn_receivers n !! r1) as [rc1|]; [|now apply Hsame]. cbn [fst]. destruct (rc_finished rc1); now apply Hsame.
    + unfold handle_report. destruct (rn_table n !! id) as [[| |]|]; try now apply Hsame. now apply Hev.
    + unfold handle_report. destruct (rn_table n !! id) as [[| |]|]; try now apply Hsame. now apply Hev.
  - unfold receiver_turn. destruct (rn_receivers n !! r0) as [rc|]; [|now apply Hsame].
    destruct (rc_finished rc); [now apply Hsame|]. destruct (rc_queue rc) as [|m rest].
    + destruct (channel_open n r0); now apply Hsame.
    + destruct (receive_one F (rc_transfer rc) m) as [t reply]. cbv zeta. cbn [fst]. destruct (rc_notify rc) as [s1|]; [now apply Hev|now apply Hsame].
  - now apply Hev.
  - unfold query_turn, put_query. destruct (rn_queries n !! k0) as [q'|]; [|now apply Hsame]. cbv zeta. destruct (qr_stage q').
    + destruct (sender_result n (qr_sender q')) as [[[|]|]|]; now apply Hsame.
    + destruct gu; [now apply Hsame|]. destruct (rn_receivers n !! qr_receiver q') as [rc1|]; [|now apply Hsame]. destruct (rc_finished rc1); now apply Hsame.
    + now apply Hsame.
    + now apply Hsame.
  - unfold answer_turn. destruct (rn_answers n !! k0) as [a|]; [|now apply Hsame]. cbv zeta. destruct (an_stage a).
    + destruct (rn_receivers n !! an_receiver a) as [rc1|]; [|now apply Hsame]. destruct (rc_finished rc1); now apply Hsame.
    + destruct (rn_receivers n !! an_receiver a) as [rc1|]; [|now apply Hsame].
      destruct (query_from_data (it_data (rc_transfer rc1))) as [[[query_id max] payload]|]; [|now apply Hsame].
      destruct (process_rldp_query z subs (ro_force o) query_id max payload) as [r log].
      destruct r as [[[answer|]|]|e]; try now apply Hsame.
      exists o0. split; [now apply lookup_app_l_Some|reflexivity].
    + destruct (sender_result n sender) as [[[|]|]|]; now apply Hsame.
    + now apply Hsame.
    + now apply Hsame.
  - unfold timer_fires. destruct (rn_answers n !! k0) as [a|]; [|now apply Hsame]. destruct (an_timer a); now apply Hsame.
Qed.
End Received.

(** ** Both *)

Section Aware.
Context {E : Type} (w : rldp_world) (Hw : world_ok w) (i : bytes) (Hi : hash_ok i) (data : bytes).
Local Notation F := (rw_fec w).
Local Notation slice := (rw_slice w).

Definition aware (s : rldp_pair) : Prop :=
  lost i (rp_bob s)
  \/ intact i (rp_bob s) /\ back_senders i (rp_bob s) /\ tells i (rp_from_bob s) (got i (rp_bob s)) (whole i (rp_bob s))
     /\ heard i (got i (rp_bob s)) (whole i (rp_bob s)) (rp_alice s).

(** What is used about the nodes. *)
Record sane (s : rldp_pair) : Prop := {
  n_alice_table : forall id r, rn_table (rp_alice s) !! id = Some (TIncoming r) -> rc_ids (rp_alice s) !! r = Some id;
  n_bob_table : forall id r, rn_table (rp_bob s) !! id = Some (TIncoming r) -> rc_ids (rp_bob s) !! r = Some id;
  n_senders : forall k o, rn_senders (rp_alice s) !! k = Some o -> ot_id (se_transfer (ou_sender o)) = i -> sender_honest slice data (ou_sender o);
  n_answers : forall k a, rn_answers (rp_bob s) !! k = Some a -> an_id a <> negate_id i;
  n_sleeping : forall k a x, rn_answers (rp_bob s) !! k = Some a -> an_stage a = ASleeping (Some x) -> x = negate_id (an_id a);
  n_queries : forall k q, rn_queries (rp_bob s) !! k = Some q -> ~ of_query i (qr_id q);
  n_all : forall p, (forall j, j < p -> got i (rp_bob s) j) -> N.of_nat (length data) <= p * slice -> whole i (rp_bob s)
}.

Lemma got_down : forall n j k, j <= k -> got i n k -> got i n j.
Proof. intros n j k H (r & rc & A & B & [C|C]); exists r, rc; (split; [exact A|]); (split; [exact B|]); [left; lia|right; exact C]. Qed.

Lemma aware_step : forall s (ev : pair_event E), aware s -> sane s ->
  (forall peer m, ev = AtAlice (NMessage peer m) -> of_query i (message_id m) -> In (rw_alice_id w, m) (rp_from_bob s)) ->
  (forall peer id q1 t1 p1, ev = AtBob (NQuery peer id q1 t1 p1) -> ~ of_query i id) ->
  aware (pair_step w s ev).
Proof.
  intros s ev H Hn Hm Hq. destruct (id Hw) as (HF & Hs & Hs32). destruct ev as [ev|ev]; cbn [pair_step].
  - destruct H as [H|(H1 & H2 & [T1 T2] & H4)]; [left; destruct (rldp_step _ _ _ _ _ _ ev); exact H|].
    assert (G : heard i (got i (rp_bob s)) (whole i (rp_bob s))
                  (fst (rldp_step F slice (rw_checked w) (rw_zstd w) (rw_alice w) (rp_alice s) ev))).
    { apply (heard_step i Hi F HF slice Hs Hs32 (rw_checked w) data).
      - intros j k. apply got_down.
      - exact (n_all s Hn).
      - exact H4.
      - exact (n_senders s Hn).
      - exact (n_alice_table s Hn).
      - intros peer j ->. apply (T1 (rw_alice_id w)). apply (Hm peer); [reflexivity|left; reflexivity].
      - intros peer f pt t sq d ->. apply (T2 (rw_alice_id w) f pt t sq d). apply (Hm peer); [reflexivity|right; reflexivity]. }
    destruct (rldp_step _ _ _ _ _ _ ev) as [n out]. right. cbn [fst] in G. cbn [rp_alice rp_bob rp_from_bob].
    split; [exact H1|]. split; [exact H2|]. split; [split; [exact T1|exact T2]|exact G].
  - assert (Hq' : forall peer id q1 t1 p1, ev = NQuery peer id q1 t1 p1 -> ~ of_query i id) by (intros ? ? ? ? ? ->; eapply Hq; reflexivity).
    destruct H as [H|(H1 & H2 & [T1 T2] & H4)].
    { left. pose proof (lost_step i E F slice (rw_checked w) (rw_zstd w) (rw_bob w) _ ev H) as G.
      destruct (rldp_step _ _ _ _ _ _ ev); exact G. }
    pose proof (step_later E F slice (rw_checked w) (rw_zstd w) (rw_bob w) (rp_bob s) ev) as Hlat.
    pose proof (responder_tells i E F slice (rw_checked w) (rw_zstd w) (rw_bob w) _ ev H1 H2) as Ht. cbv zeta in Ht.
    pose proof (back_senders_step i E F slice (rw_checked w) (rw_zstd w) (rw_bob w) _ ev H1 H2 Hq') as Hb.
    pose proof (intact_step i Hi E F slice (rw_checked w) (rw_zstd w) (rw_bob w) _ ev H1
                  (n_bob_table s Hn) (n_answers s Hn) (n_sleeping s Hn) (n_queries s Hn) Hq') as Hint.
    assert (G1 : forall j, got i (rp_bob s) j -> got i (fst (rldp_step F slice (rw_checked w) (rw_zstd w) (rw_bob w) (rp_bob s) ev)) j)
      by (intros j; now apply got_later).
    assert (G2 : whole i (rp_bob s) -> whole i (fst (rldp_step F slice (rw_checked w) (rw_zstd w) (rw_bob w) (rp_bob s) ev)))
      by now apply whole_later.
    destruct (rldp_step _ _ _ _ _ _ ev) as [n out]. cbn [fst snd] in *. destruct Hint as [Hint|Hint]; [right|left; exact Hint].
    cbn [rp_alice rp_bob rp_from_bob]. split; [exact Hint|]. split; [exact Hb|]. split.
    + destruct Ht as [U1 U2]. split.
      * intros to j Hin. apply in_app_iff in Hin as [Hin|Hin]; [apply G1; now apply (T1 to)|now apply (U1 to)].
      * intros to f pt t sq d Hin. apply in_app_iff in Hin as [Hin|Hin]; [apply G2; now apply (T2 to f pt t sq d)|now apply (U2 to f pt t sq d)].
    + now apply (heard_mono i (got i (rp_bob s)) _ (whole i (rp_bob s))).
Qed.

Lemma aware_new : aware rldp_pair_new.
Proof.
  right. cbn. split; [|split; [|split]].
  - left. split; [reflexivity|]. split; intros k a H; cbn in H; rewrite lookup_nil in H; discriminate.
  - intros s o H. cbn in H. rewrite lookup_nil in H. discriminate.
  - apply tells_nil.
  - constructor; cbn; intros *; rewrite ?lookup_nil, ?lookup_empty; discriminate.
Qed.

(** Nothing of the query exists yet. *)
Lemma fresh_sane : forall s, data <> [] -> fresh w i s -> sane s.
Proof.
  intros s Hd (((C1 & C2 & _) & U1 & U2) & _ & _ & QB). destruct (good_answers w i Hi _ C2) as [B1 B2]. constructor.
  - exact (g_table _ _ _ _ _ C1).
  - exact (g_table _ _ _ _ _ C2).
  - intros k o Ho He. exfalso. pose proof (g_senders _ _ _ _ _ C1 k o Ho) as G. unfold sender_good in G.
    rewrite nothing_q in G; [exact G|exact Hi|left; exact He].
  - intros k a Ha He. apply (B1 k a Ha). right. exact He.
  - intros k a x. apply B2.
  - exact QB.
  - intros p Hg Hl. exfalso. destruct (Hg 0) as (r & rc & R1 & R2 & _).
    + destruct data; [contradiction|]. cbn [length] in Hl. destruct p; [cbn in Hl; lia|lia].
    + apply (U2 r rc R1). left. exact R2.
Qed.

Lemma fresh_aware : forall (qid : bytes) (evs : list (pair_event E)) s, data <> [] -> fresh w i s -> aware s -> private_run w i s evs ->
  aware (pair_run w s evs).
Proof.
  intros qid evs. induction evs as [|ev evs IH]; intros s Hd Hf Ha Hpr; [exact Ha|]. destruct Hpr as [H1 H2].
  apply (IH (pair_step w s ev)); [exact Hd|now apply (fresh_step w Hw i qid Hi)| |exact H2].
  apply aware_step; [exact Ha|now apply fresh_sane| |].
  - intros peer m -> Ho. now destruct (H1 Ho).
  - intros ? ? ? ? ? ->. exact H1.
Qed.
End Aware.

Theorem rldp_received : forall E (w : rldp_world) i qid now p given (pre post : list (pair_event E)),
  world_ok w -> hash_ok i -> hash_ok qid -> u64_ok (ro_max_answer (rw_alice w)) ->
  blob_ok (sent_payload (rw_zstd w) (ro_force (rw_alice w)) p) ->
  (forall a, given = Ok (Processed (Some a)) -> blob_ok (on_the_wire w p a)) ->
  let s0 := pair_run w rldp_pair_new pre in
  let k := length (rn_senders (rp_alice s0)) in
  let s1 := pair_step (E:=E) w s0 (AtAlice (NQuery (rw_bob_id w) i qid now p)) in
  let s2 := pair_run w s1 post in
  private_run w i rldp_pair_new pre -> private_run w i s1 post -> bob_gives (as_asked w p) given post ->
  ~ bob_forgot s2 i -> bob_waits s2 i ->
  sender_result (rp_alice s2) k = Some (SendOk true) ->
  bob_received s2 i (make_query (rw_zstd w) (ro_force (rw_alice w)) (ro_max_answer (rw_alice w)) (ro_max_timeout (rw_alice w)) qid now p).
Proof.
  intros E w i qid now p given pre post Hw Hi Hq Hmax Hp Hgiven s0 k s1 s2 Hpre Hpost Hgive Hnf Hwait Hres.
  set (D := make_query _ _ _ _ _ _ _). set (W := answer_data w qid p given).
  assert (HW : W = None \/ W = answer_data w qid p given) by (right; reflexivity).
  destruct (id Hw) as (HF & Hs & Hs32).
  assert (HD : D <> []).
  { intros He. destruct (query_length (rw_zstd w) (ro_force (rw_alice w)) (ro_max_answer (rw_alice w)) (ro_max_timeout (rw_alice w)) qid now p Hq) as [L _].
    fold D in L. rewrite He in L. cbn in L. lia. }
  pose proof (fresh_run w Hw i qid Hi pre _ (fresh_new w i) Hpre) as Hf. fold s0 in Hf.
  pose proof (fresh_aware w Hw i Hi D qid pre _ HD (fresh_new w i) (aware_new i) Hpre) as Ha. fold s0 in Ha.
  assert (Hsane : forall s, sound w i qid now p W s ->
    (forall k q, rn_queries (rp_bob s) !! k = Some q -> ~ of_query i (qr_id q)) -> sane w i D s).
  { intros s (C1 & C2 & C3 & C4 & C5) QB. constructor.
    - exact (g_table _ _ _ _ _ C1).
    - exact (g_table _ _ _ _ _ C2).
    - intros k0 o Ho He. pose proof (g_senders _ _ _ _ _ C1 k0 o Ho) as G. unfold sender_good in G. rewrite He, there_i in G. exact G.
    - intros k0 a Hka He. destruct (g_answers _ _ _ _ _ C2 k0 a Hka) as (_ & B & _). apply B. rewrite He. now apply there_n.
    - intros k0 a x Hka. apply (g_answers _ _ _ _ _ C2 k0 a Hka).
    - exact QB.
    - intros q Hg Hl. assert (Hpc : 0 < part_count (rw_slice w) D).
      { apply part_count_spec; [exact Hs|]. destruct D; [contradiction|]. cbn [length]. lia. }
      assert (Hle : part_count (rw_slice w) D <= q).
      { destruct (N.le_gt_cases (part_count (rw_slice w) D) q) as [G|G]; [exact G|]. apply part_count_spec in G; [|exact Hs]. lia. }
      destruct (Hg (part_count (rw_slice w) D - 1)) as (r & rc & R1 & R2 & R3); [lia|].
      exists r, rc. split; [exact R1|]. split; [exact R2|]. destruct R3 as [R3|R3]; [|exact R3].
      pose proof (g_receivers _ _ _ _ _ C2 r rc R1) as G. unfold receiver_good in G. rewrite R2, there_i in G.
      destruct G as (_ & _ & [(G & _)|G]); [fold D in G; lia|]. eapply finished_done; exact G. }
  pose proof Hf as (Hquiet & UA & UB & QB).
  destruct (query_made w Hw i qid Hi Hq now p given Hgiven W HW s0 Hquiet) as [M1 _]. fold s1 in M1.
  assert (Ha1 : aware i s1).
  { apply (aware_step w Hw i Hi D); [exact Ha|apply fresh_sane; [exact Hi|exact HD|exact Hf]|discriminate|discriminate]. }
  assert (Hid1 : exists o, rn_senders (rp_alice s1) !! k = Some o /\ ot_id (se_transfer (ou_sender o)) = i).
  { eexists. cbn [s1 pair_step rldp_step rp_alice start_query rn_senders]. split; [unfold k; now rewrite lookup_app_r, Nat.sub_diag by lia|]. reflexivity. }
  assert (QB1 : forall k q, rn_queries (rp_bob s1) !! k = Some q -> ~ of_query i (qr_id q)) by exact QB.
  clearbody s1. clear UA UB QB Hquiet Ha Hf.
  assert (Hrun : forall evs s, sound w i qid now p W s -> aware i s ->
    (forall k q, rn_queries (rp_bob s) !! k = Some q -> ~ of_query i (qr_id q)) ->
    (exists o, rn_senders (rp_alice s) !! k = Some o /\ ot_id (se_transfer (ou_sender o)) = i) ->
    private_run w i s evs -> bob_gives (as_asked w p) given evs ->
    sound w i qid now p W (pair_run w s evs) /\ aware i (pair_run w s evs)
    /\ exists o, rn_senders (rp_alice (pair_run w s evs)) !! k = Some o /\ ot_id (se_transfer (ou_sender o)) = i).
  { clear - Hw Hi Hq Hmax Hp Hgiven HW Hsane. induction evs as [|ev evs IH]; intros s G1 G2 G3 G4 Hpr Hg; [auto|].
    destruct Hpr as [P1 P2]. apply (IH (pair_step w s ev)).
    - apply (sound_step w Hw i qid Hi Hq now p Hmax Hp given Hgiven W HW s ev G1 P1).
      intros bev ->. destruct bev as [| | | | |k0 subs|]; cbn [bob_turn_ok]; try exact I. split; [|reflexivity].
      apply (Hg k0 subs). left. reflexivity.
    - apply (aware_step w Hw i Hi D s ev G2 (Hsane s G1 G3)).
      + intros peer m -> Ho. now destruct (P1 Ho).
      + intros ? ? ? ? ? ->. exact P1.
    - destruct ev as [ev|ev]; cbn [pair_step].
      + destruct (rldp_step _ _ _ _ _ _ ev). exact G3.
      + pose proof (queries_ids w i (rw_bob w) (rp_bob s) ev) as V.
        destruct (rldp_step _ _ _ _ _ _ ev). apply V; [|exact G3]. intros ? ? ? ? ? ->. exact P1.
    - destruct G4 as (o & O1 & O2). destruct ev as [ev|ev]; cbn [pair_step].
      + destruct (senders_stay E (rw_fec w) (rw_slice w) (rw_checked w) (rw_zstd w) (rw_alice w) (rp_alice s) ev k o O1) as (o' & O3 & O4).
        destruct (rldp_step _ _ _ _ _ _ ev). exists o'. split; [exact O3|congruence].
      + destruct (rldp_step _ _ _ _ _ _ ev). exists o. auto.
    - exact P2.
    - intros k0 subs Hin. apply (Hg k0 subs). right. exact Hin. }
  destruct (Hrun post s1 M1 Ha1 QB1 Hid1 Hpost Hgive) as ((_ & C2 & _) & Haw & (o & O1 & O2)). fold s2 in C2, Haw, O1.
  destruct Haw as [(k0 & a & L1 & L2 & L3)|(_ & _ & _ & Hh)].
  - exfalso. assert (Hin : In a (rn_answers (rp_bob s2))) by (eapply nth_error_In; eapply lookup_nth; exact L1).
    destruct L3 as [L3|L3]; [apply Hnf; exists a; auto|]. rewrite (Hwait a Hin L2) in L3. discriminate.
  - destruct (h_senders _ _ _ _ Hh k o O1 O2) as (_ & _ & B). unfold sender_result in Hres. rewrite O1 in Hres.
    destruct B as (r & rc & R1 & R2 & R3); [destruct (se_point (ou_sender o)); congruence|].
    exists rc. split; [eapply nth_error_In; eapply lookup_nth; exact R1|]. split; [exact R2|].
    pose proof (g_receivers _ _ _ _ _ C2 r rc R1) as G. unfold receiver_good in G. rewrite R2, there_i in G.
    destruct G as (_ & _ & [G|(_ & G & _)]); [|exact G]. exfalso. apply (live_not_done _ _ Hs Hs32) in G. congruence.
Qed.
