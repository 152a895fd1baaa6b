(** Two RLDP nodes: the answer of a query is the one given to it. *)
From stdpp Require Import gmap.
From Coq Require Import NArith Lia.
From Coq Require Import ZifyBool ZifyNat ZifyN.
From Verif.Base Require Import Bytes BytesFacts Res.
From Verif.Model Require Import Tl Scheme ProtoRldp Compression Subscribers Fec RldpTransfer RldpQuery RldpNode.
From Verif.Spec Require Import Codec CompressionSpec FecSpec RldpSpec RldpPairSpec.
From Verif.Proof Require Import CompressionFacts FecFacts RldpParts RldpInFacts RldpOutFacts RldpQueryFacts LocalFacts RldpNodeFacts.
Open Scope N_scope.

(** ** Messages cut short *)

Lemma local_rldp_message : local get_rldp_message.
Proof.
  apply local_bind; [apply local_u32|]. intros c.
  destruct (c =? id_rldp_message).
  { apply local_bind; [apply local_hash|]. intros i. apply local_bind; [apply local_bytes|]. intros d. apply local_ret. }
  destruct (c =? id_rldp_answer).
  { apply local_bind; [apply local_hash|]. intros i. apply local_bind; [apply local_bytes|]. intros d. apply local_ret. }
  destruct (c =? id_rldp_query); [|apply local_fail].
  apply local_bind; [apply local_hash|]. intros q. apply local_bind; [apply local_u64|]. intros m.
  apply local_bind; [apply local_u32|]. intros t. apply local_bind; [apply local_bytes|]. intros d. apply local_ret.
Qed.

(** A query read from the beginning of some data is the query in all of it. *)
Lemma query_from_prefix : forall a b x, query_from_data a = Some x -> query_from_data (a ++ b) = Some x.
Proof.
  intros a b x H. unfold query_from_data in *. destruct (get_rldp_message a) as [[m r]|] eqn:E; [|discriminate].
  destruct (local_rldp_message _ _ _ E) as (pre & -> & Hp). rewrite <- app_assoc, Hp. exact H.
Qed.

Lemma log_head : forall E (subs : list (subscriber E)) q r, fst (process_query subs q) = Ok (Processed r) ->
  hd_error (snd (process_query subs q)) = Some (0%nat, q).
Proof.
  intros E subs q r. unfold process_query. destruct (get_u32 q) as [[c rest]|]; [|discriminate].
  destruct subs as [|s subs]; cbn [ask]; [discriminate|].
  destruct (s c q); cbn [fst snd]; [reflexivity| |discriminate].
  destruct (ask 1 subs c query) as [o log]. reflexivity.
Qed.

(** What answering a query comes to. *)
Lemma rldp_processed : forall E (z : zstd) (subs : list (subscriber E)) force qid max d x,
  fst (process_rldp_query z subs force qid max d) = Ok (Processed (Some x)) ->
  exists a, fst (process_query subs (received_payload z d)) = Ok (Processed (Some a))
    /\ x = put_rldp_message (RAnswer qid (sent_payload z (match decompress z d with Some _ => true | None => force end) a))
    /\ hd_error (snd (process_rldp_query z subs force qid max d)) = Some (0%nat, received_payload z d).
Proof.
  intros E z subs force qid max d x H.
  destruct (process_query subs (received_payload z d)) as [r log] eqn:Ep.
  assert (Hr : exists a, r = Ok (Processed (Some a))).
  { unfold process_rldp_query in H. unfold received_payload in Ep.
    destruct (decompress z d) as [d'|]; rewrite Ep in H; cbn [fst] in H;
      destruct r as [[[a|]|]|e]; try discriminate; now exists a. }
  destruct Hr as [a ->]. pose proof (answer_limit E z subs force qid max d a log Ep) as HL. cbv zeta in HL. rewrite HL in *.
  exists a. cbn [fst snd] in *. split; [reflexivity|].
  pose proof (log_head E subs (received_payload z d) (Some a)) as Hh. rewrite Ep in Hh. specialize (Hh eq_refl).
  match goal with H : (if ?b then _ else _) = _ |- _ => destruct b; [|discriminate] end.
  split; [congruence|exact Hh].
Qed.

(** ** The frame of each event *)

Lemma sender_event_frame : forall F slice ck n s ev, let n' := fst (sender_event F slice ck n s ev) in
  rn_table n' = rn_table n /\ rn_receivers n' = rn_receivers n /\ rn_queries n' = rn_queries n
  /\ rn_answers n' = rn_answers n /\ rn_asked n' = rn_asked n.
Proof.
  intros F slice ck n s ev. unfold sender_event. destruct (rn_senders n !! s); [|cbn; tauto].
  destruct (send_step F slice ck (ou_sender o) ev). cbn. tauto.
Qed.
Lemma report_frame : forall F slice ck n id ev, let n' := fst (handle_report F slice ck n id ev) in
  rn_table n' = rn_table n /\ rn_receivers n' = rn_receivers n /\ rn_queries n' = rn_queries n
  /\ rn_answers n' = rn_answers n /\ rn_asked n' = rn_asked n.
Proof.
  intros F slice ck n id ev. unfold handle_report. destruct (rn_table n !! id) as [[| |]|]; try (cbn; tauto).
  apply sender_event_frame.
Qed.
Lemma receiver_turn_frame : forall F slice ck n r, let n' := fst (receiver_turn F slice ck n r) in
  rn_table n' = rn_table n /\ rn_queries n' = rn_queries n
  /\ rn_answers n' = rn_answers n /\ rn_asked n' = rn_asked n
  /\ (rn_receivers n' = rn_receivers n
      \/ exists rc rc', rn_receivers n !! r = Some rc /\ rn_receivers n' = <[r := rc']> (rn_receivers n)
         /\ it_id (rc_transfer rc') = it_id (rc_transfer rc)
         /\ (rc_finished rc' = true -> incoming_done (rc_transfer rc') = true \/ channel_open n r = false)).
Proof.
  intros F slice ck n r. unfold receiver_turn. destruct (rn_receivers n !! r) as [rc|] eqn:Er; [|cbn; tauto].
  destruct (rc_finished rc); [cbn; tauto|]. destruct (rc_queue rc) as [|m rest].
  - destruct (channel_open n r); [cbn; tauto|]. cbn. repeat split; try reflexivity.
    right. exists rc. eexists. split; [reflexivity|]. split; [reflexivity|]. cbn. split; [reflexivity|]. intros _. right. reflexivity.
  - pose proof (receive_one_id F (rc_transfer rc) m) as Hid.
    destruct (receive_one F (rc_transfer rc) m) as [t reply]. cbn [fst] in Hid. cbv zeta.
    set (n1 := set_receivers n _).
    assert (H1 : let n' := match rc_notify rc with Some s => fst (sender_event F slice ck n1 s EvReply) | None => n1 end in
       rn_table n' = rn_table n1 /\ rn_receivers n' = rn_receivers n1 /\ rn_queries n' = rn_queries n1
       /\ rn_answers n' = rn_answers n1 /\ rn_asked n' = rn_asked n1).
    { destruct (rc_notify rc); [apply sender_event_frame|cbn; tauto]. }
    cbv zeta in H1. cbn [fst]. destruct H1 as (-> & -> & -> & -> & ->). repeat split; try reflexivity.
    right. exists rc. eexists. split; [reflexivity|]. split; [reflexivity|]. cbn [rc_transfer rc_finished]. split; [exact Hid|]. tauto.
Qed.

Lemma open_channel : forall n id r, rn_table n !! id = Some (TIncoming r) -> channel_open n r = true.
Proof.
  intros n id r H. unfold channel_open. apply existsb_exists. exists (id, TIncoming r). split.
  - apply elem_of_list_In. now apply elem_of_map_to_list.
  - cbn. now apply Nat.eqb_refl.
Qed.

(** What the answering task does to everything but the senders. *)
Lemma answer_turn_frame : forall E z o (subs : list (subscriber E)) n k, let n' := answer_turn z o subs n k in
  rn_receivers n' = rn_receivers n /\ rn_queries n' = rn_queries n
  /\ (exists l, rn_asked n' = rn_asked n ++ l)
  /\ (n' = n \/ exists a st, rn_answers n !! k = Some a
      /\ rn_answers n' = <[k := mk_answer_run (an_peer a) (an_id a) (an_receiver a) st (an_timer a)]> (rn_answers n)
      /\ forall id, id <> an_id a -> id <> negate_id (an_id a) ->
         (forall x, an_stage a = ASleeping (Some x) -> id <> x) -> rn_table n' !! id = rn_table n !! id).
Proof.
  intros E z o subs n k. unfold answer_turn. destruct (rn_answers n !! k) as [a|] eqn:Ek.
  2: { cbn. repeat split; try reflexivity; [exists []; now rewrite app_nil_r|left; reflexivity]. }
  cbv zeta.
  assert (Hn : exists l, rn_asked n = rn_asked n ++ l) by (exists []; now rewrite app_nil_r).
  assert (Hsame : rn_receivers n = rn_receivers n /\ rn_queries n = rn_queries n /\ (exists l, rn_asked n = rn_asked n ++ l)
     /\ (n = n \/ exists (a0 : answer_run) (st : answer_stage), Some a = Some a0
      /\ rn_answers n = <[k := mk_answer_run (an_peer a0) (an_id a0) (an_receiver a0) st (an_timer a0)]> (rn_answers n)
      /\ forall id, id <> an_id a0 -> id <> negate_id (an_id a0) ->
         (forall x, an_stage a0 = ASleeping (Some x) -> id <> x) -> rn_table n !! id = rn_table n !! id)).
  { split; [reflexivity|]. split; [reflexivity|]. split; [exact Hn|]. left. reflexivity. }
  destruct (an_stage a) as [| |s|out|] eqn:Es.
  - destruct (rn_receivers n !! an_receiver a) as [rc|]; [|exact Hsame]. destruct (rc_finished rc); [|exact Hsame].
    cbn. split; [reflexivity|]. split; [reflexivity|]. split; [exact Hn|]. right. exists a. eexists. split; [reflexivity|]. split; [reflexivity|].
    intros id H1 _ _. rewrite lookup_insert_ne by congruence. reflexivity.
  - destruct (rn_receivers n !! an_receiver a) as [rc|]; [|exact Hsame].
    destruct (query_from_data (it_data (rc_transfer rc))) as [[[q mx] p]|].
    + destruct (process_rldp_query z subs (ro_force o) q mx p) as [r log].
      destruct r as [[[x|]|]|e]; cbn; (split; [reflexivity|]; split; [reflexivity|]; split; [eexists; reflexivity|]);
        right; exists a; eexists; (split; [reflexivity|]; split; [reflexivity|]); intros id H1 H2 _; try reflexivity.
      rewrite lookup_insert_ne by congruence. reflexivity.
    + cbn. split; [reflexivity|]. split; [reflexivity|]. split; [exact Hn|]. right. exists a. eexists. split; [reflexivity|]. split; reflexivity.
  - destruct (sender_result n s) as [[b|]|]; [| |exact Hsame];
      (cbn; split; [reflexivity|]; split; [reflexivity|]; split; [exact Hn|]); right; exists a; eexists;
      (split; [reflexivity|]; split; [reflexivity|]; reflexivity).
  - cbn. split; [reflexivity|]. split; [reflexivity|]. split; [exact Hn|]. right. exists a. eexists. split; [reflexivity|]. split; [reflexivity|].
    intros id H1 _ H3. rewrite lookup_delete_ne by congruence. destruct out as [x|]; [|reflexivity].
    rewrite lookup_delete_ne; [reflexivity|]. intros ->. now apply (H3 id).
  - exact Hsame.
Qed.

Lemma asked_grows : forall E F slice ck z o n (ev : rldp_event E) x, In x (rn_asked n) ->
  In x (rn_asked (fst (rldp_step F slice ck z o n ev))).
Proof.
  intros E F slice ck z o n ev x H. destruct ev as [peer id qid now p|peer m|r|s ev|k gu|k subs|k]; cbn [rldp_step fst].
  - exact H.
  - destruct m as [id f p t q d|id p q|id p]; cbn [handle_message].
    + unfold handle_chunk. destruct (rn_table n !! id) as [[r| |]|]; try exact H.
      destruct (rn_receivers n !! r) as [rc|]; [|exact H]. cbn [fst]. destruct (rc_finished rc); exact H.
    + destruct (report_frame F slice ck n id (EvConfirm p q)) as (_ & _ & _ & _ & ->). exact H.
    + destruct (report_frame F slice ck n id (EvComplete p)) as (_ & _ & _ & _ & ->). exact H.
  - destruct (receiver_turn_frame F slice ck n r) as (_ & _ & _ & -> & _). exact H.
  - destruct (sender_event_frame F slice ck n s (loop_send_event ev)) as (_ & _ & _ & _ & ->). exact H.
  - unfold query_turn, put_query. destruct (rn_queries n !! k) as [q|]; [|exact H]. cbv zeta.
    destruct (qr_stage q); try exact H.
    + destruct (sender_result n (qr_sender q)) as [[[|]|]|]; exact H.
    + destruct gu; [exact H|]. destruct (rn_receivers n !! qr_receiver q) as [rc|]; [|exact H]. destruct (rc_finished rc); exact H.
  - destruct (answer_turn_frame E z o subs n k) as (_ & _ & [l ->] & _). apply in_or_app. left. exact H.
  - unfold timer_fires. destruct (rn_answers n !! k) as [a|]; [|exact H]. destruct (an_timer a); exact H.
Qed.

Lemma lookup_nth : forall A (l : list A) k x, l !! k = Some x -> nth_error l k = Some x.
Proof. intros A l. induction l as [|y l IH]; intros [|k] x H; try discriminate; [exact H|now apply IH]. Qed.

(** ** One query *)

Section Query.
Context {E : Type} (w : rldp_world) (Hw : world_ok w).
Context (i qid : bytes) (Hi : hash_ok i) (Hq : hash_ok qid) (now : N) (p : bytes).
Context (Hmax : u64_ok (ro_max_answer (rw_alice w)))
        (Hp : blob_ok (sent_payload (rw_zstd w) (ro_force (rw_alice w)) p)).
Context (given : res (query_error E) processed).
Context (Hgiven : forall a, given = Ok (Processed (Some a)) -> blob_ok (on_the_wire w p a)).

Local Notation z := (rw_zstd w).
Local Notation F := (rw_fec w).
Local Notation slice := (rw_slice w).
Local Notation ck := (rw_checked w).
Local Notation oa := (rw_alice w).
Local Notation ob := (rw_bob w).
Local Notation D := (make_query z (ro_force oa) (ro_max_answer oa) (ro_max_timeout oa) qid now p).

(** The answer as it is sent, if there is one. *)
Definition answer_data : option bytes :=
  match given with Ok (Processed (Some a)) => Some (put_rldp_message (RAnswer qid (on_the_wire w p a))) | _ => None end.

Context (W : option bytes) (HW : W = None \/ W = answer_data).

Definition there (k : bytes) : option (option bytes) :=
  if decide (k = i) then Some (Some D) else if decide (k = negate_id i) then Some None else None.
Definition back (k : bytes) : option (option bytes) :=
  if decide (k = i) then Some None else if decide (k = negate_id i) then Some W else None.
Definition nothing (k : bytes) : option (option bytes) :=
  if decide (k = i) then Some None else if decide (k = negate_id i) then Some None else None.

Lemma i_differs : negate_id i <> i.
Proof. apply negate_differs. intros ->. discriminate Hi. Qed.
Lemma there_i : there i = Some (Some D).
Proof. unfold there. now rewrite decide_True. Qed.
Lemma there_n : there (negate_id i) = Some None.
Proof. unfold there. rewrite decide_False by exact i_differs. now rewrite decide_True. Qed.
Lemma back_i : back i = Some None.
Proof. unfold back. now rewrite decide_True. Qed.
Lemma back_n : back (negate_id i) = Some W.
Proof. unfold back. rewrite decide_False by exact i_differs. now rewrite decide_True. Qed.
Lemma nothing_q : forall k, of_query i k -> nothing k = Some None.
Proof. intros k [->| ->]; unfold nothing; [now rewrite decide_True|]. rewrite decide_False by exact i_differs. now rewrite decide_True. Qed.
Lemma others : forall k, ~ of_query i k -> there k = None /\ back k = None /\ nothing k = None.
Proof.
  intros k H. unfold of_query in H. unfold there, back, nothing. rewrite !decide_False by tauto. tauto.
Qed.
Lemma of_query_dec : forall k, of_query i k \/ ~ of_query i k.
Proof. intros k. unfold of_query. destruct (decide (k = i)), (decide (k = negate_id i)); tauto. Qed.
Lemma of_query_negate : forall k, of_query i (negate_id k) -> of_query i k.
Proof.
  intros k [H|H].
  - right. rewrite <- H. symmetry. apply negate_involutive.
  - left. rewrite <- (negate_involutive k), H. apply negate_involutive.
Qed.

Lemma query_full : query_from_data D = Some (qid, ro_max_answer oa, sent_payload z (ro_force oa) p).
Proof. now apply query_arrives. Qed.
Lemma D_nonempty : D <> [].
Proof. intros H. pose proof query_full as H1. rewrite H in H1. discriminate. Qed.
Lemma W_read : forall x, W = Some x -> exists a, given = Ok (Processed (Some a))
  /\ x = put_rldp_message (RAnswer qid (on_the_wire w p a)) /\ get_rldp_message x = Some (RAnswer qid (on_the_wire w p a), []).
Proof.
  intros x Hx. destruct HW as [HW0|HW0]; rewrite HW0 in Hx; [discriminate|]. unfold answer_data in Hx.
  destruct given as [[[a|]|]|e] eqn:Eg; try discriminate.
  assert (Hx' : x = put_rldp_message (RAnswer qid (on_the_wire w p a))) by congruence. subst x.
  exists a. split; [reflexivity|]. split; [reflexivity|].
  apply get_put_rldp. cbn. split; [exact Hq|]. now apply Hgiven.
Qed.
Lemma W_cases : W = None \/ exists x, W = Some x.
Proof. destruct W; eauto. Qed.
Lemma W_nonempty : forall x, W = Some x -> x <> [].
Proof. intros x Hx ->. destruct (W_read _ Hx) as (a & _ & _ & H). discriminate. Qed.
Lemma there_nonempty : forall k d, there k = Some (Some d) -> d <> [].
Proof.
  intros k d H. unfold there in H. destruct (decide (k = i)); [|destruct (decide (k = negate_id i)); discriminate].
  injection H as <-. exact D_nonempty.
Qed.
Lemma back_nonempty : forall k d, back k = Some (Some d) -> d <> [].
Proof.
  intros k d H. unfold back in H. destruct (decide (k = i)); [discriminate|].
  destruct (decide (k = negate_id i)); [|discriminate]. injection H as H. now apply W_nonempty.
Qed.
Lemma nothing_nonempty : forall k d, nothing k = Some (Some d) -> d <> [].
Proof. intros k d H. unfold nothing in H. destruct (decide (k = i)); [discriminate|]. destruct (decide (k = negate_id i)); discriminate. Qed.

Local Notation goodn := (good F slice).

(** A receiver with an expected content holds a beginning of it. *)
Lemma held : forall hin rc d, receiver_good F slice hin rc -> hin (it_id (rc_transfer rc)) = Some (Some d) ->
  exists rest, d = it_data (rc_transfer rc) ++ rest.
Proof.
  intros hin rc d H Hd. unfold receiver_good in H. rewrite Hd in H. destruct H as (_ & _ & [(_ & H & _)|(_ & H & _)]); rewrite H.
  - rewrite first_parts_firstn. eexists. symmetry. apply firstn_skipn.
  - exists []. now rewrite app_nil_r.
Qed.
Lemma answer_receiver : forall hin hout n k a rc, goodn hin hout n -> rn_answers n !! k = Some a ->
  rn_receivers n !! an_receiver a = Some rc ->
  it_id (rc_transfer rc) = an_id a /\ receiver_good F slice hin rc /\ hin (an_id a) <> Some None.
Proof.
  intros hin hout n k a rc Hg Ha Hr. destruct (g_answers _ _ _ _ n Hg k a Ha) as (A & B & _).
  unfold rc_ids in A. rewrite list_lookup_fmap, Hr in A. cbn in A. injection A as A. split; [exact A|]. split; [|exact B].
  exact (g_receivers _ _ _ _ n Hg _ _ Hr).
Qed.

(** Alice never answers her own answer; Bob answers the query. *)
Lemma alice_answers : forall n k (subs : list (subscriber E)), goodn back there n -> answer_allowed there z oa n k subs.
Proof.
  intros n k subs Hg a rc q mx pl x Ha _ Hr Hd Hx. unfold content_good.
  destruct (answer_receiver _ _ _ _ _ _ Hg Ha Hr) as (A & B & C).
  destruct (of_query_dec (negate_id (an_id a))) as [Ho|Ho]; [|destruct (others _ Ho) as [-> _]; exact I].
  exfalso. apply of_query_negate in Ho as [Ho|Ho]; rewrite Ho in *; [now rewrite back_i in C|].
  rewrite back_n in C. destruct W_cases as [EW|[x0 EW]]; [congruence|].
  destruct (held back rc x0 B) as [rest Hrest]; [rewrite A, back_n; congruence|].
  destruct (W_read x0 EW) as (a0 & _ & _ & Hread).
  pose proof (query_from_prefix _ rest _ Hd) as Hfull. rewrite <- Hrest in Hfull. unfold query_from_data in Hfull. rewrite Hread in Hfull. discriminate.
Qed.

Lemma bob_query : forall n k a rc x, goodn there back n -> rn_answers n !! k = Some a -> an_id a = i ->
  rn_receivers n !! an_receiver a = Some rc -> query_from_data (it_data (rc_transfer rc)) = Some x ->
  x = (qid, ro_max_answer oa, sent_payload z (ro_force oa) p).
Proof.
  intros n k a rc x Hg Ha Hai Hr Hd. destruct (answer_receiver _ _ _ _ _ _ Hg Ha Hr) as (A & B & C).
  destruct (held there rc D B) as [rest Hrest]; [rewrite A, Hai; apply there_i|].
  pose proof (query_from_prefix _ rest _ Hd) as Hfull. rewrite <- Hrest, query_full in Hfull. congruence.
Qed.

(** [W] is the answer, once Bob has got as far. *)
Definition bob_turn_ok (n : rldp_node) (ev : rldp_event E) : Prop :=
  match ev with
  | NAnswerTurn k subs =>
      fst (process_query subs (as_asked w p)) = given
      /\ ((exists log, In (rw_alice_id w, i, log) (rn_asked (answer_turn z ob subs n k)) /\ hd_error log = Some (0%nat, as_asked w p)) ->
          W = answer_data)
  | _ => True
  end.
Definition bob_peers (n : rldp_node) : Prop :=
  forall k a, rn_answers n !! k = Some a -> an_id a = i -> an_peer a = rw_alice_id w.

Lemma bob_answers : forall n k (subs : list (subscriber E)), goodn there back n -> bob_peers n ->
  bob_turn_ok n (NAnswerTurn k subs) -> answer_allowed back z ob n k subs.
Proof.
  intros n k subs Hg Hpeers [Hsub HWn] a rc q mx pl x Ha Hst Hr Hd Hx. unfold content_good.
  destruct (answer_receiver _ _ _ _ _ _ Hg Ha Hr) as (A & B & C).
  destruct (of_query_dec (negate_id (an_id a))) as [Ho|Ho]; [|destruct (others _ Ho) as (_ & -> & _); exact I].
  apply of_query_negate in Ho as [Ho|Ho]; [|rewrite Ho, there_n in C; congruence].
  rewrite Ho, back_n. pose proof (bob_query n k a rc _ Hg Ha Ho Hr Hd) as He. injection He as -> -> ->.
  destruct (rldp_processed E z subs (ro_force ob) qid (ro_max_answer oa) _ x Hx) as (a0 & H1 & H2 & H3).
  fold (as_asked w p) in H1, H3. rewrite Hsub in H1. fold (on_the_wire w p a0) in H2.
  assert (HWn' : W = answer_data).
  { apply HWn. unfold answer_turn. rewrite Ha. cbv zeta. rewrite Hst, Hr, Hd.
    destruct (process_rldp_query z subs (ro_force ob) qid (ro_max_answer oa) (sent_payload z (ro_force oa) p)) as [r log].
    cbn [fst snd] in *. subst r. exists log. split; [|exact H3]. cbn. apply in_or_app. right. left. f_equal.
    rewrite (Hpeers k a Ha Ho), Ho. reflexivity. }
  rewrite HWn'. unfold answer_data. rewrite H1. exact H2.
Qed.

(** ** Alice's query *)

Definition asking (k0 : nat) (n : rldp_node) : Prop :=
  (exists q, rn_queries n !! k0 = Some q /\ qr_id q = i /\ qr_query_id q = qid
   /\ match qr_stage q with
      | QSending | QWaiting =>
          rn_table n !! negate_id i = Some (TIncoming (qr_receiver q))
          /\ (exists rc, rn_receivers n !! qr_receiver q = Some rc /\ it_id (rc_transfer rc) = negate_id i
                /\ (rc_finished rc = true -> incoming_done (rc_transfer rc) = true))
          /\ (forall k a, rn_answers n !! k = Some a -> ~ of_query i (an_id a))
      | QReturned (Some (Some d)) | QCleared (Some (Some d)) => W = Some d
      | QReturned _ | QCleared _ => True
      end)
  /\ forall k q, k <> k0 -> rn_queries n !! k = Some q -> ~ of_query i (qr_id q).

(** If the rest changes, but not what matters. *)
Lemma asking_same : forall k0 n n', asking k0 n -> rn_queries n' = rn_queries n ->
  (rn_table n !! negate_id i <> None -> (forall k a, rn_answers n !! k = Some a -> ~ of_query i (an_id a)) ->
     rn_table n' !! negate_id i = rn_table n !! negate_id i
     /\ (forall k a, rn_answers n' !! k = Some a -> ~ of_query i (an_id a))) ->
  (forall r rc, rn_table n !! negate_id i = Some (TIncoming r) -> rn_receivers n !! r = Some rc ->
     (rc_finished rc = true -> incoming_done (rc_transfer rc) = true) ->
     exists rc', rn_receivers n' !! r = Some rc' /\ it_id (rc_transfer rc') = it_id (rc_transfer rc)
       /\ (rc_finished rc' = true -> incoming_done (rc_transfer rc') = true)) ->
  asking k0 n'.
Proof.
  intros k0 n n' [(q & A1 & A2 & A3 & A4) A5] Hqs Ht Hr. split; [|now rewrite Hqs].
  exists q. rewrite Hqs. split; [exact A1|]. split; [exact A2|]. split; [exact A3|].
  assert (G : rn_table n !! negate_id i = Some (TIncoming (qr_receiver q)) ->
     (exists rc, rn_receivers n !! qr_receiver q = Some rc /\ it_id (rc_transfer rc) = negate_id i
                /\ (rc_finished rc = true -> incoming_done (rc_transfer rc) = true)) ->
     (forall k a, rn_answers n !! k = Some a -> ~ of_query i (an_id a)) ->
     rn_table n' !! negate_id i = Some (TIncoming (qr_receiver q))
     /\ (exists rc, rn_receivers n' !! qr_receiver q = Some rc /\ it_id (rc_transfer rc) = negate_id i
                /\ (rc_finished rc = true -> incoming_done (rc_transfer rc) = true))
     /\ (forall k a, rn_answers n' !! k = Some a -> ~ of_query i (an_id a))).
  { intros B1 (rc & B2 & B3 & B4) B5. destruct Ht as [T1 T2]; [now rewrite B1|exact B5|].
    split; [now rewrite T1|]. split; [|exact T2].
    destruct (Hr _ rc B1 B2 B4) as (rc' & R1 & R2 & R3). exists rc'. split; [exact R1|]. split; [congruence|exact R3]. }
  destruct (qr_stage q); [| |exact A4|exact A4]; destruct A4 as (B1 & B2 & B3); now apply G.
Qed.

Lemma asking_step : forall k0 n (ev : rldp_event E), goodn back there n -> asking k0 n ->
  allowed F slice back there z oa n ev ->
  (forall peer id q1 t1 p1, ev = NQuery peer id q1 t1 p1 -> ~ of_query i id) ->
  asking k0 (fst (rldp_step F slice ck z oa n ev)).
Proof.
  intros k0 n ev Hg Has Hal Hnq. destruct Hw as (HF & Hs & Hs32).
  assert (Hsame : forall r rc, rn_receivers n !! r = Some rc -> (rc_finished rc = true -> incoming_done (rc_transfer rc) = true) ->
     exists rc', rn_receivers n !! r = Some rc' /\ it_id (rc_transfer rc') = it_id (rc_transfer rc)
       /\ (rc_finished rc' = true -> incoming_done (rc_transfer rc') = true)) by eauto.
  destruct ev as [peer id q1 t1 p1|peer m|r|s ev|k gu|k subs|k]; cbn [rldp_step fst].
  - (* another query *)
    specialize (Hnq peer id q1 t1 p1 eq_refl). destruct Has as [(q & A1 & A2 & A3 & A4) A5].
    unfold start_query. cbv zeta. split.
    + exists q. cbn [rn_queries]. split; [now apply lookup_app_l_Some|]. split; [exact A2|]. split; [exact A3|].
      cbn [rn_table rn_receivers rn_answers].
      assert (Ht : forall e, rn_table n !! negate_id i = Some e ->
         (<[negate_id id:=TIncoming (length (rn_receivers n))]> (<[id:=TOutgoing (length (rn_senders n))]> (rn_table n))) !! negate_id i = Some e).
      { intros e He. rewrite lookup_insert_ne, lookup_insert_ne; [exact He| |].
        - intros ->. apply Hnq. right. reflexivity.
        - intros Hc. apply Hnq. apply of_query_negate. right. exact Hc. }
      destruct (qr_stage q); try exact A4.
      * destruct A4 as (B1 & (rc & B2 & B3 & B4) & B5). split; [now apply Ht|]. split; [|exact B5].
        exists rc. split; [now apply lookup_app_l_Some|]. split; assumption.
      * destruct A4 as (B1 & (rc & B2 & B3 & B4) & B5). split; [now apply Ht|]. split; [|exact B5].
        exists rc. split; [now apply lookup_app_l_Some|]. split; assumption.
    + cbn [rn_queries]. intros k q' Hk Hq'. apply snoc_cases in Hq' as [->|Hq']; [exact Hnq|now apply (A5 k)].
  - destruct m as [id f pt t sq d|id pt sq|id pt]; cbn [handle_message].
    + unfold handle_chunk. cbn [allowed] in Hal.
      destruct (rn_table n !! id) as [[r|s|]|] eqn:Et; cbn [fst]; try exact Has.
      * destruct (rn_receivers n !! r) as [rc|] eqn:Er; cbn [fst]; [|exact Has].
        destruct (rc_finished rc) eqn:Ef; [exact Has|].
        apply (asking_same k0 n); [exact Has|reflexivity|tauto|]. cbn [rn_receivers set_receivers].
        intros r' rc' _ Hr' Hd'. destruct (decide (r' = r)) as [->|Hne].
        -- eexists. split; [rewrite list_lookup_insert; [reflexivity|eapply lookup_lt_Some; exact Er]|].
           rewrite Er in Hr'. injection Hr' as <-. cbn. split; [reflexivity|discriminate].
        -- rewrite list_lookup_insert_ne by congruence. eauto.
      * apply (asking_same k0 n); [exact Has|reflexivity| |].
        -- cbn [rn_table rn_answers]. intros Hx Hy. split.
           ++ rewrite lookup_insert_ne; [reflexivity|]. intros ->. contradiction.
           ++ intros k a Ha. apply snoc_cases in Ha as [->|Ha]; [|now apply (Hy k)]. cbn [an_id].
              intros [->| ->]; [|contradiction]. unfold chunk_good in Hal. now rewrite back_i in Hal.
        -- cbn [rn_receivers]. intros r' rc' _ Hr' Hd'. exists rc'. split; [now apply lookup_app_l_Some|]. split; [reflexivity|exact Hd'].
    + destruct (report_frame F slice ck n id (EvConfirm pt sq)) as (F1 & F2 & F3 & F4 & _).
      apply (asking_same k0 n); [exact Has|exact F3|rewrite F1, F4; tauto|rewrite F2; eauto].
    + destruct (report_frame F slice ck n id (EvComplete pt)) as (F1 & F2 & F3 & F4 & _).
      apply (asking_same k0 n); [exact Has|exact F3|rewrite F1, F4; tauto|rewrite F2; eauto].
  - destruct (receiver_turn_frame F slice ck n r) as (F1 & F2 & F3 & _ & F5).
    apply (asking_same k0 n); [exact Has|exact F2|rewrite F1, F3; tauto|].
    intros r' rc' Ht Hr' Hd'. destruct F5 as [->|(rc & rc1 & G1 & -> & G3 & G4)]; [eauto|].
    destruct (decide (r' = r)) as [->|Hne].
    + exists rc1. split; [apply list_lookup_insert; eapply lookup_lt_Some; exact G1|].
      split; [congruence|]. intros Hf. destruct (G4 Hf) as [G|G]; [exact G|]. rewrite (open_channel n _ _ Ht) in G. discriminate.
    + rewrite list_lookup_insert_ne by congruence. eauto.
  - destruct (sender_event_frame F slice ck n s (loop_send_event ev)) as (F1 & F2 & F3 & F4 & _).
    apply (asking_same k0 n); [exact Has|exact F3|rewrite F1, F4; tauto|rewrite F2; eauto].
  - (* the query task *)
    destruct Has as [(q & A1 & A2 & A3 & A4) A5]. unfold query_turn.
    destruct (decide (k = k0)) as [->|Hne].
    + rewrite A1. cbv zeta.
      assert (Hstage : forall t st,
        match st with
        | QSending | QWaiting =>
            t !! negate_id i = Some (TIncoming (qr_receiver q))
            /\ (exists rc, rn_receivers n !! qr_receiver q = Some rc /\ it_id (rc_transfer rc) = negate_id i
                  /\ (rc_finished rc = true -> incoming_done (rc_transfer rc) = true))
            /\ (forall k a, rn_answers n !! k = Some a -> ~ of_query i (an_id a))
        | QReturned (Some (Some d)) | QCleared (Some (Some d)) => W = Some d
        | QReturned _ | QCleared _ => True
        end -> asking k0 (put_query (set_table n t) k0 q st)).
      { intros t st Hst. unfold put_query. split.
        - eexists. cbn [rn_queries set_queries set_table]. split; [apply list_lookup_insert; eapply lookup_lt_Some; exact A1|].
          cbn [qr_id qr_query_id qr_stage qr_receiver]. split; [exact A2|]. split; [exact A3|].
          cbn [rn_table rn_receivers rn_answers set_queries set_table]. exact Hst.
        - cbn [rn_queries set_queries set_table]. intros k q' Hk Hq'. rewrite list_lookup_insert_ne in Hq' by congruence. now apply (A5 k). }
      assert (Hkeep : asking k0 n) by (split; [now exists q|exact A5]).
      destruct (qr_stage q) as [| |r|r] eqn:Es.
      * destruct (sender_result n (qr_sender q)) as [[[|]|]|]; [| | |exact Hkeep]; apply Hstage; try exact I.
        destruct A4 as (B1 & B2 & B3). split; [|split; assumption].
        rewrite A2, lookup_insert_ne; [exact B1|]. pose proof i_differs. congruence.
      * destruct gu; [apply Hstage; exact I|]. destruct A4 as (B1 & (rc & B2 & B3 & B4) & B5). rewrite B2.
        destruct (rc_finished rc) eqn:Ef; [|exact Hkeep]. apply Hstage.
        specialize (B4 eq_refl). pose proof (g_receivers _ _ _ _ n Hg _ _ B2) as Hrc. unfold receiver_good in Hrc. rewrite B3, back_n in Hrc.
        destruct W_cases as [EW|[x EW]]; rewrite EW in Hrc; [destruct Hrc as (_ & _ & Hrc); congruence|].
        destruct Hrc as (_ & _ & [Hl|(_ & Hd & _)]); [|now rewrite Hd].
        rewrite (live_not_done F slice Hs Hs32 x _ Hl) in B4. discriminate.
      * apply Hstage. destruct r as [[d|]|]; exact A4.
      * exact Hkeep.
    + destruct (rn_queries n !! k) as [q'|] eqn:Ek; [|split; [now exists q|exact A5]]. cbv zeta.
      pose proof (A5 k q' Hne Ek) as Ho.
      assert (H1 : negate_id i <> qr_id q') by (intros Hc; apply Ho; right; congruence).
      assert (H2 : negate_id i <> negate_id (qr_id q')) by (intros Hc; apply Ho; apply of_query_negate; right; congruence).
      assert (Hstage : forall t st, t !! negate_id i = rn_table n !! negate_id i -> asking k0 (put_query (set_table n t) k q' st)).
      { intros t st Ht. unfold put_query. split.
        - exists q. cbn [rn_queries set_queries set_table]. rewrite list_lookup_insert_ne by congruence.
          split; [exact A1|]. split; [exact A2|]. split; [exact A3|].
          cbn [rn_table rn_receivers rn_answers set_queries set_table]. rewrite Ht. exact A4.
        - cbn [rn_queries set_queries set_table]. intros j q2 Hj Hq2. apply insert_cases in Hq2 as [->|Hq2]; [exact Ho|now apply (A5 j)]. }
      assert (Hkeep : asking k0 n) by (split; [now exists q|exact A5]).
      destruct (qr_stage q').
      * destruct (sender_result n (qr_sender q')) as [[[|]|]|]; [| | |exact Hkeep]; apply Hstage;
          rewrite ?lookup_insert_ne by congruence; reflexivity.
      * destruct gu; [apply Hstage; now rewrite lookup_insert_ne by congruence|].
        destruct (rn_receivers n !! qr_receiver q') as [rc|]; [|exact Hkeep].
        destruct (rc_finished rc); [|exact Hkeep]. apply Hstage. now rewrite lookup_insert_ne by congruence.
      * apply Hstage. now rewrite !lookup_delete_ne by congruence.
      * exact Hkeep.
  - destruct (answer_turn_frame E z oa subs n k) as (F1 & F2 & _ & F4).
    apply (asking_same k0 n); [exact Has|exact F2| |rewrite F1; eauto].
    intros Hx Hy. destruct F4 as [->|(a & st & G1 & G2 & G3)]; [tauto|].
    pose proof (Hy k a G1) as Ho. split.
    + apply G3.
      * intros Hc. apply Ho. right. congruence.
      * intros Hc. apply Ho. apply of_query_negate. right. congruence.
      * intros x Hxx. destruct (g_answers _ _ _ _ n Hg k a G1) as (_ & _ & C). rewrite (C x Hxx).
        intros Hc. apply Ho. apply of_query_negate. right. congruence.
    + rewrite G2. intros j b Hb. apply insert_cases in Hb as [->|Hb]; [exact Ho|now apply (Hy j)].
  - unfold timer_fires. destruct (rn_answers n !! k) as [a|] eqn:Ek; [|exact Has]. destruct (an_timer a); [|exact Has].
    apply (asking_same k0 n); [exact Has|reflexivity| |cbn [rn_receivers set_answers set_table]; eauto].
    intros Hx Hy. pose proof (Hy k a Ek) as Ho. cbn [rn_table rn_answers set_answers set_table]. split.
    + rewrite lookup_insert_ne; [reflexivity|]. intros Hc. apply Ho. right. congruence.
    + intros j b Hb. apply insert_cases in Hb as [->|Hb]; [exact Ho|now apply (Hy j)].
Qed.

(** ** Both nodes *)

(** What holds throughout; [true]: before the query. *)
Definition calm (s : rldp_pair) : Prop :=
  goodn nothing nothing (rp_alice s) /\ goodn nothing nothing (rp_bob s)
  /\ sent_good F slice nothing (rp_from_alice s) /\ sent_good F slice nothing (rp_from_bob s)
  /\ forall k q, rn_queries (rp_alice s) !! k = Some q -> ~ of_query i (qr_id q).
Definition sound (s : rldp_pair) : Prop :=
  goodn back there (rp_alice s) /\ goodn there back (rp_bob s)
  /\ sent_good F slice there (rp_from_alice s) /\ sent_good F slice back (rp_from_bob s)
  /\ bob_peers (rp_bob s).

Lemma message_good : forall hout out peer m, sent_good F slice hout out -> In (peer, m) out ->
  match m with MpPart id f a b c d => chunk_good F slice hout id (mk_chunk f a b c d) | _ => True end.
Proof. intros hout out peer m H Hm. destruct m; [|exact I|exact I]. eapply H. exact Hm. Qed.

Lemma nothing_answers : forall o n k (subs : list (subscriber E)), goodn nothing nothing n -> answer_allowed nothing z o n k subs.
Proof.
  intros o n k subs Hg a rc q mx pl x Ha _ Hr Hd Hx. unfold content_good.
  destruct (answer_receiver _ _ _ _ _ _ Hg Ha Hr) as (A & B & C).
  destruct (of_query_dec (negate_id (an_id a))) as [Ho|Ho]; [|destruct (others _ Ho) as (_ & _ & ->); exact I].
  apply of_query_negate in Ho. now rewrite (nothing_q _ Ho) in C.
Qed.

Lemma chunk_other : forall h id m, h id = None -> chunk_good F slice h id m.
Proof. intros h id m H. unfold chunk_good. now rewrite H. Qed.
Lemma content_other : forall h id x, h id = None -> content_good h id x.
Proof. intros h id m H. unfold content_good. now rewrite H. Qed.

(** A query of Alice is new in the list, or was there before. *)
Lemma queries_ids : forall o n (ev : rldp_event E),
  (forall peer id q1 t1 p1, ev = NQuery peer id q1 t1 p1 -> ~ of_query i id) ->
  (forall k q, rn_queries n !! k = Some q -> ~ of_query i (qr_id q)) ->
  forall k q, rn_queries (fst (rldp_step F slice ck z o n ev)) !! k = Some q -> ~ of_query i (qr_id q).
Proof.
  intros o n ev Hnq H. destruct ev as [peer id q1 t1 p1|peer m|r|s ev|k0 gu|k0 subs|k0]; cbn [rldp_step fst]; intros k q.
  - cbn [start_query rn_queries]. intros Hk. apply snoc_cases in Hk as [->|Hk]; [now apply (Hnq peer id q1 t1 p1)|now apply (H k)].
  - destruct m as [id f pt t sq d|id pt sq|id pt]; cbn [handle_message].
    + unfold handle_chunk. destruct (rn_table n !! id) as [[r| |]|]; try apply H.
      destruct (rn_receivers n !! r) as [rc|]; [|apply H]. cbn [fst]. destruct (rc_finished rc); apply H.
    + destruct (report_frame F slice ck n id (EvConfirm pt sq)) as (_ & _ & -> & _). apply H.
    + destruct (report_frame F slice ck n id (EvComplete pt)) as (_ & _ & -> & _). apply H.
  - destruct (receiver_turn_frame F slice ck n r) as (_ & -> & _). apply H.
  - destruct (sender_event_frame F slice ck n s (loop_send_event ev)) as (_ & _ & -> & _). apply H.
  - unfold query_turn, put_query. destruct (rn_queries n !! k0) as [q'|] eqn:Ek; [|apply H]. cbv zeta.
    assert (G : forall st t, rn_queries (set_queries (set_table n t) (<[k0 := mk_query_run (qr_peer q') (qr_id q') (qr_query_id q') (qr_sender q') (qr_receiver q') st]> (rn_queries (set_table n t)))) !! k = Some q -> ~ of_query i (qr_id q)).
    { intros st t. cbn. intros Hk. apply insert_cases in Hk as [->|Hk]; [exact (H k0 q' Ek)|now apply (H k)]. }
    destruct (qr_stage q').
    + destruct (sender_result n (qr_sender q')) as [[[|]|]|]; try apply G; apply H.
    + destruct gu; [apply G|]. destruct (rn_receivers n !! qr_receiver q') as [rc|]; [|apply H]. destruct (rc_finished rc); [apply G|apply H].
    + apply G.
    + apply H.
  - destruct (answer_turn_frame E z o subs n k0) as (_ & -> & _). apply H.
  - unfold timer_fires. destruct (rn_answers n !! k0) as [a|]; [|apply H]. destruct (an_timer a); apply H.
Qed.

Lemma calm_step : forall s (ev : pair_event E), calm s -> private w i s ev -> calm (pair_step w s ev).
Proof.
  intros s ev (C1 & C2 & C3 & C4 & C5) Hpr. destruct Hw as (HF & Hs & Hs32).
  destruct ev as [ev|ev]; cbn [pair_step].
  - assert (Hal : allowed F slice nothing nothing z oa (rp_alice s) ev).
    { destruct ev as [peer id q1 t1 p1|peer m|r|s1 ev|k gu|k subs|k]; cbn [allowed]; try exact I.
      - apply content_other. now apply others.
      - destruct m as [id f pt t sq d|id pt sq|id pt]; try exact I.
        destruct (of_query_dec id) as [Ho|Ho]; [|apply chunk_other; now apply others].
        destruct (Hpr Ho) as [_ Hin]. exact (message_good _ _ _ _ C4 Hin).
      - now apply nothing_answers. }
    assert (Hnq : forall peer id q1 t1 p1, ev = NQuery peer id q1 t1 p1 -> ~ of_query i id) by (intros ? ? ? ? ? ->; exact Hpr).
    destruct (step_good F HF slice Hs Hs32 ck nothing nothing nothing_nonempty E z oa _ ev C1 Hal) as [S1 S2].
    pose proof (queries_ids oa _ ev Hnq C5) as Hids.
    destruct (rldp_step F slice ck z oa (rp_alice s) ev) as [n out]. cbn [fst snd] in *.
    split; [exact S1|]. split; [exact C2|]. split; [now apply sent_good_app|]. split; [exact C4|exact Hids].
  - assert (Hal : allowed F slice nothing nothing z ob (rp_bob s) ev).
    { destruct ev as [peer id q1 t1 p1|peer m|r|s1 ev|k gu|k subs|k]; cbn [allowed]; try exact I.
      - apply content_other. now apply others.
      - destruct m as [id f pt t sq d|id pt sq|id pt]; try exact I.
        destruct (of_query_dec id) as [Ho|Ho]; [|apply chunk_other; now apply others].
        destruct (Hpr Ho) as [_ Hin]. exact (message_good _ _ _ _ C3 Hin).
      - now apply nothing_answers. }
    destruct (step_good F HF slice Hs Hs32 ck nothing nothing nothing_nonempty E z ob _ ev C2 Hal) as [S1 S2].
    destruct (rldp_step F slice ck z ob (rp_bob s) ev) as [n out]. cbn [fst snd] in *.
    split; [exact C1|]. split; [exact S1|]. split; [exact C3|]. split; [now apply sent_good_app|exact C5].
Qed.

Lemma bob_peers_step : forall s (ev : rldp_event E), bob_peers (rp_bob s) -> private w i s (AtBob ev) ->
  bob_peers (fst (rldp_step F slice ck z ob (rp_bob s) ev)).
Proof.
  intros s ev H Hpr. set (n := rp_bob s) in *.
  destruct ev as [peer id q1 t1 p1|peer m|r|s1 ev|k0 gu|k0 subs|k0]; cbn [rldp_step fst]; intros k a.
  - apply H.
  - destruct m as [id f pt t sq d|id pt sq|id pt]; cbn [handle_message].
    + unfold handle_chunk. destruct (rn_table n !! id) as [[r| |]|]; try apply H.
      * destruct (rn_receivers n !! r) as [rc|]; [|apply H]. cbn [fst]. destruct (rc_finished rc); apply H.
      * cbn [fst rn_answers]. intros Ha He. apply snoc_cases in Ha as [->|Ha]; [|now apply (H k)].
        cbn [an_peer an_id] in *. subst id. apply Hpr. left. reflexivity.
    + destruct (report_frame F slice ck n id (EvConfirm pt sq)) as (_ & _ & _ & -> & _). apply H.
    + destruct (report_frame F slice ck n id (EvComplete pt)) as (_ & _ & _ & -> & _). apply H.
  - destruct (receiver_turn_frame F slice ck n r) as (_ & _ & -> & _). apply H.
  - destruct (sender_event_frame F slice ck n s1 (loop_send_event ev)) as (_ & _ & _ & -> & _). apply H.
  - unfold query_turn, put_query. destruct (rn_queries n !! k0) as [q'|]; [|apply H]. cbv zeta.
    destruct (qr_stage q'); try apply H.
    + destruct (sender_result n (qr_sender q')) as [[[|]|]|]; apply H.
    + destruct gu; [apply H|]. destruct (rn_receivers n !! qr_receiver q') as [rc|]; [|apply H]. destruct (rc_finished rc); apply H.
  - destruct (answer_turn_frame E z ob subs n k0) as (_ & _ & _ & [->|(b & st & G1 & G2 & _)]); [apply H|].
    rewrite G2. intros Ha He. apply insert_cases in Ha as [->|Ha]; [|now apply (H k)]. cbn [an_peer an_id] in *. now apply (H k0).
  - unfold timer_fires. destruct (rn_answers n !! k0) as [b|] eqn:Ek; [|apply H]. destruct (an_timer b); [|apply H].
    cbn [rn_answers set_answers set_table]. intros Ha He. apply insert_cases in Ha as [->|Ha]; [|now apply (H k)]. cbn [an_peer an_id] in *. now apply (H k0).
Qed.

(** Receivers of the query are made by messages of it, or by the query. *)
Definition unheard (n : rldp_node) : Prop := forall r rc, rn_receivers n !! r = Some rc -> ~ of_query i (it_id (rc_transfer rc)).
Lemma unheard_step : forall o n (ev : rldp_event E), unheard n ->
  (forall peer id q1 t1 p1, ev = NQuery peer id q1 t1 p1 -> ~ of_query i id) ->
  (forall peer id f a b c d, ev = NMessage peer (MpPart id f a b c d) -> ~ of_query i id) ->
  unheard (fst (rldp_step F slice ck z o n ev)).
Proof.
  intros o n ev H Hnq Hnm. destruct ev as [peer id q1 t1 p1|peer m|r0|s ev|k0 gu|k0 subs|k0]; cbn [rldp_step fst]; intros r rc.
  - cbn [start_query rn_receivers]. intros Hk. apply snoc_cases in Hk as [->|Hk]; [|now apply (H r)].
    cbn. intros Hc. apply (Hnq peer id q1 t1 p1 eq_refl). now apply of_query_negate.
  - destruct m as [id f pt t sq d|id pt sq|id pt]; cbn [handle_message].
    + unfold handle_chunk. destruct (rn_table n !! id) as [[r1| |]|]; try apply H.
      * destruct (rn_receivers n !! r1) as [rc1|] eqn:E1; [|apply H]. cbn [fst]. destruct (rc_finished rc1); [apply H|].
        cbn [rn_receivers set_receivers]. intros Hk. apply insert_cases in Hk as [->|Hk]; [exact (H r1 rc1 E1)|now apply (H r)].
      * cbn [fst rn_receivers]. intros Hk. apply snoc_cases in Hk as [->|Hk]; [|now apply (H r)].
        cbn. now apply (Hnm peer id f pt t sq d).
    + destruct (report_frame F slice ck n id (EvConfirm pt sq)) as (_ & -> & _). apply H.
    + destruct (report_frame F slice ck n id (EvComplete pt)) as (_ & -> & _). apply H.
  - destruct (receiver_turn_frame F slice ck n r0) as (_ & _ & _ & _ & [->|(rc1 & rc' & G1 & -> & G3 & _)]); [apply H|].
    intros Hk. apply insert_cases in Hk as [->|Hk]; [rewrite G3; exact (H r0 rc1 G1)|now apply (H r)].
  - destruct (sender_event_frame F slice ck n s (loop_send_event ev)) as (_ & -> & _). apply H.
  - unfold query_turn, put_query. destruct (rn_queries n !! k0) as [q'|]; [|apply H]. cbv zeta.
    destruct (qr_stage q'); try apply H.
    + destruct (sender_result n (qr_sender q')) as [[[|]|]|]; apply H.
    + destruct gu; [apply H|]. destruct (rn_receivers n !! qr_receiver q') as [rc1|]; [|apply H]. destruct (rc_finished rc1); apply H.
  - destruct (answer_turn_frame E z o subs n k0) as (-> & _). apply H.
  - unfold timer_fires. destruct (rn_answers n !! k0) as [b|]; [|apply H]. destruct (an_timer b); apply H.
Qed.

(** Before the query. *)
Definition quiet (s : rldp_pair) : Prop :=
  calm s /\ unheard (rp_alice s) /\ unheard (rp_bob s).
Lemma quiet_step : forall s (ev : pair_event E), quiet s -> private w i s ev -> quiet (pair_step w s ev).
Proof.
  intros s ev (C & U1 & U2) Hpr. split; [now apply calm_step|]. destruct C as (_ & _ & C3 & C4 & _).
  destruct ev as [ev|ev]; cbn [pair_step].
  - assert (U : unheard (fst (rldp_step F slice ck z oa (rp_alice s) ev))).
    { apply unheard_step; [exact U1|intros ? ? ? ? ? ->; exact Hpr|]. intros peer id f a b c d -> Ho.
      destruct (Hpr Ho) as [_ Hin]. specialize (C4 _ _ _ _ _ _ _ Hin). unfold chunk_good in C4. now rewrite (nothing_q _ Ho) in C4. }
    destruct (rldp_step F slice ck z oa (rp_alice s) ev) as [n out]. split; [exact U|exact U2].
  - assert (U : unheard (fst (rldp_step F slice ck z ob (rp_bob s) ev))).
    { apply unheard_step; [exact U2|intros ? ? ? ? ? ->; exact Hpr|]. intros peer id f a b c d -> Ho.
      destruct (Hpr Ho) as [_ Hin]. specialize (C3 _ _ _ _ _ _ _ Hin). unfold chunk_good in C3. now rewrite (nothing_q _ Ho) in C3. }
    destruct (rldp_step F slice ck z ob (rp_bob s) ev) as [n out]. split; [exact U1|exact U].
Qed.
Lemma quiet_new : quiet rldp_pair_new.
Proof.
  split; [split; [|split; [|split; [|split]]]|split].
  - apply good_new.
  - apply good_new.
  - apply sent_good_nil.
  - apply sent_good_nil.
  - intros k q H. cbn in H. rewrite lookup_nil in H. discriminate.
  - intros r rc H. cbn in H. rewrite lookup_nil in H. discriminate.
  - intros r rc H. cbn in H. rewrite lookup_nil in H. discriminate.
Qed.
Lemma quiet_run : forall (evs : list (pair_event E)) s, quiet s -> private_run w i s evs -> quiet (pair_run w s evs).
Proof.
  induction evs as [|ev evs IH]; intros s Hs Hpr; [exact Hs|]. destruct Hpr as [H1 H2].
  apply (IH (pair_step w s ev)); [now apply quiet_step|exact H2].
Qed.

(** Expectations may be raised before anything was heard. *)
Lemma good_raise : forall hin hout n, goodn nothing nothing n -> unheard n ->
  (forall k, ~ of_query i k -> hin k = None) -> (forall k, ~ of_query i k -> hout k = None) -> goodn hin hout n.
Proof.
  intros hin hout n Hg Hu Hhi Hho. constructor.
  - intros r rc Hr. unfold receiver_good. now rewrite (Hhi _ (Hu r rc Hr)).
  - intros s o Hs. pose proof (g_senders _ _ _ _ n Hg s o Hs) as H. unfold sender_good in *.
    destruct (of_query_dec (ot_id (se_transfer (ou_sender o)))) as [Ho|Ho]; [now rewrite (nothing_q _ Ho) in H|now rewrite (Hho _ Ho)].
  - exact (g_table _ _ _ _ n Hg).
  - intros k a Ha. destruct (g_answers _ _ _ _ n Hg k a Ha) as (A & B & C). split; [exact A|]. split; [|exact C].
    destruct (of_query_dec (an_id a)) as [Ho|Ho]; [now rewrite (nothing_q _ Ho) in B|]. now rewrite (Hhi _ Ho).
Qed.
Lemma sent_raise : forall hout out, sent_good F slice nothing out -> (forall k, ~ of_query i k -> hout k = None) ->
  sent_good F slice hout out.
Proof.
  intros hout out H Hho peer id f a b c d Hin. specialize (H _ _ _ _ _ _ _ Hin). unfold chunk_good in *.
  destruct (of_query_dec id) as [Ho|Ho]; [now rewrite (nothing_q _ Ho) in H|now rewrite (Hho _ Ho)].
Qed.

(** The query is made. *)
Lemma query_made : forall s, quiet s -> let s1 := pair_step (E:=E) w s (AtAlice (NQuery (rw_bob_id w) i qid now p)) in
  sound s1 /\ asking (length (rn_queries (rp_alice s))) (rp_alice s1).
Proof.
  intros s ((C1 & C2 & C3 & C4 & C5) & U1 & U2). cbn [pair_step rldp_step]. cbv zeta. cbn [rp_alice].
  destruct Hw as (HF & Hs & Hs32).
  assert (Ht : forall k, ~ of_query i k -> there k = None) by (intros; now apply others).
  assert (Hb : forall k, ~ of_query i k -> back k = None) by (intros; now apply others).
  pose proof (good_raise back there _ C1 U1 Hb Ht) as G1.
  split.
  - split; [|split; [|split; [|split]]]; cbn [rp_alice rp_bob rp_from_alice rp_from_bob].
    + apply start_query_good; [exact Hs|exact Hs32|exact back_nonempty|exact G1|]. unfold content_good. rewrite there_i. reflexivity.
    + exact (good_raise there back _ C2 U2 Ht Hb).
    + apply sent_good_app; [now apply sent_raise|apply sent_good_nil].
    + now apply sent_raise.
    + intros k a Ha Hai. destruct (g_answers _ _ _ _ _ C2 k a Ha) as (_ & B & _). rewrite nothing_q in B; [congruence|left; exact Hai].
  - unfold start_query. cbv zeta. split.
    + eexists. cbn [rn_queries]. split; [rewrite lookup_app_r, Nat.sub_diag by lia; reflexivity|].
      cbn [qr_id qr_query_id qr_stage qr_receiver rn_table rn_receivers rn_answers]. split; [reflexivity|]. split; [reflexivity|].
      split; [apply lookup_insert|]. split.
      * eexists. split; [rewrite lookup_app_r, Nat.sub_diag by lia; reflexivity|]. cbn. split; [reflexivity|discriminate].
      * intros k a Ha Ho. destruct (g_answers _ _ _ _ _ C1 k a Ha) as (_ & B & _). now rewrite (nothing_q _ Ho) in B.
    + cbn [rn_queries]. intros k q Hk Hkq. apply lookup_app_Some in Hkq as [Hkq|[Hle Hkq]]; [now apply (C5 k)|].
      apply list_lookup_singleton_Some in Hkq as [Hkq _]. lia.
Qed.

(** After the query. *)
Lemma sound_step : forall s (ev : pair_event E), sound s -> private w i s ev ->
  (forall bev, ev = AtBob bev -> bob_turn_ok (rp_bob s) bev) ->
  sound (pair_step w s ev) /\ forall k0, asking k0 (rp_alice s) -> asking k0 (rp_alice (pair_step w s ev)).
Proof.
  intros s ev (C1 & C2 & C3 & C4 & C5) Hpr Hbob. destruct (id Hw) as (HF & Hs & Hs32).
  destruct ev as [ev|ev]; cbn [pair_step].
  - assert (Hal : allowed F slice back there z oa (rp_alice s) ev).
    { destruct ev as [peer id q1 t1 p1|peer m|r|s1 ev|k gu|k subs|k]; cbn [allowed]; try exact I.
      - apply content_other. now apply others.
      - destruct m as [id f pt t sq d|id pt sq|id pt]; try exact I.
        destruct (of_query_dec id) as [Ho|Ho]; [|apply chunk_other; now apply others].
        destruct (Hpr Ho) as [_ Hin]. exact (message_good _ _ _ _ C4 Hin).
      - now apply alice_answers. }
    assert (Hnq : forall peer id q1 t1 p1, ev = NQuery peer id q1 t1 p1 -> ~ of_query i id) by (intros ? ? ? ? ? ->; exact Hpr).
    destruct (step_good F HF slice Hs Hs32 ck back there back_nonempty E z oa _ ev C1 Hal) as [S1 S2].
    pose proof (fun k0 Hk => asking_step k0 _ ev C1 Hk Hal Hnq) as Hask.
    destruct (rldp_step F slice ck z oa (rp_alice s) ev) as [n out]. cbn [fst snd] in *.
    split; [|exact Hask]. split; [exact S1|]. split; [exact C2|]. split; [now apply sent_good_app|]. split; [exact C4|exact C5].
  - assert (Hal : allowed F slice there back z ob (rp_bob s) ev).
    { destruct ev as [peer id q1 t1 p1|peer m|r|s1 ev|k gu|k subs|k]; cbn [allowed]; try exact I.
      - apply content_other. now apply others.
      - destruct m as [id f pt t sq d|id pt sq|id pt]; try exact I.
        destruct (of_query_dec id) as [Ho|Ho]; [|apply chunk_other; now apply others].
        destruct (Hpr Ho) as [_ Hin]. exact (message_good _ _ _ _ C3 Hin).
      - apply bob_answers; [exact C2|exact C5|]. now apply Hbob. }
    destruct (step_good F HF slice Hs Hs32 ck there back there_nonempty E z ob _ ev C2 Hal) as [S1 S2].
    pose proof (bob_peers_step s ev C5 Hpr) as Hpeers.
    destruct (rldp_step F slice ck z ob (rp_bob s) ev) as [n out]. cbn [fst snd] in *.
    split; [|intros k0 Hk; exact Hk]. split; [exact C1|]. split; [exact S1|]. split; [exact C3|]. split; [now apply sent_good_app|exact Hpeers].
Qed.

Lemma bob_asked_grows : forall s (ev : pair_event E) x q, bob_asked w s x q -> bob_asked w (pair_step w s ev) x q.
Proof.
  intros s ev x q (log & H1 & H2). exists log. split; [|exact H2]. destruct ev as [ev|ev]; cbn [pair_step].
  - destruct (rldp_step F slice ck z oa (rp_alice s) ev). exact H1.
  - pose proof (asked_grows E F slice ck z ob (rp_bob s) ev _ H1) as G.
    destruct (rldp_step F slice ck z ob (rp_bob s) ev). exact G.
Qed.
Lemma bob_asked_run : forall (evs : list (pair_event E)) s x q, bob_asked w s x q -> bob_asked w (pair_run w s evs) x q.
Proof.
  induction evs as [|ev evs IH]; intros s x q H; [exact H|]. apply (IH (pair_step w s ev)). now apply bob_asked_grows.
Qed.

Lemma sound_run : forall (evs : list (pair_event E)) s k0, sound s -> asking k0 (rp_alice s) -> private_run w i s evs ->
  bob_gives (as_asked w p) given evs ->
  (bob_asked w (pair_run w s evs) i (as_asked w p) -> W = answer_data) ->
  sound (pair_run w s evs) /\ asking k0 (rp_alice (pair_run w s evs)).
Proof.
  induction evs as [|ev evs IH]; intros s k0 Hs Ha Hpr Hgive HWf; [split; [exact Hs|exact Ha]|].
  destruct Hpr as [H1 H2].
  destruct (sound_step s ev Hs H1) as [S1 S2].
  { intros bev ->. destruct bev as [| | | | |k subs|]; cbn [bob_turn_ok]; try exact I. split.
    - apply (Hgive k subs). left. reflexivity.
    - intros (log & G1 & G2). apply HWf. apply (bob_asked_run evs (pair_step w s _)). exists log. split; [|exact G2]. exact G1. }
  apply (IH (pair_step w s ev) k0 S1 (S2 k0 Ha) H2); [|exact HWf].
  intros k subs Hin. apply (Hgive k subs). right. exact Hin.
Qed.

(** The answer that Alice gets. *)
Lemma asking_result : forall s k0 a, asking k0 (rp_alice s) -> alice_result w s k0 = Some (RAnswered a) ->
  exists x, W = Some x /\ accept_answer z qid x = Ok a.
Proof.
  intros s k0 a [(q & A1 & A2 & A3 & A4) _] Hr. unfold alice_result in Hr.
  assert (A1' : nth_error (rn_queries (rp_alice s)) k0 = Some q) by (now apply lookup_nth).
  rewrite A1' in Hr. unfold query_returns in Hr. rewrite A3 in Hr.
  destruct (qr_stage q) as [| |[[d|]|]|[[d|]|]]; try discriminate; exists d; (split; [exact A4|]);
    destruct (accept_answer z qid d); congruence.
Qed.
End Query.

(** ** The theorem *)

Lemma asked_dec : forall w s x q, bob_asked w s x q \/ ~ bob_asked w s x q.
Proof.
  intros w s x q. unfold bob_asked.
  set (f := fun e : bytes * bytes * list (nat * bytes) =>
              bool_decide (fst e = (rw_alice_id w, x)) && bool_decide (hd_error (snd e) = Some (0%nat, q))).
  destruct (existsb f (rn_asked (rp_bob s))) eqn:E.
  - left. apply existsb_exists in E as (((peer & y) & log) & H1 & H2). unfold f in H2. cbn [fst snd] in H2. apply andb_prop in H2 as [H2 H3].
    apply bool_decide_eq_true in H2, H3. injection H2 as -> ->. exists log. split; assumption.
  - right. intros (log & H1 & H2). assert (Ht : existsb f (rn_asked (rp_bob s)) = true); [|congruence].
    apply existsb_exists. exists (rw_alice_id w, x, log). split; [exact H1|]. unfold f. cbn [fst snd]. rewrite H2. now rewrite !bool_decide_eq_true_2.
Qed.

Theorem rldp_end_to_end : forall E (w : rldp_world) i qid now p given (pre post : list (pair_event E)),
  world_ok w -> hash_ok i -> hash_ok qid -> u64_ok (ro_max_answer (rw_alice w)) ->
  blob_ok (sent_payload (rw_zstd w) (ro_force (rw_alice w)) p) ->
  (forall a, given = Ok (Processed (Some a)) -> blob_ok (on_the_wire w p a)) ->
  let s0 := pair_run w rldp_pair_new pre in
  let k := length (rn_queries (rp_alice s0)) in
  let s1 := pair_step (E:=E) w s0 (AtAlice (NQuery (rw_bob_id w) i qid now p)) in
  let s2 := pair_run w s1 post in
  private_run w i rldp_pair_new pre -> private_run w i s1 post -> bob_gives (as_asked w p) given post ->
  forall a, alice_result w s2 k = Some (RAnswered a) ->
  exists a0, given = Ok (Processed (Some a0)) /\ a = as_answered w p a0 /\ bob_asked w s2 i (as_asked w p).
Proof.
  intros E w i qid now p given pre post Hw Hi Hq Hmax Hp Hgiven s0 k s1 s2 Hpre Hpost Hgive a Hres.
  assert (Hfin : forall W, W = None \/ W = answer_data w qid p given -> (bob_asked w s2 i (as_asked w p) -> W = answer_data w qid p given) ->
     exists x, W = Some x /\ accept_answer (rw_zstd w) qid x = Ok a).
  { intros W HW HWf.
    pose proof (quiet_run w Hw i qid Hi now p given W HW pre _ (quiet_new w i) Hpre) as Hquiet. fold s0 in Hquiet.
    destruct (query_made w Hw i qid Hi Hq now p given Hgiven W HW s0 Hquiet) as [M1 M2].
    destruct (sound_run w Hw i qid Hi Hq now p Hmax Hp given Hgiven W HW post s1 k M1 M2 Hpost Hgive HWf) as [R1 R2].
    exact (asking_result w i qid W s2 k a R2 Hres). }
  destruct (asked_dec w s2 i (as_asked w p)) as [Ha|Ha].
  - destruct (Hfin (answer_data w qid p given)) as (x & Hx & Hacc); [right; reflexivity|reflexivity|].
    unfold answer_data in Hx. destruct given as [[[a0|]|]|e] eqn:Eg; try discriminate.
    assert (Hx' : x = put_rldp_message (RAnswer qid (on_the_wire w p a0))) by congruence. subst x. clear Hx.
    exists a0. split; [reflexivity|]. split; [|exact Ha].
    unfold on_the_wire in Hacc. rewrite answer_arrives in Hacc; [|exact Hq|exact (Hgiven a0 eq_refl)].
    injection Hacc as <-. reflexivity.
  - destruct (Hfin None) as (x & Hx & _); [left; reflexivity|contradiction|discriminate].
Qed.
