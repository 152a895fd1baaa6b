(** RLDP nodes: every transfer with an expected content carries that content. *)
From stdpp Require Import gmap.
From Coq Require Import NArith Lia.
From Coq Require Import ZifyBool ZifyNat ZifyN.
From Verif.Base Require Import Bytes BytesFacts Res.
From Verif.Model Require Import Tl ProtoRldp Compression Subscribers Fec RldpTransfer RldpQuery RldpNode.
From Verif.Spec Require Import CompressionSpec FecSpec RldpSpec.
From Verif.Proof Require Import FecFacts RldpParts RldpInFacts RldpOutFacts.
Open Scope N_scope.

(** ** What receiving and sending keep *)

Lemma receive_one_id : forall F t m, it_id (fst (receive_one F t m)) = it_id t.
Proof.
  intros F t m. unfold receive_one, process_chunk, process_part, process_current.
  repeat match goal with
  | |- context [match ?x with _ => _ end] =>
      lazymatch x with context [match _ with _ => _ end] => fail | _ => destruct x; cbn end
  end; reflexivity.
Qed.

Lemma send_step_id : forall F slice ck s ev,
  ot_id (se_transfer (fst (send_step F slice ck s ev))) = ot_id (se_transfer s).
Proof.
  intros F slice ck s ev. destruct ev; cbn [send_step fst se_transfer set_state ot_id]; try reflexivity.
  - destruct (se_point s); try reflexivity.
    + unfold start_next_part. destruct (is_finished slice (se_transfer s)); [reflexivity|]. cbv zeta.
      destruct (N.of_nat (length (ot_data (se_transfer s))) <=? _); [reflexivity|].
      match goal with |- context [if ?b then _ else _] => destruct b end; reflexivity.
    + unfold prepare_chunk. destruct (ot_encoder (se_transfer s)) as [e|]; [|reflexivity].
      destruct (encode F e (os_out (ot_state (se_transfer s)))) as [[sq d] e'].
      destruct (ck && (sq <? os_in (ot_state (se_transfer s)))); reflexivity.
    + destruct (is_finished_or_next_part slice (se_transfer s) part) as [[|]|]; reflexivity.
  - destruct (se_point s); reflexivity.
  - destruct (se_point s); reflexivity.
Qed.

(** A sender of [d]. *)
Definition sender_honest (slice : N) (d : bytes) (s : sender) : Prop :=
  ot_data (se_transfer s) = d
  /\ match ot_encoder (se_transfer s) with
     | Some e => en_data e = part_of slice d (ot_current (se_transfer s))
                 /\ ot_current (se_transfer s) < part_count slice d
     | None => True
     end.

Lemma sender_honest_new : forall slice id d, sender_honest slice d (sender_new id d).
Proof. intros. split; [reflexivity|exact I]. Qed.

Lemma sender_honest_step : forall F slice ck d s ev, 0 < slice -> sender_honest slice d s ->
  sender_honest slice d (fst (send_step F slice ck s ev))
  /\ forall m, snd (send_step F slice ck s ev) = Some m -> honest F slice d m.
Proof.
  intros F slice ck d s ev Hs [H1 H2].
  assert (Hsame : forall st p, sender_honest slice d (mk_sender (set_state (se_transfer s) st) p)).
  { intros st p. split; [exact H1|exact H2]. }
  assert (Hp : forall p, sender_honest slice d (mk_sender (se_transfer s) p)).
  { intros p. split; [exact H1|exact H2]. }
  assert (Hss : sender_honest slice d s) by (split; assumption).
  destruct ev; cbn [send_step]; try (split; [apply Hsame|discriminate]).
  - destruct (se_point s) as [| |part|part| | |].
    + unfold start_next_part. destruct (is_finished slice (se_transfer s)); [split; [apply Hp|discriminate]|].
      cbv zeta. rewrite H1.
      destruct (N.leb_spec (N.of_nat (length d)) (os_part (ot_state (se_transfer s)) * slice)) as [E|E];
        [split; [apply Hp|discriminate]|].
      assert (G : sender_honest slice d (mk_sender (mk_outgoing (ot_id (se_transfer s)) d (os_part (ot_state (se_transfer s)))
        (Some (encoder_new (firstn (N.to_nat (N.min (N.of_nat (length d) - os_part (ot_state (se_transfer s)) * slice) slice))
             (skipn (N.to_nat (os_part (ot_state (se_transfer s)) * slice)) d)))) (ot_state (se_transfer s))) AtPart)).
      { split; [reflexivity|]. cbn [se_transfer ot_encoder ot_current encoder_new en_data]. split.
        - apply part_of_cut; lia.
        - apply part_count_spec; assumption. }
      destruct G as [G1 G2].
      match goal with |- context [if ?b then _ else _] => destruct b end; (split; [split; assumption|discriminate]).
    + split; [apply Hp|discriminate].
    + destruct (prepare_chunk F ck (se_transfer s)) as [t' m| |] eqn:Ep; [|split; [apply Hp|discriminate]..].
      destruct (ot_encoder (se_transfer s)) as [e|] eqn:Ee; [|unfold prepare_chunk in Ep; rewrite Ee in Ep; discriminate].
      destruct (prepare_chunk_ready F ck _ e t' m Ee Ep) as (e' & A1 & A2 & A3 & A4 & _ & _ & _ & _ & A9 & _).
      destruct H2 as [B1 B2]. cbn [fst snd]. split.
      * split; [cbn [se_transfer]; congruence|]. cbn [se_transfer]. rewrite A1, A2, A4. split; assumption.
      * intros m' Hm. injection Hm as <-. rewrite A9, B1, H1.
        exists (ot_current (se_transfer s)), (ch_seqno m). split; [exact B2|reflexivity].
    + destruct (is_finished_or_next_part slice (se_transfer s) part) as [[|]|]; (split; [apply Hp|discriminate]).
    + split; [exact Hss|discriminate].
    + split; [exact Hss|discriminate].
    + split; [exact Hss|discriminate].
  - destruct (se_point s); (split; [first [exact Hss|apply Hp]|discriminate]).
  - destruct (se_point s); (split; [first [exact Hss|apply Hp]|discriminate]).
Qed.

(** ** The node *)

Section Good.
Context (F : fec) (HF : fec_ok F) (slice : N) (Hs : 0 < slice) (Hs32 : slice < u32_max) (checked : bool).

(** What transfers are expected to carry: nothing is said, no chunk at all, or this. *)
Context (hin hout : bytes -> option (option bytes)).
Context (Hin : forall id d, hin id = Some (Some d) -> d <> []).

Definition chunk_good (h : bytes -> option (option bytes)) (id : bytes) (m : chunk) : Prop :=
  match h id with None => True | Some None => False | Some (Some d) => honest F slice d m end.
Definition content_good (h : bytes -> option (option bytes)) (id x : bytes) : Prop :=
  match h id with None => True | Some None => False | Some (Some d) => x = d end.
Definition receiver_good (rc : receiver) : Prop :=
  match hin (it_id (rc_transfer rc)) with
  | None => True
  | Some None => rc_queue rc = [] /\ it_data (rc_transfer rc) = [] /\ incoming_done (rc_transfer rc) = false
  | Some (Some d) =>
      List.Forall (honest F slice d) (rc_queue rc)
      /\ (rc_finished rc = false -> live F slice d (rc_transfer rc))
      /\ (live F slice d (rc_transfer rc) \/ finished slice d (rc_transfer rc))
  end.
Definition sender_good (o : out_task) : Prop :=
  match hout (ot_id (se_transfer (ou_sender o))) with
  | None => True
  | Some None => False
  | Some (Some d) => sender_honest slice d (ou_sender o)
  end.
Definition rc_ids (n : rldp_node) : list bytes := (fun rc => it_id (rc_transfer rc)) <$> rn_receivers n.

Record good (n : rldp_node) : Prop := {
  g_receivers : forall r rc, rn_receivers n !! r = Some rc -> receiver_good rc;
  g_senders : forall s o, rn_senders n !! s = Some o -> sender_good o;
  g_table : forall id r, rn_table n !! id = Some (TIncoming r) -> rc_ids n !! r = Some id;
  g_answers : forall k a, rn_answers n !! k = Some a ->
    rc_ids n !! an_receiver a = Some (an_id a) /\ hin (an_id a) <> Some None
    /\ forall x, an_stage a = ASleeping (Some x) -> x = negate_id (an_id a)
}.

Lemma good_new : good rldp_node_new.
Proof.
  constructor; cbn; intros.
  - rewrite lookup_nil in H. discriminate.
  - rewrite lookup_nil in H. discriminate.
  - rewrite lookup_empty in H. discriminate.
  - rewrite lookup_nil in H. discriminate.
Qed.

(** What is sent. *)
Definition sent_good (out : list (bytes * message_part)) : Prop :=
  forall peer id fec part total seqno data, In (peer, MpPart id fec part total seqno data) out ->
    chunk_good hout id (mk_chunk fec part total seqno data).

Lemma sent_good_app : forall a b, sent_good a -> sent_good b -> sent_good (a ++ b).
Proof. intros a b Ha Hb peer id f p t s d H. apply in_app_or in H as [H|H]; [eapply Ha|eapply Hb]; exact H. Qed.
Lemma sent_good_nil : sent_good [].
Proof. intros peer id f p t s d []. Qed.

(** A list with one element replaced. *)
Lemma insert_cases : forall A (l : list A) k x j y, <[k := x]> l !! j = Some y -> y = x \/ l !! j = Some y.
Proof.
  intros A l k x j y H. apply list_lookup_insert_Some in H as [(_ & -> & _)|(_ & H)]; [left; reflexivity|right; exact H].
Qed.
Lemma snoc_cases : forall A (l : list A) x j y, (l ++ [x]) !! j = Some y -> y = x \/ l !! j = Some y.
Proof.
  intros A l x j y H. apply lookup_app_Some in H as [H|[_ H]]; [right; exact H|left].
  apply list_lookup_singleton_Some in H as [_ H]. congruence.
Qed.

(** Only the queries or the log change. *)
Lemma good_queries : forall n l, good n -> good (set_queries n l).
Proof. intros n l []. constructor; assumption. Qed.
Lemma good_asked : forall n l, good n -> good (set_asked n l).
Proof. intros n l []. constructor; assumption. Qed.

(** Table entries change, but not to an incoming transfer. *)
Lemma good_done : forall n id, good n -> good (set_table n (<[id := TDone]> (rn_table n))).
Proof.
  intros n id []. constructor; try assumption. cbn [rn_table set_table]. intros k r H.
  apply lookup_insert_Some in H as [[_ H]|[_ H]]; [discriminate|]. now apply g_table0.
Qed.
Lemma good_outgoing : forall n id s, good n -> good (set_table n (<[id := TOutgoing s]> (rn_table n))).
Proof.
  intros n id s []. constructor; try assumption. cbn [rn_table set_table]. intros k r H.
  apply lookup_insert_Some in H as [[_ H]|[_ H]]; [discriminate|]. now apply g_table0.
Qed.
Lemma good_delete : forall n id, good n -> good (set_table n (delete id (rn_table n))).
Proof.
  intros n id []. constructor; try assumption. cbn [rn_table set_table]. intros k r H.
  apply lookup_delete_Some in H as [_ H]. now apply g_table0.
Qed.

(** A receiver changes, not its id. *)
Lemma rc_ids_insert : forall n r rc rc', rn_receivers n !! r = Some rc ->
  it_id (rc_transfer rc') = it_id (rc_transfer rc) ->
  rc_ids (set_receivers n (<[r := rc']> (rn_receivers n))) = rc_ids n.
Proof.
  intros n r rc rc' H He. unfold rc_ids. cbn [rn_receivers set_receivers].
  rewrite list_fmap_insert. apply list_insert_id. rewrite list_lookup_fmap, H. cbn. now rewrite He.
Qed.
Lemma good_receiver : forall n r rc rc', good n -> rn_receivers n !! r = Some rc ->
  it_id (rc_transfer rc') = it_id (rc_transfer rc) -> receiver_good rc' ->
  good (set_receivers n (<[r := rc']> (rn_receivers n))).
Proof.
  intros n r rc rc' [] H He Hg. pose proof (rc_ids_insert n r rc rc' H He) as Hids. constructor.
  - cbn [rn_receivers set_receivers]. intros j x Hx. apply insert_cases in Hx as [->|Hx]; [exact Hg|eauto].
  - assumption.
  - rewrite Hids. assumption.
  - rewrite Hids. assumption.
Qed.

Lemma good_sender : forall n s o o', good n -> rn_senders n !! s = Some o -> sender_good o' ->
  good (set_senders n (<[s := o']> (rn_senders n))).
Proof.
  intros n s o o' [] H Hg. constructor; try assumption.
  cbn [rn_senders set_senders]. intros j x Hx. apply insert_cases in Hx as [->|Hx]; [exact Hg|eauto].
Qed.

Lemma good_answer_stage : forall n k a st tm, good n -> rn_answers n !! k = Some a ->
  (forall x, st = ASleeping (Some x) -> x = negate_id (an_id a)) ->
  good (set_answers n (<[k := mk_answer_run (an_peer a) (an_id a) (an_receiver a) st tm]> (rn_answers n))).
Proof.
  intros n k a st tm [] H Hst. constructor; try assumption.
  cbn [rn_answers set_answers]. intros j x Hx. apply insert_cases in Hx as [->|Hx]; [|now apply (g_answers0 j)].
  cbn [an_receiver an_id an_stage]. destruct (g_answers0 k a H) as (A & B & _). split; [exact A|]. split; [exact B|exact Hst].
Qed.

(** Senders. *)
Lemma sender_event_good : forall n s ev, good n ->
  good (fst (sender_event F slice checked n s ev)) /\ sent_good (snd (sender_event F slice checked n s ev)).
Proof.
  intros n s ev Hg. unfold sender_event. destruct (rn_senders n !! s) as [o|] eqn:E; [|split; [exact Hg|apply sent_good_nil]].
  pose proof (g_senders n Hg s o E) as Ho. unfold sender_good in Ho.
  pose proof (send_step_id F slice checked (ou_sender o) ev) as Hid.
  pose proof (fun d => sender_honest_step F slice checked d (ou_sender o) ev Hs) as Hst.
  destruct (send_step F slice checked (ou_sender o) ev) as [sd out]. cbn [fst snd] in *. split.
  - apply (good_sender n s o); [exact Hg|exact E|]. unfold sender_good. cbn [ou_sender]. rewrite Hid.
    destruct (hout (ot_id (se_transfer (ou_sender o)))) as [[d|]|]; [|exact Ho|exact I]. now apply Hst.
  - destruct out as [m|]; [|apply sent_good_nil]. intros peer id f p t q d [Hin1|[]].
    injection Hin1 as _ <- <- <- <- <- <-. unfold chunk_good.
    destruct (hout (ot_id (se_transfer (ou_sender o)))) as [[d|]|]; [|exact Ho|exact I].
    destruct (Hst d Ho) as [_ Hm]. destruct m as [a b c e g]. exact (Hm _ eq_refl).
Qed.

Lemma handle_report_good : forall n id ev, good n ->
  good (fst (handle_report F slice checked n id ev)) /\ sent_good (snd (handle_report F slice checked n id ev)).
Proof.
  intros n id ev Hg. unfold handle_report.
  destruct (rn_table n !! id) as [[r|s|]|]; try (split; [exact Hg|apply sent_good_nil]).
  now apply sender_event_good.
Qed.

Lemma receiver_new_good : forall peer id max nt q, (forall m, In m q -> chunk_good hin id m) ->
  receiver_good (receiver_new peer id max nt q).
Proof.
  intros peer id max nt q Hq. unfold receiver_good, receiver_new, chunk_good in *. cbn [rc_transfer it_id incoming_new rc_queue rc_finished].
  destruct (hin id) as [[d|]|] eqn:E; [| |exact I].
  - assert (Hl : live F slice d (incoming_new id max)) by (apply new_live; [exact Hs|exact Hs32|eapply Hin; exact E]).
    split; [now apply List.Forall_forall|]. split; [intros _; exact Hl|left; exact Hl].
  - split; [|split; reflexivity]. destruct q as [|m q]; [reflexivity|]. destruct (Hq m (or_introl eq_refl)).
Qed.

Lemma handle_chunk_good : forall o n peer id m, good n -> chunk_good hin id m ->
  good (fst (handle_chunk o n peer id m)) /\ sent_good (snd (handle_chunk o n peer id m)).
Proof.
  intros o n peer id m Hg Hm. unfold handle_chunk.
  assert (Hblind : sent_good [(peer, MpConfirm id (ch_part m) (ch_seqno m)); (peer, MpComplete id (ch_part m))]).
  { intros p i f a b c d [H|[H|[]]]; discriminate. }
  destruct (rn_table n !! id) as [[r|s|]|] eqn:Et; cbn [fst snd]; try (split; [exact Hg|exact Hblind]).
  - destruct (rn_receivers n !! r) as [rc|] eqn:Er; cbn [fst snd]; (split; [|apply sent_good_nil]); [|exact Hg].
    destruct (rc_finished rc) eqn:Ef; [exact Hg|].
    apply (good_receiver n r rc); [exact Hg|exact Er|reflexivity|].
    pose proof (g_table n Hg id r Et) as Hid. unfold rc_ids in Hid. rewrite list_lookup_fmap, Er in Hid. cbn in Hid. injection Hid as Hid.
    pose proof (g_receivers n Hg r rc Er) as Hr. unfold receiver_good in *. cbn [rc_transfer rc_queue rc_finished].
    rewrite Hid in *. unfold chunk_good in Hm. destruct (hin id) as [[d|]|]; [|contradiction|exact I].
    destruct Hr as (R1 & R2 & R3). split; [|split].
    + apply List.Forall_app. split; [exact R1|]. constructor; [exact Hm|constructor].
    + intros _. now apply R2.
    + exact R3.
  - split; [|apply sent_good_nil].
    assert (Hids : rc_ids (mk_rldp_node (<[id := TIncoming (length (rn_receivers n))]> (rn_table n))
       (rn_receivers n ++ [receiver_new peer id (ro_max_answer o) None [m]]) (rn_senders n) (rn_queries n)
       (rn_answers n ++ [mk_answer_run peer id (length (rn_receivers n)) AReceiving true]) (rn_asked n))
       = rc_ids n ++ [id]).
    { unfold rc_ids. cbn [rn_receivers]. rewrite fmap_app. reflexivity. }
    assert (Hlast : (rc_ids n ++ [id]) !! length (rn_receivers n) = Some id).
    { rewrite lookup_app_r; unfold rc_ids; rewrite fmap_length; [|lia]. now rewrite Nat.sub_diag. }
    destruct Hg. constructor; cbn [rn_receivers rn_senders rn_answers rn_table]; rewrite ?Hids.
    + intros j x Hx. apply snoc_cases in Hx as [->|Hx]; [|eauto].
      apply receiver_new_good. intros c [<-|[]]. exact Hm.
    + assumption.
    + intros k r H. apply lookup_insert_Some in H as [[<- H]|[_ H]].
      * injection H as <-. exact Hlast.
      * apply lookup_app_l_Some. now apply g_table0.
    + intros k a H. apply snoc_cases in H as [->|H].
      * cbn [an_receiver an_id an_stage]. split; [exact Hlast|]. split; [|discriminate].
        unfold chunk_good in Hm. intros Hc. rewrite Hc in Hm. exact Hm.
      * destruct (g_answers0 k a H) as (A & B & C). split; [now apply lookup_app_l_Some|]. split; assumption.
Qed.

(** Receivers. *)
Lemma receiver_step_good : forall rc m rest, receiver_good rc -> rc_finished rc = false -> rc_queue rc = m :: rest ->
  forall t reply, receive_one F (rc_transfer rc) m = (t, reply) ->
  receiver_good (mk_receiver (rc_peer rc) t (if incoming_done t then [] else rest) None (incoming_done t)).
Proof.
  intros rc m rest Hg Hf Hq t reply Ht. unfold receiver_good in *. cbn [rc_transfer rc_queue rc_finished].
  pose proof (receive_one_id F (rc_transfer rc) m) as Hid. rewrite Ht in Hid. cbn [fst] in Hid. rewrite Hid.
  destruct (hin (it_id (rc_transfer rc))) as [[d|]|] eqn:E; [| |exact I].
  - destruct Hg as (G1 & G2 & _). specialize (G2 Hf). rewrite Hq in G1. inversion G1 as [|? ? Hm Hrest]. subst.
    destruct Hm as (j & i & Hj & ->).
    pose proof (receive_one_live F HF slice Hs Hs32 d (rc_transfer rc) j i G2 Hj) as H. rewrite Ht in H.
    destruct H as [[_ [H|(H & _)]] _].
    + rewrite (finished_done slice d t H). split; [constructor|]. split; [discriminate|]. right. exact H.
    + rewrite (live_not_done F slice Hs Hs32 d t H). split; [exact Hrest|]. split; [intros _; exact H|left; exact H].
  - destruct Hg as (G1 & _). rewrite Hq in G1. discriminate.
Qed.

Lemma receiver_turn_good : forall n r, good n ->
  good (fst (receiver_turn F slice checked n r)) /\ sent_good (snd (receiver_turn F slice checked n r)).
Proof.
  intros n r Hg. unfold receiver_turn. destruct (rn_receivers n !! r) as [rc|] eqn:Er; [|split; [exact Hg|apply sent_good_nil]].
  pose proof (g_receivers n Hg r rc Er) as Hr.
  destruct (rc_finished rc) eqn:Ef; [split; [exact Hg|apply sent_good_nil]|].
  destruct (rc_queue rc) as [|m rest] eqn:Eq.
  - cbn [fst snd]. split; [|apply sent_good_nil]. destruct (channel_open n r); [exact Hg|].
    apply (good_receiver n r rc); [exact Hg|exact Er|reflexivity|]. unfold receiver_good in *. cbn [rc_transfer rc_queue rc_finished].
    destruct (hin (it_id (rc_transfer rc))) as [[d|]|]; [|tauto|exact I]. destruct Hr as (R1 & R2 & R3).
    split; [constructor|]. split; [discriminate|exact R3].
  - destruct (receive_one F (rc_transfer rc) m) as [t reply] eqn:Et.
    pose proof (receiver_step_good rc m rest Hr Ef Eq t reply Et) as Hrc.
    pose proof (receive_one_id F (rc_transfer rc) m) as Hid. rewrite Et in Hid. cbn [fst] in Hid.
    cbv zeta.
    set (n1 := set_receivers n _).
    assert (Hn1 : good n1) by (apply (good_receiver n r rc); [exact Hg|exact Er|exact Hid|exact Hrc]).
    assert (Hno : sent_good match reply with Some x => [(rc_peer rc, x)] | None => [] end).
    { destruct reply as [x|]; [|apply sent_good_nil]. intros p i f a b c d [H|[]]. injection H as _ ->.
      exfalso. clear - Et. unfold receive_one in Et. destruct (process_chunk F (rc_transfer rc) m) as [t' r0] eqn:Ep.
      injection Et as _ Er. destruct r0 as [o|]; [|discriminate]. subst o. revert Ep.
      unfold process_chunk, process_part, process_current.
      repeat match goal with
      | |- context [match ?x with _ => _ end] =>
          lazymatch x with context [match _ with _ => _ end] => fail | _ => destruct x; cbn end
      end; discriminate. }
    destruct (rc_notify rc) as [s|]; cbn [fst snd]; (split; [|exact Hno]); [|exact Hn1].
    now apply sender_event_good.
Qed.

(** Queries and answers. *)
Lemma query_turn_good : forall n k gu, good n -> good (query_turn n k gu).
Proof.
  intros n k gu Hg. unfold query_turn, put_query. destruct (rn_queries n !! k) as [q|]; [|exact Hg]. cbv zeta.
  destruct (qr_stage q).
  - destruct (sender_result n (qr_sender q)) as [[[|]|]|]; [| | |exact Hg]; apply good_queries.
    + now apply good_done.
    + apply (good_done (set_table n _)). now apply good_done.
    + apply (good_done (set_table n _)). now apply good_done.
  - destruct gu; [apply good_queries; now apply good_done|].
    destruct (rn_receivers n !! qr_receiver q) as [rc|]; [|exact Hg].
    destruct (rc_finished rc); [|exact Hg]. apply good_queries. now apply good_done.
  - apply good_queries. apply (good_delete (set_table n _)). now apply good_delete.
  - exact Hg.
Qed.

Lemma timer_good : forall n k, good n -> good (timer_fires n k).
Proof.
  intros n k Hg. unfold timer_fires. destruct (rn_answers n !! k) as [a|] eqn:E; [|exact Hg].
  destruct (an_timer a); [|exact Hg].
  apply (good_answer_stage (set_table n _) k a); [now apply good_done|exact E|].
  intros x Hx. now apply (g_answers n Hg k a E).
Qed.

(** What the subscribers may answer. *)
Definition answer_allowed {E} (z : zstd) (o : rldp_options) (n : rldp_node) (k : nat) (subs : list (subscriber E)) : Prop :=
  forall a rc q max p x, rn_answers n !! k = Some a -> an_stage a = AProcessing ->
    rn_receivers n !! an_receiver a = Some rc -> query_from_data (it_data (rc_transfer rc)) = Some (q, max, p) ->
    fst (process_rldp_query z subs (ro_force o) q max p) = Ok (Processed (Some x)) ->
    content_good hout (negate_id (an_id a)) x.

Lemma answer_turn_good : forall E z o (subs : list (subscriber E)) n k, good n -> answer_allowed z o n k subs ->
  good (answer_turn z o subs n k).
Proof.
  intros E z o subs n k Hg Ha. unfold answer_turn, put_answer. destruct (rn_answers n !! k) as [a|] eqn:Ek; [|exact Hg]. cbv zeta.
  destruct (an_stage a) eqn:Es.
  - destruct (rn_receivers n !! an_receiver a) as [rc|]; [|exact Hg]. destruct (rc_finished rc); [|exact Hg].
    apply (good_answer_stage (set_table n _) k a); [now apply good_done|exact Ek|discriminate].
  - destruct (rn_receivers n !! an_receiver a) as [rc|] eqn:Er; [|exact Hg].
    destruct (query_from_data (it_data (rc_transfer rc))) as [[[q max] p]|] eqn:Eq;
      [|apply (good_answer_stage n k a); [exact Hg|exact Ek|discriminate]].
    pose proof (fun x => Ha a rc q max p x Ek Es Er Eq) as Hx.
    destruct (process_rldp_query z subs (ro_force o) q max p) as [r log]. cbn [fst] in Hx.
    assert (Hno : good (set_answers (set_asked n (rn_asked n ++ [(an_peer a, an_id a, log)]))
      (<[k := mk_answer_run (an_peer a) (an_id a) (an_receiver a) (ASleeping None) (an_timer a)]>
         (rn_answers (set_asked n (rn_asked n ++ [(an_peer a, an_id a, log)])))))).
    { apply (good_answer_stage (set_asked n _) k a); [now apply good_asked|exact Ek|discriminate]. }
    destruct r as [[[x|]|]|e]; [|exact Hno|exact Hno|exact Hno].
    specialize (Hx x eq_refl). set (n1 := set_asked n _). set (n2 := set_table n1 _). set (n3 := set_senders n2 _).
    assert (H3 : good n3).
    { assert (H2 : good n2) by (apply good_outgoing; now apply good_asked).
      destruct H2. constructor; try assumption. cbn [n3 rn_senders set_senders]. intros j y Hy.
      apply snoc_cases in Hy as [->|Hy]; [|eauto]. unfold sender_good. cbn [ou_sender sender_new se_transfer outgoing_new ot_id].
      unfold content_good in Hx. destruct (hout (negate_id (an_id a))) as [[d|]|]; [|exact Hx|exact I].
      subst x. apply sender_honest_new. }
    apply (good_answer_stage n3 k a); [exact H3|exact Ek|discriminate].
  - destruct (sender_result n sender) as [[[|]|]|]; [| | |exact Hg];
      (apply (good_answer_stage n k a); [exact Hg|exact Ek|]); intros x Hx; try discriminate; injection Hx as <-; reflexivity.
  - set (t := match out with Some i => _ | None => _ end).
    assert (Ht : good (set_table n t)).
    { unfold t. destruct out; [now apply good_delete|]. destruct Hg; constructor; assumption. }
    apply (good_answer_stage (set_table n (delete (an_id a) t)) k a); [exact (good_delete _ (an_id a) Ht)|exact Ek|discriminate].
  - exact Hg.
Qed.

Definition allowed {E} (z : zstd) (o : rldp_options) (n : rldp_node) (ev : rldp_event E) : Prop :=
  match ev with
  | NQuery _ id qid now p =>
      content_good hout id (make_query z (ro_force o) (ro_max_answer o) (ro_max_timeout o) qid now p)
  | NMessage _ (MpPart id fec part total seqno data) => chunk_good hin id (mk_chunk fec part total seqno data)
  | NAnswerTurn k subs => answer_allowed z o n k subs
  | _ => True
  end.

Lemma start_query_good : forall z o n peer id qid now p, good n ->
  content_good hout id (make_query z (ro_force o) (ro_max_answer o) (ro_max_timeout o) qid now p) ->
  good (start_query z o n peer id qid now p).
Proof.
  intros z o n peer id qid now p Hg Hc. unfold start_query. cbv zeta.
  set (d := make_query _ _ _ _ _ _ _) in *.
  match goal with |- good ?m => assert (Hids : rc_ids m = rc_ids n ++ [negate_id id]) end.
  { unfold rc_ids. cbn [rn_receivers]. rewrite fmap_app. reflexivity. }
  destruct Hg. constructor; rewrite ?Hids; cbn [rn_receivers rn_senders rn_answers rn_table].
  - intros j x Hx. apply snoc_cases in Hx as [->|Hx]; [|eauto]. apply receiver_new_good. intros c [].
  - intros j x Hx. apply snoc_cases in Hx as [->|Hx]; [|eauto].
    unfold sender_good. cbn [ou_sender sender_new se_transfer outgoing_new ot_id].
    unfold content_good in Hc. destruct (hout id) as [[e|]|]; [|exact Hc|exact I]. rewrite <- Hc. apply sender_honest_new.
  - intros k r H. apply lookup_insert_Some in H as [[<- H]|[_ H]].
    + injection H as <-. rewrite lookup_app_r; unfold rc_ids; rewrite fmap_length; [|lia]. now rewrite Nat.sub_diag.
    + apply lookup_insert_Some in H as [[_ H]|[_ H]]; [discriminate|]. apply lookup_app_l_Some. now apply g_table0.
  - intros k a H. destruct (g_answers0 k a H) as (A & B & C). split; [now apply lookup_app_l_Some|]. split; assumption.
Qed.

Lemma step_good : forall E z o n (ev : rldp_event E), good n -> allowed z o n ev ->
  good (fst (rldp_step F slice checked z o n ev)) /\ sent_good (snd (rldp_step F slice checked z o n ev)).
Proof.
  intros E z o n ev Hg Ha. destruct ev as [peer id qid now p|peer m|r|s ev|k gu|k subs|k]; cbn [rldp_step fst snd allowed] in *.
  - split; [now apply start_query_good|apply sent_good_nil].
  - destruct m as [id f p t q d|id p q|id p]; cbn [handle_message].
    + now apply handle_chunk_good.
    + now apply handle_report_good.
    + now apply handle_report_good.
  - now apply receiver_turn_good.
  - now apply sender_event_good.
  - split; [now apply query_turn_good|apply sent_good_nil].
  - split; [now apply answer_turn_good|apply sent_good_nil].
  - split; [now apply timer_good|apply sent_good_nil].
Qed.
End Good.
