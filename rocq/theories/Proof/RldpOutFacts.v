(** Outgoing transfers. *)
From Coq Require Import List NArith Arith Bool Lia Sorted.
From Coq Require Import ZifyBool ZifyNat ZifyN.
From Verif.Base Require Import Bytes BytesFacts Res.
From Verif.Model Require Import ProtoRldp Fec RldpTransfer.
From Verif.Spec Require Import FecSpec RldpSpec.
From Verif.Proof Require Import FecFacts RldpParts RldpInFacts.
Import ListNotations.
Open Scope N_scope.

Lemma on_complete_cases : forall s p, p < u32_max ->
  on_complete s p = s
  \/ os_part s = p /\ os_part (on_complete s p) = p + 1
     /\ os_reply (on_complete s p) = os_reply s
  \/ os_part (on_complete s p) = 0 /\ os_reply (on_complete s p) = os_reply s.
Proof.
  intros s p Hp. unfold on_complete, set_part.
  destruct (os_part s =? ((p + 1) mod u32_max + u32_max - 1) mod u32_max) eqn:E; [|left; reflexivity].
  right. cbn [os_part os_reply]. apply N.eqb_eq in E.
  destruct (N.eq_dec (p + 1) u32_max) as [He|Hne].
  - right. split; [|reflexivity]. rewrite He. now apply N.mod_same.
  - left. rewrite (N.mod_small (p + 1)) in * by lia.
    replace (p + 1 + u32_max - 1) with (p + 1 * u32_max) in E by lia.
    rewrite N.mod_add in E by (unfold u32_max; lia). rewrite N.mod_small in E by exact Hp.
    split; [exact E|]. split; reflexivity.
Qed.

Lemma prepare_chunk_ready : forall F ck t e t' m,
  ot_encoder t = Some e -> prepare_chunk F ck t = ChunkReady t' m ->
  exists e',
    ot_encoder t' = Some e' /\ en_data e' = en_data e
    /\ ot_data t' = ot_data t /\ ot_current t' = ot_current t /\ ot_id t' = ot_id t
    /\ os_part (ot_state t') = os_part (ot_state t) /\ os_reply (ot_state t') = os_reply (ot_state t)
    /\ os_in (ot_state t') = os_in (ot_state t)
    /\ m = mk_chunk (fec_params F (en_data e)) (ot_current t) (N.of_nat (length (ot_data t)))
             (ch_seqno m) (fe_symbol F (en_data e) (ch_seqno m))
    /\ (en_sent e < fe_count F (en_data e) /\ ch_seqno m = en_sent e /\ en_sent e' = en_sent e + 1
        \/ fe_count F (en_data e) <= en_sent e /\ ch_seqno m = fe_count F (en_data e) + os_out (ot_state t)
           /\ en_sent e' = en_sent e)
    /\ os_out (ot_state t')
       = (if (ch_seqno m + u32_max - os_in (ot_state t)) mod u32_max <=? WINDOW
          then N.max (os_out (ot_state t))
                 (if os_out (ot_state t) =? ch_seqno m then ch_seqno m + 1 else ch_seqno m)
          else os_out (ot_state t)).
Proof.
  intros F ck t e t' m He. unfold prepare_chunk, encode. rewrite He.
  destruct (en_sent e <? fe_count F (en_data e)) eqn:Es; cbv zeta beta iota;
    match goal with |- (if ?b then _ else _) = _ -> _ => destruct b; [discriminate|] end;
    intros H; injection H as <- <-; cbn [ch_seqno];
    eexists; (split; [reflexivity|]); cbn [en_data en_sent ot_data ot_current ot_id ot_state];
    (split; [reflexivity|]); (split; [reflexivity|]); (split; [reflexivity|]); (split; [reflexivity|]);
    match goal with |- context [if ?b then set_seqno_out _ _ else _] => destruct b end;
    unfold set_seqno_out; cbn [os_part os_reply os_in os_out];
    (split; [reflexivity|]); (split; [reflexivity|]); (split; [reflexivity|]); (split; [reflexivity|]);
    (split; [|reflexivity]).
  1-2: left; repeat split; lia.
  1-2: right; repeat split; lia.
Qed.

Section Sender.
Context (F : fec) (HF : fec_ok F) (slice : N) (Hs : 0 < slice) (Hs32 : slice < u32_max)
  (checked : bool) (data : bytes).

Definition completed (seen : list send_event) (j : N) : Prop := In (EvComplete j) seen.

(** Every part is acknowledged, the last one possibly by the beginning of the answer. *)
Definition all_acknowledged (seen : list send_event) : Prop :=
  forall j, j < part_count slice data ->
    completed seen j \/ j + 1 = part_count slice data /\ In EvReply seen.

Definition send_inv (s : sender) (seen : list send_event) : Prop :=
  let t := se_transfer s in
  ot_data t = data
  /\ (forall j, j < os_part (ot_state t) -> completed seen j)
  /\ (os_reply (ot_state t) = true -> In EvReply seen)
  /\ match ot_encoder t with
     | Some e => en_data e = part_of slice data (ot_current t) /\ ot_current t < part_count slice data
                 /\ forall j, j < ot_current t -> completed seen j
     | None => True
     end
  /\ (se_point s = SentAll -> all_acknowledged seen).

Lemma completed_more : forall seen ev j, completed seen j -> completed (seen ++ [ev]) j.
Proof. intros seen ev j H. apply in_or_app. left. exact H. Qed.

Lemma acknowledged_more : forall seen ev, all_acknowledged seen -> all_acknowledged (seen ++ [ev]).
Proof.
  intros seen ev H j Hj. destruct (H j Hj) as [H1|[H1 H2]]; [left; now apply completed_more|].
  right. split; [exact H1|]. apply in_or_app. now left.
Qed.

(** Same transfer data and encoder, other state or point. *)
Lemma inv_weaken : forall s seen ev t' p',
  send_inv s seen ->
  ot_data t' = ot_data (se_transfer s) -> ot_current t' = ot_current (se_transfer s) ->
  (match ot_encoder (se_transfer s) with Some e => Some (en_data e) | None => None end)
    = (match ot_encoder t' with Some e => Some (en_data e) | None => None end) ->
  (forall j, j < os_part (ot_state t') -> completed (seen ++ [ev]) j) ->
  (os_reply (ot_state t') = true -> In EvReply (seen ++ [ev])) ->
  (p' = SentAll -> all_acknowledged (seen ++ [ev])) ->
  send_inv (mk_sender t' p') (seen ++ [ev]).
Proof.
  intros s seen ev t' p' (I1 & I2 & I3 & I4 & I5) Hd Hc He Hp Hr Hpt. unfold send_inv.
  cbn [se_transfer se_point]. rewrite Hd. split; [exact I1|]. split; [exact Hp|]. split; [exact Hr|].
  split; [|exact Hpt]. rewrite Hc.
  destruct (ot_encoder (se_transfer s)) as [e|], (ot_encoder t') as [e'|]; try discriminate; [|exact I].
  injection He as He. rewrite <- He. destruct I4 as (A & B & C). split; [exact A|]. split; [exact B|].
  intros j Hj. apply completed_more. now apply C.
Qed.

Lemma start_next_part_ok : forall s seen ev, send_inv s seen ->
  let '(t', o) := start_next_part F slice (se_transfer s) in
  match o with
  | Some _ => send_inv (mk_sender t' AtPart) (seen ++ [ev])
  | None => send_inv (mk_sender t' SentAll) (seen ++ [ev])
  end.
Proof.
  intros s seen ev Hi. pose proof Hi as (I1 & I2 & I3 & I4 & I5). unfold start_next_part.
  assert (Hend : all_acknowledged seen ->
            send_inv (mk_sender (se_transfer s) SentAll) (seen ++ [ev])).
  { intros Ha. apply (inv_weaken s); auto.
    - intros j Hj. apply completed_more. now apply I2.
    - intros Hr. apply in_or_app. left. now apply I3.
    - intros _. now apply acknowledged_more. }
  destruct (is_finished slice (se_transfer s)) eqn:Ef.
  - apply Hend. unfold is_finished in Ef. apply andb_true_iff in Ef as [Er El].
    rewrite I1 in El. apply N.leb_le in El.
    intros j Hj. pose proof Hj as Hj'. apply part_count_spec in Hj'; [|exact Hs].
    assert (Hjp : j <= os_part (ot_state (se_transfer s))) by nia.
    destruct (N.eq_dec j (os_part (ot_state (se_transfer s)))) as [He|Hne].
    + right. split; [|now apply I3].
      destruct (N.lt_ge_cases (j + 1) (part_count slice data)) as [Hlt|Hge]; [|lia].
      apply part_count_spec in Hlt; [|exact Hs]. rewrite <- He in El. lia.
    + left. apply I2. lia.
  - rewrite I1. cbv zeta.
    destruct (N.of_nat (length data) <=? os_part (ot_state (se_transfer s)) * slice) eqn:Ep.
    + apply Hend. apply N.leb_le in Ep. intros j Hj. left. apply I2.
      apply part_count_spec in Hj; [|exact Hs]. nia.
    + apply N.leb_gt in Ep. rewrite part_of_cut by lia.
      set (p := os_part (ot_state (se_transfer s))) in *.
      assert (Hp : p < part_count slice data) by (apply part_count_spec; [exact Hs|lia]).
      pose proof (part_of_size slice data p Hs Hp) as Hsz.
      pose proof (fec_count_bounds F (part_of slice data p) HF ltac:(lia) ltac:(lia)) as Hc.
      cbn [ft_packet_count fec_params]. rewrite N.mod_small by lia.
      destruct (0 <? fe_count F (part_of slice data p)) eqn:E0; [|lia].
      unfold send_inv. cbn [se_transfer se_point ot_data ot_state ot_encoder ot_current encoder_new en_data].
      split; [reflexivity|]. split; [intros j Hj; apply completed_more; now apply I2|].
      split; [intros Hr; apply in_or_app; left; now apply I3|].
      split; [|discriminate]. split; [reflexivity|]. split; [exact Hp|].
      intros j Hj. apply completed_more. now apply I2.
Qed.

Lemma send_step_inv : forall s seen ev, send_inv s seen -> event_ok ev ->
  let '(s', out) := send_step F slice checked s ev in
  send_inv s' (seen ++ [ev])
  /\ forall m, out = Some m ->
       honest F slice data m /\ forall j, j < ch_part m -> completed seen j.
Proof.
  intros s seen ev Hi Hev. pose proof Hi as (I1 & I2 & I3 & I4 & I5).
  assert (P2 : forall j, j < os_part (ot_state (se_transfer s)) -> completed (seen ++ [ev]) j)
    by (intros j Hj; apply completed_more; now apply I2).
  assert (P3 : os_reply (ot_state (se_transfer s)) = true -> In EvReply (seen ++ [ev]))
    by (intros Hr; apply in_or_app; left; now apply I3).
  assert (P5 : se_point s = SentAll -> all_acknowledged (seen ++ [ev]))
    by (intros Hp; apply acknowledged_more; now apply I5).
  assert (Hsame : send_inv s (seen ++ [ev])) by (destruct s; apply (inv_weaken _ _ _ _ _ Hi); auto).
  assert (Hpt : forall p, (p = SentAll -> se_point s = SentAll) ->
            send_inv (mk_sender (se_transfer s) p) (seen ++ [ev])) by (intros p Hp; apply (inv_weaken s); auto).
  destruct ev as [| | |part seqno|part|]; cbn [send_step].
  - (* the loop *)
    destruct (se_point s) as [| |part|part| | |] eqn:Ep.
    + pose proof (start_next_part_ok s seen EvStep Hi) as H.
      destruct (start_next_part F slice (se_transfer s)) as [t' [n|]]; (split; [exact H|discriminate]).
    + split; [|discriminate]. now apply Hpt.
    + destruct (prepare_chunk F checked (se_transfer s)) as [t' m| |] eqn:Epc.
      * assert (He : exists e, ot_encoder (se_transfer s) = Some e).
        { unfold prepare_chunk in Epc. destruct (ot_encoder (se_transfer s)); [eexists; reflexivity|discriminate]. }
        destruct He as [e He].
        destruct (prepare_chunk_ready F checked _ e t' m He Epc)
          as (e' & A1 & A2 & A3 & A4 & A5 & A6 & A7 & A8 & A9 & _).
        rewrite He in I4. destruct I4 as (B1 & B2 & B3). split.
        -- apply (inv_weaken s); auto.
           ++ rewrite He, A1. now rewrite A2.
           ++ rewrite A6. exact P2.
           ++ rewrite A7. exact P3.
           ++ discriminate.
        -- intros m' Hm. injection Hm as <-. rewrite A9, B1, I1. split.
           ++ exists (ot_current (se_transfer s)), (ch_seqno m). split; [exact B2|reflexivity].
           ++ cbn [ch_part]. exact B3.
      * split; [|discriminate]. apply Hpt. discriminate.
      * split; [|discriminate]. apply Hpt. discriminate.
    + destruct (is_finished_or_next_part slice (se_transfer s) part) as [[|]|];
        (split; [|discriminate]); apply Hpt; discriminate.
    + split; [exact Hsame|discriminate].
    + split; [exact Hsame|discriminate].
    + split; [exact Hsame|discriminate].
  - destruct (se_point s); (split; [|discriminate]); try exact Hsame. apply Hpt. discriminate.
  - destruct (se_point s); (split; [|discriminate]); try exact Hsame. apply Hpt. discriminate.
  - (* Confirm *)
    split; [|discriminate]. apply (inv_weaken s); auto; cbn [set_state ot_state];
      unfold on_confirm, set_seqno_in;
      destruct (os_part (ot_state (se_transfer s)) =? part); try assumption;
      destruct (os_out (ot_state (se_transfer s)) <? seqno); assumption.
  - (* Complete *)
    split; [|discriminate]. cbn [event_ok] in Hev.
    destruct (on_complete_cases (ot_state (se_transfer s)) part Hev) as [He|[(H1 & H2 & H3)|(H1 & H2)]].
    + rewrite He. apply (inv_weaken s); auto.
    + apply (inv_weaken s); auto; cbn [set_state ot_state]; [|now rewrite H3].
      rewrite H2. intros j Hj. destruct (N.eq_dec j part) as [->|Hne].
      * apply in_or_app. right. left. reflexivity.
      * apply P2. lia.
    + apply (inv_weaken s); auto; cbn [set_state ot_state]; [|now rewrite H2].
      rewrite H1. intros j Hj. lia.
  - (* Reply *)
    split; [|discriminate]. apply (inv_weaken s); auto; cbn [set_state ot_state set_reply os_part os_reply].
    intros _. apply in_or_app. right. left. reflexivity.
Qed.

Lemma send_run_inv : forall evs s seen, send_inv s seen -> Forall event_ok evs ->
  let '(s', ms) := send_run F slice checked s evs in
  send_inv s' (seen ++ evs)
  /\ Forall (fun m => honest F slice data m /\ forall j, j < ch_part m -> completed (seen ++ evs) j) ms.
Proof.
  intros evs. induction evs as [|ev evs IH]; intros s seen Hi Hok.
  - cbn [send_run]. rewrite app_nil_r. split; [exact Hi|constructor].
  - inversion Hok as [|? ? Hev Hok']; subst. cbn [send_run].
    pose proof (send_step_inv s seen ev Hi Hev) as H.
    destruct (send_step F slice checked s ev) as [s1 out]. destruct H as [H1 H2].
    specialize (IH s1 (seen ++ [ev]) H1 Hok'). destruct (send_run F slice checked s1 evs) as [s2 ms].
    rewrite <- app_assoc in IH. destruct IH as [IH1 IH2]. split; [exact IH1|].
    destruct out as [m|]; [|exact IH2]. constructor; [|exact IH2].
    destruct (H2 m eq_refl) as [G1 G2]. split; [exact G1|].
    intros j Hj. apply in_or_app. left. now apply G2.
Qed.

Lemma send_run_new : forall id evs, Forall event_ok evs ->
  let '(s, ms) := send_run F slice checked (sender_new id data) evs in
  (se_point s = SentAll -> all_acknowledged evs)
  /\ Forall (fun m => honest F slice data m /\ forall j, j < ch_part m -> In (EvComplete j) evs) ms.
Proof.
  intros id evs Hok.
  assert (Hi : send_inv (sender_new id data) []).
  { unfold send_inv. cbn. repeat split; try discriminate; intros; lia. }
  pose proof (send_run_inv evs _ [] Hi Hok) as H.
  destruct (send_run F slice checked (sender_new id data) evs) as [s ms]. destruct H as [H1 H2].
  split; [apply H1|exact H2].
Qed.

(** Sender and receiver together: acknowledgements that the receiver sent, chunks that the sender sent. *)
Lemma transfer_delivers : forall id rid max evs ms,
  let '(s, sent) := send_run F slice checked (sender_new id data) evs in
  let '(t, replies) := receive F (incoming_new rid max) ms in
  Forall event_ok evs ->
  (forall m, In m ms -> In m sent) ->
  (forall j, In (EvComplete j) evs -> exists k, In (MpComplete k j) replies) ->
  ~ In EvReply evs -> data <> [] ->
  se_point s = SentAll ->
  incoming_done t = true /\ it_data t = data.
Proof.
  intros id rid max evs ms.
  destruct (send_run F slice checked (sender_new id data) evs) as [s sent] eqn:E1.
  destruct (receive F (incoming_new rid max) ms) as [t replies] eqn:E2.
  intros Hok Hms Hcm Hnr Hd Hpt.
  pose proof (send_run_new id evs Hok) as H. rewrite E1 in H. destruct H as [H1 H2].
  assert (Hh : Forall (honest F slice data) ms).
  { apply Forall_forall. intros m Hm. rewrite Forall_forall in H2. apply (H2 m (Hms m Hm)). }
  pose proof (receive_honest F HF slice Hs Hs32 data rid max ms Hh) as HR. rewrite E2 in HR.
  destruct HR as [(R1 & R2 & R3 & R4)|[R1 R2]]; [|tauto].
  exfalso. set (n := part_count slice data) in *.
  assert (Hn : 0 < n).
  { unfold n. apply part_count_spec; [exact Hs|]. destruct data; [congruence|cbn [length]; lia]. }
  destruct (H1 Hpt (n - 1)) as [Hc|[_ Hc]]; [unfold n in *; lia| |contradiction].
  destruct (Hcm _ Hc) as [k Hk]. specialize (R4 k (n - 1) Hk).
  pose proof (receive_live F HF slice Hs Hs32 data ms (incoming_new rid max)
                (new_live F slice Hs Hs32 data rid max Hd) Hh) as HL. rewrite E2 in HL.
  destruct HL as [[_ [Hf|[Hl _]]] _].
  - pose proof (finished_done slice data t Hf). congruence.
  - destruct Hl as (L & _). unfold n in *. lia.
Qed.
End Sender.

(** ** The symbols of one part *)

Section Symbols.
Context (F : fec) (checked : bool).

(** Number of the next symbol. *)
Definition next_symbol (t : outgoing) (e : encoder) : N :=
  if en_sent e <? fe_count F (en_data e) then en_sent e else fe_count F (en_data e) + os_out (ot_state t).

Definition increasing (l : list N) : Prop := StronglySorted N.lt l.

Lemma confirm_same : forall s p q,
  os_out (on_confirm s p q) = os_out s
  /\ os_in s <= os_in (on_confirm s p q)
  /\ (os_in s <= os_out s -> os_in (on_confirm s p q) <= os_out s)
  /\ (os_out s < q -> os_in (on_confirm s p q) = os_in s).
Proof.
  intros s p q. unfold on_confirm, set_seqno_in.
  destruct (os_part s =? p); [|lia].
  destruct (os_out s <? q) eqn:E; [lia|]. cbn [os_out os_in]. lia.
Qed.

Lemma complete_same : forall s p, os_out (on_complete s p) = os_out s /\ os_in (on_complete s p) = os_in s.
Proof.
  intros s p. unfold on_complete, set_part. destruct (os_part s =? _); cbn [os_out os_in]; tauto.
Qed.

Lemma window_increasing : forall evs t e,
  ot_encoder t = Some e -> 0 < fe_count F (en_data e) -> en_sent e <= fe_count F (en_data e) ->
  window_kept F checked t evs ->
  let ms := snd (part_run F checked t evs) in
  increasing (map ch_seqno ms) /\ Forall (fun q => next_symbol t e <= q) (map ch_seqno ms).
Proof.
  intros evs. induction evs as [|ev evs IH]; intros t e He Hk Hle Hw.
  - cbn. split; constructor.
  - destruct ev as [|p q|p|].
    + cbn [part_run window_kept] in *.
      destruct (prepare_chunk F checked t) as [t' m| |] eqn:Ep; [|cbn; split; constructor|cbn; split; constructor].
      destruct Hw as (W1 & W2 & W3).
      destruct (prepare_chunk_ready F checked t e t' m He Ep)
        as (e' & A1 & A2 & A3 & A4 & A5 & A6 & A7 & A8 & A9 & A10 & A11).
      assert (Hwin : ((ch_seqno m + u32_max - os_in (ot_state t)) mod u32_max <=? WINDOW) = true).
      { apply N.leb_le. replace (ch_seqno m + u32_max - os_in (ot_state t))
          with (ch_seqno m - os_in (ot_state t) + 1 * u32_max) by (unfold u32_max in *; lia).
        rewrite N.mod_add by (unfold u32_max; lia). unfold WINDOW in *.
        rewrite N.mod_small by (unfold u32_max; lia). lia. }
      rewrite Hwin in A11.
      destruct (part_run F checked t' evs) as [t'' ms] eqn:Er. cbn [snd map].
      assert (Hk' : 0 < fe_count F (en_data e')) by (rewrite A2; exact Hk).
      assert (Hle' : en_sent e' <= fe_count F (en_data e')) by (rewrite A2; lia).
      specialize (IH t' e' A1 Hk' Hle' W3). rewrite Er in IH. cbn [snd] in IH.
      destruct IH as [IH1 IH2].
      assert (Hn : next_symbol t e = ch_seqno m).
      { unfold next_symbol. destruct (N.ltb_spec (en_sent e) (fe_count F (en_data e))); lia. }
      assert (Hlt : ch_seqno m < next_symbol t' e').
      { unfold next_symbol. rewrite A2. destruct A10 as [(B1 & B2 & B3)|(B1 & B2 & B3)]; rewrite B3.
        - destruct (N.ltb_spec (en_sent e + 1) (fe_count F (en_data e))); lia.
        - destruct (N.ltb_spec (en_sent e) (fe_count F (en_data e))); [lia|].
          rewrite A11. destruct (os_out (ot_state t) =? ch_seqno m); lia. }
      split.
      * constructor; [exact IH1|]. eapply Forall_impl; [|exact IH2]. cbn beta. intros q Hq. lia.
      * constructor; [lia|]. eapply Forall_impl; [|exact IH2]. cbn beta. intros q Hq. lia.
    + cbn [part_run window_kept] in *. 
      specialize (IH (set_state t (on_confirm (ot_state t) p q)) e He Hk Hle Hw).
      unfold next_symbol in *. cbn [set_state ot_state] in IH.
      destruct (confirm_same (ot_state t) p q) as [H1 _]. rewrite H1 in IH. exact IH.
    + cbn [part_run window_kept] in *.
      specialize (IH (set_state t (on_complete (ot_state t) p)) e He Hk Hle Hw).
      unfold next_symbol in *. cbn [set_state ot_state] in IH.
      destruct (complete_same (ot_state t) p) as [H1 _]. rewrite H1 in IH. exact IH.
    + cbn [part_run window_kept] in *.
      exact (IH (set_state t (set_reply (ot_state t))) e He Hk Hle Hw).
Qed.

Lemma increasing_NoDup : forall l, increasing l -> NoDup l.
Proof.
  intros l H. induction H as [|a l H IH Ha]; constructor; [|exact IH].
  intros Hin. rewrite Forall_forall in Ha. specialize (Ha a Hin). lia.
Qed.

(** The source symbols come first, in order, whatever is confirmed. *)
Lemma source_symbols_first : forall evs t e a m,
  ot_encoder t = Some e ->
  nth_error (snd (part_run F checked t evs)) a = Some m ->
  en_sent e + N.of_nat a < fe_count F (en_data e) ->
  ch_seqno m = en_sent e + N.of_nat a.
Proof.
  intros evs. induction evs as [|ev evs IH]; intros t e a m He Ha Hlt.
  - destruct a; discriminate.
  - destruct ev as [|p q|p|]; cbn [part_run] in Ha.
    + destruct (prepare_chunk F checked t) as [t' m'| |] eqn:Ep; [|destruct a; discriminate|destruct a; discriminate].
      destruct (prepare_chunk_ready F checked t e t' m' He Ep)
        as (e' & A1 & A2 & A3 & A4 & A5 & A6 & A7 & A8 & A9 & A10 & A11).
      destruct (part_run F checked t' evs) as [t'' ms] eqn:Er. cbn [snd] in Ha.
      destruct a as [|a]; cbn [nth_error] in Ha.
      * injection Ha as <-. lia.
      * specialize (IH t' e' a m A1). rewrite Er, A2 in IH. cbn [snd] in IH.
        destruct A10 as [(B1 & B2 & B3)|(B1 & B2 & B3)]; [|lia]. rewrite B3 in IH.
        rewrite IH; [lia|exact Ha|lia].
    + exact (IH (set_state t (on_confirm (ot_state t) p q)) e a m He Ha Hlt).
    + exact (IH (set_state t (on_complete (ot_state t) p)) e a m He Ha Hlt).
    + exact (IH (set_state t (set_reply (ot_state t))) e a m He Ha Hlt).
Qed.

(** Exhausted, and the next symbol is too far ahead for any confirmation that can still come. *)
Definition stuck (t : outgoing) (e : encoder) : Prop :=
  ot_encoder t = Some e /\ fe_count F (en_data e) <= en_sent e
  /\ os_in (ot_state t) <= os_out (ot_state t)
  /\ fe_count F (en_data e) + os_out (ot_state t) < u32_max
  /\ WINDOW < fe_count F (en_data e) + os_out (ot_state t) - os_in (ot_state t).

Definition useless (t : outgoing) (ev : part_event) : Prop :=
  match ev with PConfirm _ q => os_out (ot_state t) < q | _ => True end.

Lemma stuck_repeats : forall evs t e,
  stuck t e -> (WINDOW < fe_count F (en_data e) \/ Forall (useless t) evs) ->
  Forall (fun m => ch_seqno m = fe_count F (en_data e) + os_out (ot_state t)
                   /\ ch_data m = fe_symbol F (en_data e) (fe_count F (en_data e) + os_out (ot_state t)))
    (snd (part_run F checked t evs)).
Proof.
  intros evs. induction evs as [|ev evs IH]; intros t e Hst Hu; [constructor|].
  assert (Hst' := Hst). destruct Hst' as (He & Hex & Hio & H32 & Hw).
  assert (Hu' : WINDOW < fe_count F (en_data e) \/ Forall (useless t) evs)
    by (destruct Hu as [Hu|Hu]; [left; exact Hu|right; now inversion Hu]).
  destruct ev as [|p q|p|]; cbn [part_run].
  - destruct (prepare_chunk F checked t) as [t' m| |] eqn:Ep; [|constructor|constructor].
    destruct (prepare_chunk_ready F checked t e t' m He Ep)
      as (e' & A1 & A2 & A3 & A4 & A5 & A6 & A7 & A8 & A9 & A10 & A11).
    destruct A10 as [(B1 & _)|(B1 & B2 & B3)]; [lia|].
    assert (Hout : os_out (ot_state t') = os_out (ot_state t)).
    { rewrite A11. replace (ch_seqno m + u32_max - os_in (ot_state t))
        with (ch_seqno m - os_in (ot_state t) + 1 * u32_max) by lia.
      rewrite N.mod_add by (unfold u32_max; lia). rewrite N.mod_small by lia.
      destruct (ch_seqno m - os_in (ot_state t) <=? WINDOW) eqn:E; [lia|reflexivity]. }
    assert (Hs' : stuck t' e').
    { unfold stuck. rewrite A2, A8, Hout, B3. tauto. }
    specialize (IH t' e' Hs'). rewrite A2, Hout in IH.
    assert (Hu2 : WINDOW < fe_count F (en_data e) \/ Forall (useless t') evs).
    { destruct Hu' as [Hu'|Hu']; [left; exact Hu'|right]. eapply Forall_impl; [|exact Hu'].
      intros x. unfold useless. rewrite Hout. tauto. }
    specialize (IH Hu2). destruct (part_run F checked t' evs) as [t'' ms]. cbn [snd] in *.
    constructor; [|exact IH]. rewrite A9. cbn [ch_seqno ch_data]. rewrite B2. split; reflexivity.
  - destruct (confirm_same (ot_state t) p q) as (C1 & C2 & C3 & C4).
    assert (Hs' : stuck (set_state t (on_confirm (ot_state t) p q)) e).
    { unfold stuck. cbn [set_state ot_state ot_encoder]. rewrite C1.
      split; [exact He|]. split; [exact Hex|]. split; [now apply C3|]. split; [exact H32|].
      destruct Hu as [Hu|Hu]; [specialize (C3 Hio); lia|].
      inversion Hu as [|? ? Hx _]; subst. cbn [useless] in Hx. rewrite C4 by exact Hx. exact Hw. }
    specialize (IH _ e Hs'). cbn [set_state ot_state] in IH. rewrite C1 in IH. apply IH.
    destruct Hu' as [Hu'|Hu']; [left; exact Hu'|right]. eapply Forall_impl; [|exact Hu'].
    intros x. destruct x; cbn [useless set_state ot_state]; rewrite ?C1; tauto.
  - destruct (complete_same (ot_state t) p) as (C1 & C2).
    assert (Hs' : stuck (set_state t (on_complete (ot_state t) p)) e).
    { unfold stuck. cbn [set_state ot_state ot_encoder]. rewrite C1, C2. tauto. }
    specialize (IH _ e Hs'). cbn [set_state ot_state] in IH. rewrite C1 in IH. apply IH.
    destruct Hu' as [Hu'|Hu']; [left; exact Hu'|right]. eapply Forall_impl; [|exact Hu'].
    intros x. destruct x; cbn [useless set_state ot_state]; rewrite ?C1; tauto.
  - exact (IH (set_state t (set_reply (ot_state t))) e Hst Hu').
Qed.

(** With more than [WINDOW] source symbols only one repair symbol is ever sent. *)
Lemma big_part_repeats : forall evs t e a b x y,
  ot_encoder t = Some e -> en_sent e <= fe_count F (en_data e) ->
  WINDOW < fe_count F (en_data e) ->
  os_in (ot_state t) <= os_out (ot_state t) ->
  fe_count F (en_data e) + N.max (os_out (ot_state t)) (fe_count F (en_data e)) < u32_max ->
  let ms := snd (part_run F checked t evs) in
  nth_error ms a = Some x -> nth_error ms b = Some y ->
  fe_count F (en_data e) <= en_sent e + N.of_nat a ->
  fe_count F (en_data e) <= en_sent e + N.of_nat b ->
  ch_seqno x = ch_seqno y /\ ch_data x = ch_data y.
Proof.
  intros evs. induction evs as [|ev evs IH]; intros t e a b x y He Hle Hw Hio H32 ms Ha Hb Hla Hlb.
  - destruct a; discriminate.
  - destruct (N.eq_dec (en_sent e) (fe_count F (en_data e))) as [Hex|Hnex].
    + assert (Hst : stuck t e) by (unfold stuck; repeat split; try assumption; lia).
      pose proof (stuck_repeats (ev :: evs) t e Hst (or_introl Hw)) as Hall. fold ms in Hall.
      rewrite Forall_forall in Hall.
      destruct (Hall x (nth_error_In _ _ Ha)) as [X1 X2]. destruct (Hall y (nth_error_In _ _ Hb)) as [Y1 Y2].
      split; congruence.
    + subst ms. destruct ev as [|p q|p|]; cbn [part_run] in Ha, Hb.
      * destruct (prepare_chunk F checked t) as [t' m| |] eqn:Ep; [|destruct a; discriminate|destruct a; discriminate].
        destruct (prepare_chunk_ready F checked t e t' m He Ep)
          as (e' & A1 & A2 & A3 & A4 & A5 & A6 & A7 & A8 & A9 & A10 & A11).
        destruct A10 as [(B1 & B2 & B3)|(B1 & B2 & B3)]; [|lia].
        assert (Hout : os_out (ot_state t) <= os_out (ot_state t') <= N.max (os_out (ot_state t)) (fe_count F (en_data e))).
        { rewrite A11. destruct ((ch_seqno m + u32_max - os_in (ot_state t)) mod u32_max <=? WINDOW); [|lia].
          destruct (os_out (ot_state t) =? ch_seqno m); lia. }
        specialize (IH t' e'). rewrite A2, A8, B3 in IH.
        destruct (part_run F checked t' evs) as [t'' ms] eqn:Er. cbn [snd] in *.
        destruct a as [|a]; [lia|]. destruct b as [|b]; [lia|]. cbn [nth_error] in Ha, Hb.
        apply (IH a b x y); try assumption; lia.
      * destruct (confirm_same (ot_state t) p q) as (C1 & C2 & C3 & C4).
        apply (IH (set_state t (on_confirm (ot_state t) p q)) e a b x y); auto;
          cbn [set_state ot_state]; rewrite C1; auto.
      * destruct (complete_same (ot_state t) p) as (C1 & C2).
        apply (IH (set_state t (on_complete (ot_state t) p)) e a b x y); auto;
          cbn [set_state ot_state]; rewrite C1; rewrite ?C2; auto.
      * apply (IH (set_state t (set_reply (ot_state t))) e a b x y); auto.
Qed.

Lemma big_part_not_fresh : forall evs t e,
  ot_encoder t = Some e -> en_sent e = 0 ->
  WINDOW < fe_count F (en_data e) ->
  os_in (ot_state t) <= os_out (ot_state t) ->
  fe_count F (en_data e) + N.max (os_out (ot_state t)) (fe_count F (en_data e)) < u32_max ->
  let ms := snd (part_run F checked t evs) in
  fe_count F (en_data e) + 2 <= N.of_nat (length ms) ->
  ~ NoDup (map ch_seqno ms).
Proof.
  intros evs t e He H0 Hw Hio H32 ms Hlen Hnd.
  set (k := N.to_nat (fe_count F (en_data e))) in *.
  destruct (nth_error ms k) as [x|] eqn:Ex; [|apply nth_error_None in Ex; lia].
  destruct (nth_error ms (S k)) as [y|] eqn:Ey; [|apply nth_error_None in Ey; lia].
  destruct (big_part_repeats evs t e k (S k) x y He ltac:(lia) Hw Hio H32 Ex Ey ltac:(lia) ltac:(lia)) as [Hq _].
  pose proof (proj1 (NoDup_nth_error _) Hnd k (S k)) as Hn.
  rewrite map_length in Hn. rewrite !nth_error_map, Ex, Ey in Hn. cbn [option_map] in Hn.
  rewrite Hq in Hn. specialize (Hn ltac:(lia) eq_refl). lia.
Qed.
End Symbols.

(** A fresh encoder after a confirmation of an earlier part: the subtraction overflows. *)
Lemma next_part_overflows : forall F t e,
  ot_encoder t = Some e -> en_sent e = 0 -> 0 < fe_count F (en_data e) -> 0 < os_in (ot_state t) ->
  prepare_chunk F true t = ChunkOverflow.
Proof.
  intros F t e He H0 Hk Hin. unfold prepare_chunk, encode. rewrite He, H0.
  destruct (N.ltb_spec 0 (fe_count F (en_data e))) as [_|H]; [|lia]. cbv zeta beta iota.
  destruct (N.ltb_spec 0 (os_in (ot_state t))) as [_|H]; [|lia]. reflexivity.
Qed.

(** ** The first part of a transfer *)

Lemma first_part_started : forall F slice id data, 0 < slice -> data <> [] ->
  let t := fst (start_next_part F slice (outgoing_new id data)) in
  ot_encoder t = Some (encoder_new (part_of slice data 0)) /\ ot_state t = out_state_new.
Proof.
  intros F slice id data Hs Hd. unfold start_next_part. cbn [ot_state ot_data ot_id outgoing_new is_finished
    os_reply os_part out_state_new andb]. unfold is_finished. cbn [ot_state outgoing_new os_reply out_state_new andb os_part ot_data].
  rewrite N.mul_0_l.
  destruct (N.leb_spec (N.of_nat (length data)) 0) as [H|H]; [destruct data; [congruence|cbn [length] in H; lia]|].
  cbn [fst ot_encoder ot_state]. split; [|reflexivity]. f_equal. f_equal.
  rewrite <- (part_of_cut slice data 0) by lia. now rewrite N.mul_0_l.
Qed.

(** More than [WINDOW] source symbols: after them, one and the same repair symbol for ever. *)
Lemma big_first_part : forall F slice checked id data evs,
  fec_ok F -> 0 < slice -> slice < u32_max -> data <> [] ->
  WINDOW < fe_count F (part_of slice data 0) ->
  let t := fst (start_next_part F slice (outgoing_new id data)) in
  let ms := snd (part_run F checked t evs) in
  fe_count F (part_of slice data 0) + 2 <= N.of_nat (length ms) ->
  ~ NoDup (map ch_seqno ms).
Proof.
  intros F slice checked id data evs HF Hs Hs32 Hd Hw t ms Hlen.
  destruct (first_part_started F slice id data Hs Hd) as [He Hst]. fold t in He, Hst.
  apply (big_part_not_fresh F checked evs t _ He); try assumption; [reflexivity| |].
  - rewrite Hst. cbn [os_in os_out out_state_new]. lia.
  - rewrite Hst. cbn [os_out out_state_new en_data encoder_new]. rewrite (fec_count F HF).
    pose proof (part_of_length slice data 0) as Hl. unfold symbol_size, u32_max in *.
    pose proof (N.div_mod (N.of_nat (length (part_of slice data 0)) + 768 - 1) 768).
    pose proof (N.mod_lt (N.of_nat (length (part_of slice data 0)) + 768 - 1) 768). lia.
Qed.

Lemma first_part_in_window : forall F slice checked id data evs,
  fec_ok F -> 0 < slice -> slice < u32_max -> data <> [] ->
  let t := fst (start_next_part F slice (outgoing_new id data)) in
  window_kept F checked t evs -> NoDup (map ch_seqno (snd (part_run F checked t evs))).
Proof.
  intros F slice checked id data evs HF Hs Hs32 Hd t Hw.
  destruct (first_part_started F slice id data Hs Hd) as [He Hst]. fold t in He, Hst.
  assert (H0 : 0 < part_count slice data)
    by (apply part_count_spec; [exact Hs|]; destruct data; [congruence|cbn [length]; lia]).
  destruct (part_of_size slice data 0 Hs H0) as [H1 H2].
  apply increasing_NoDup. eapply window_increasing; [exact He| | |exact Hw]; cbn [en_data encoder_new en_sent]; [|lia].
  apply fec_count_bounds; [exact HF|exact H1|lia].
Qed.

Lemma first_symbols : forall F slice checked id data evs a m, 0 < slice -> data <> [] ->
  let t := fst (start_next_part F slice (outgoing_new id data)) in
  nth_error (snd (part_run F checked t evs)) a = Some m ->
  N.of_nat a < fe_count F (part_of slice data 0) -> ch_seqno m = N.of_nat a.
Proof.
  intros F slice checked id data evs a m Hs Hd t Ha Hlt.
  destruct (first_part_started F slice id data Hs Hd) as [He Hst]. fold t in He, Hst.
  pose proof (source_symbols_first F checked evs t _ a m He Ha) as H. cbn [en_sent encoder_new en_data] in H.
  rewrite N.add_0_l in H. now apply H.
Qed.

(** The second part of a transfer after a confirmed first one, in a build with overflow checks. *)
Lemma second_part_panics : forall F slice id data t,
  fec_ok F -> 0 < slice -> slice < u32_max -> ot_data t = data -> ot_id t = id ->
  os_reply (ot_state t) = false -> 0 < os_in (ot_state t) ->
  os_part (ot_state t) < part_count slice data ->
  prepare_chunk F true (fst (start_next_part F slice t)) = ChunkOverflow.
Proof.
  intros F slice id data t HF Hs Hs32 Hdt Hid Hr Hin Hp.
  destruct (part_of_size slice data _ Hs Hp) as [H1 H2].
  assert (Hlt := Hp). apply part_count_spec in Hlt; [|exact Hs].
  unfold start_next_part, is_finished. rewrite Hr. cbn [andb]. rewrite Hdt.
  destruct (N.leb_spec (N.of_nat (length data)) (os_part (ot_state t) * slice)) as [H|H]; [lia|].
  cbn [fst]. rewrite part_of_cut by lia.
  eapply next_part_overflows; [reflexivity|reflexivity| |exact Hin].
  cbn [en_data encoder_new]. apply fec_count_bounds; [exact HF|exact H1|lia].
Qed.

(** Without overflow checks the loop always has a chunk to send. *)
Lemma part_run_chunks : forall F n t e, ot_encoder t = Some e ->
  length (snd (part_run F false t (repeat PChunk n))) = n.
Proof.
  intros F n. induction n as [|n IH]; intros t e He; [reflexivity|]. cbn [repeat part_run].
  destruct (prepare_chunk F false t) as [t' m| |] eqn:Ep.
  - destruct (prepare_chunk_ready F false t e t' m He Ep) as (e' & He' & _).
    specialize (IH t' e' He'). destruct (part_run F false t' (repeat PChunk n)) as [t2 ms]. cbn [snd length] in *. lia.
  - unfold prepare_chunk in Ep. rewrite He in Ep. destruct (encode F e (os_out (ot_state t))) as [[q d] e2]. discriminate.
  - unfold prepare_chunk in Ep. rewrite He in Ep. destruct (encode F e (os_out (ot_state t))) as [[q d] e2]. discriminate.
Qed.

(** A concrete big part: 800000 bytes. *)
Lemma big_part_exists : forall id,
  let data := repeat 0 (N.to_nat 800000) in
  let t := fst (start_next_part toy_fec SLICE (outgoing_new id data)) in
  let ms := snd (part_run toy_fec false t (repeat PChunk (N.to_nat 1044))) in
  fe_count toy_fec (part_of SLICE data 0) = 1042 /\ length ms = N.to_nat 1044 /\ ~ NoDup (map ch_seqno ms).
Proof.
  intros id data t ms.
  assert (Hs : 0 < SLICE) by reflexivity. assert (Hs32 : SLICE < u32_max) by reflexivity.
  assert (Hl : N.of_nat (length data) = 800000) by (unfold data; rewrite repeat_length; lia).
  assert (Hd : data <> []) by (intros H; rewrite H in Hl; discriminate Hl).
  clearbody data.
  assert (Hc : fe_count toy_fec (part_of SLICE data 0) = 1042).
  { rewrite (fec_count _ toy_fec_ok), part_of_length, Hl. reflexivity. }
  destruct (first_part_started toy_fec SLICE id data Hs Hd) as [He _]. fold t in He.
  assert (Hn : length ms = N.to_nat 1044) by (apply (part_run_chunks toy_fec _ t _ He)).
  split; [exact Hc|]. split; [exact Hn|].
  apply (big_first_part toy_fec SLICE false id data); try assumption; [exact toy_fec_ok| |].
  - rewrite Hc. reflexivity.
  - fold t. fold ms. rewrite Hc, Hn, N2Nat.id. discriminate.
Qed.
