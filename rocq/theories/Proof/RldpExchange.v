(** A transfer over a network that loses nothing comes to its end. *)
From Coq Require Import List NArith Arith Bool Lia.
From Coq Require Import ZifyBool ZifyNat ZifyN.
From Verif.Base Require Import Bytes BytesFacts Res.
From Verif.Model Require Import ProtoRldp Fec RldpTransfer.
From Verif.Spec Require Import FecSpec RldpSpec RldpExchangeSpec.
From Verif.Proof Require Import FecFacts RldpParts RldpInFacts RldpOutFacts.
Import ListNotations.
Open Scope N_scope.

Section Exchange.
Context (F : fec) (HF : fec_ok F) (slice : N) (Hs : 0 < slice) (Hs32 : slice < u32_max) (checked confirms : bool)
  (Hck : confirms = true -> checked = false) (data : bytes) (Hcount : part_count slice data < u32_max).

Local Notation live := (live F slice data).
Local Notation finished := (finished slice data).
Local Notation part := (part_of slice data).
Local Notation size := (N.of_nat (length data)).

Definition packets (t : incoming) : list (N * bytes) := match it_decoder t with Some d => de_packets d | None => [] end.

(** ** The receiver *)

(** A symbol of the current part. *)
Lemma current_outcome : forall t i, live t -> size <= it_max t ->
  let '(t', r) := receive_one F t (chunk_of F slice data (it_part t) i) in
  it_id t' = it_id t /\ it_max t' = it_max t
  /\ (live t' /\ it_part t' = it_part t /\ packets t' = packets t ++ [(i, fe_symbol F (part (it_part t)) i)]
       /\ (forall id j, r <> Some (MpComplete id j))
      \/ live t' /\ it_part t' = it_part t + 1 /\ it_decoder t' = None /\ r = Some (MpComplete (it_id t) (it_part t))
      \/ finished t' /\ it_part t' = it_part t /\ r = Some (MpComplete (it_id t) (it_part t))).
Proof.
  intros t i Hl Hm. pose proof Hl as (L1 & L2 & L3 & L4).
  assert (G : forall t0, live t0 -> it_part t0 = it_part t -> it_id t0 = it_id t -> it_max t0 = it_max t ->
    it_total t0 = Some size -> it_decoder t0 = it_decoder t ->
    let '(t', r) := process_part F t0 size (chunk_of F slice data (it_part t) i) in
    it_id t' = it_id t /\ it_max t' = it_max t /\ it_total t' = Some size
    /\ (live t' /\ it_part t' = it_part t /\ packets t' = packets t ++ [(i, fe_symbol F (part (it_part t)) i)]
         /\ (forall id j, match r with Ok x => x | Err _ => None end <> Some (MpComplete id j))
        \/ live t' /\ it_part t' = it_part t + 1 /\ it_decoder t' = None
           /\ match r with Ok x => x | Err _ => None end = Some (MpComplete (it_id t) (it_part t))
        \/ finished t' /\ it_part t' = it_part t
           /\ match r with Ok x => x | Err _ => None end = Some (MpComplete (it_id t) (it_part t)))).
  { intros t0 Hl0 Hp Hid Hmax Htot Hdec. pose proof Hl0 as (M1 & M2 & M3 & M4).
    assert (Hd : exists d, process_part F t0 size (chunk_of F slice data (it_part t) i)
        = process_current F t0 size d (chunk_of F slice data (it_part t) i)
      /\ de_params d = fec_params F (part (it_part t)) /\ de_packets d = packets t
      /\ symbols_of F (part (it_part t)) (packets t)).
    { unfold process_part. cbn [ch_part chunk_of]. rewrite Hp, N.compare_refl. unfold packets. rewrite <- Hdec.
      destruct (it_decoder t0) as [d|].
      - destruct M4 as (A & B & _). rewrite Hp in A, B. cbn [ch_fec chunk_of]. rewrite A, fec_type_eqb_refl. exists d. tauto.
      - eexists. split; [reflexivity|]. split; [reflexivity|]. split; [reflexivity|]. constructor. }
    destruct Hd as (d & -> & Hpar & Hpk & Hsym).
    pose proof (part_of_size slice data (it_part t) Hs L1) as Hsz.
    assert (Hsym' : symbols_of F (part (it_part t)) (packets t ++ [(i, fe_symbol F (part (it_part t)) i)])).
    { apply Forall_app. split; [exact Hsym|]. constructor; [reflexivity|constructor]. }
    unfold process_current, decode. cbn [ch_seqno ch_data chunk_of]. rewrite Hpar, Hpk.
    destruct (fec_sound F HF (part (it_part t)) _ ltac:(lia) Hsym') as [He|He]; rewrite He.
    - assert (Hdec' : decoding F slice data (it_part t)
        (mk_decoder (fec_params F (part (it_part t))) (packets t ++ [(i, fe_symbol F (part (it_part t)) i)]) i)).
      { split; [reflexivity|]. split; [exact Hsym'|]. split; [|exact He].
        cbn [de_packets]. intros Hn. apply app_eq_nil in Hn as [_ Hn]. discriminate. }
      unfold set_decoder. cbn [it_confirm]. unfold set_confirm.
      destruct (it_confirm t0 =? 9); cbn [it_id it_max it_total it_part it_decoder it_data it_confirm it_updates];
        (split; [exact Hid|]; split; [exact Hmax|]; split; [exact Htot|]); left;
        (split; [|split; [exact Hp|split; [reflexivity|intros; discriminate]]]);
        unfold RldpInFacts.live; cbn [it_id it_max it_total it_part it_decoder it_data]; rewrite Htot, Hp;
        (split; [exact L1|]; split; [rewrite M2, Hp; reflexivity|]; split; [reflexivity|exact Hdec']).
    - assert (Hall : it_data t0 ++ part (it_part t) = first_parts slice data (it_part t + 1)).
      { rewrite M2, Hp. symmetry. apply first_parts_succ. }
      pose proof (first_parts_length slice data (it_part t)) as HL1.
      pose proof (first_parts_length slice data (it_part t + 1)) as HL2.
      pose proof (part_of_length slice data (it_part t)) as HL3.
      apply part_count_spec in L1 as L1'; [|exact Hs].
      unfold set_decoder. cbn [it_data it_id it_max it_confirm it_part it_total it_updates it_decoder].
      destruct (size <? N.of_nat (length (part (it_part t)) + length (it_data t0))) eqn:E1.
      { rewrite M2, Hp in E1. lia. }
      rewrite Hall. destruct (N.of_nat (length (first_parts slice data (it_part t + 1))) <? size) eqn:E2;
        cbn [it_data it_id it_max it_confirm it_part it_total it_updates it_decoder];
        (split; [exact Hid|]; split; [exact Hmax|]; split; [exact Htot|]).
      + right. left. assert (Hlt : it_part t + 1 < part_count slice data) by (apply part_count_spec; [exact Hs|lia]).
        split; [|split; [now rewrite Hp|split; [reflexivity|rewrite Hid; reflexivity]]].
        unfold RldpInFacts.live. cbn [it_data it_id it_max it_confirm it_part it_total it_updates it_decoder].
        rewrite Htot, Hp. tauto.
      + right. right. assert (Hge : part_count slice data = it_part t + 1).
        { destruct (N.lt_ge_cases (it_part t + 1) (part_count slice data)) as [Hx|Hx]; [|lia].
          apply part_count_spec in Hx; [|exact Hs]. lia. }
        split; [|split; [exact Hp|now rewrite Hid]]. unfold RldpInFacts.finished.
        cbn [it_data it_id it_max it_confirm it_part it_total it_updates it_decoder].
        split; [exact Htot|]. split; [apply first_parts_all; [exact Hs|lia]|]. rewrite Hp. lia. }
  unfold receive_one, process_chunk. cbn [ch_total chunk_of].
  destruct (it_total t) as [n|] eqn:Et.
  - subst n. rewrite N.eqb_refl. specialize (G t Hl eq_refl eq_refl eq_refl Et eq_refl).
    fold (chunk_of F slice data (it_part t) i).
    destruct (process_part F t size (chunk_of F slice data (it_part t) i)) as [t' r]. destruct G as (G1 & G2 & _ & G3).
    cbn [it_id it_max]. split; [exact G1|]. split; [exact G2|]. exact G3.
  - destruct (it_max t <? size) eqn:Em; [lia|].
    assert (Hl' : live (set_total t size)) by (unfold RldpInFacts.live; cbn [it_part it_data it_total it_decoder set_total]; tauto).
    specialize (G (set_total t size) Hl' eq_refl eq_refl eq_refl eq_refl eq_refl).
    fold (chunk_of F slice data (it_part t) i).
    destruct (process_part F (set_total t size) size (chunk_of F slice data (it_part t) i)) as [t' r].
    destruct G as (G1 & G2 & _ & G3).
    cbn [it_id it_max]. split; [exact G1|]. split; [exact G2|]. exact G3.
Qed.

(** It is not done before it has all source symbols of the part. *)
Lemma not_all : forall t k, live t -> (forall i, i < k -> exists s, In (i, s) (packets t)) ->
  k < fe_count F (part (it_part t)).
Proof.
  intros t k (L1 & L2 & L3 & L4) Hk. destruct (N.lt_ge_cases k (fe_count F (part (it_part t)))) as [H|H]; [exact H|exfalso].
  pose proof (part_of_size slice data (it_part t) Hs L1) as Hsz.
  pose proof (fec_count_bounds F (part (it_part t)) HF ltac:(lia) ltac:(lia)) as Hc.
  unfold packets in Hk. destruct (it_decoder t) as [d|]; [|destruct (Hk 0 ltac:(lia)) as [s []]].
  destruct L4 as (A & B & C & D). rewrite A, (fec_complete F HF) in D; try assumption; [discriminate|lia|].
  intros i Hi. apply Hk. lia.
Qed.

(** ** The sender *)

Definition ready (p : N) (t : outgoing) : Prop :=
  ot_data t = data /\ os_part (ot_state t) = p /\ os_reply (ot_state t) = false
  /\ (checked = true -> os_in (ot_state t) = 0).
Definition busy (p k : N) (t : outgoing) : Prop :=
  ready p t /\ ot_current t = p /\ exists e, ot_encoder t = Some e /\ en_data e = part p /\ en_sent e = k.

Lemma start_ready : forall p t, ready p t ->
  if p <? part_count slice data
  then exists t' c, start_next_part F slice t = (t', Some c) /\ busy p 0 t'
  else start_next_part F slice t = (t, None).
Proof.
  intros p t (R1 & R2 & R3 & R4). unfold start_next_part, is_finished. rewrite R3, R2, R1. cbn [andb].
  destruct (p <? part_count slice data) eqn:E.
  - assert (Hp : p < part_count slice data) by lia. apply part_count_spec in Hp as Hp'; [|exact Hs].
    destruct (size <=? p * slice) eqn:E2; [lia|]. rewrite part_of_cut by lia.
    pose proof (part_of_size slice data p Hs Hp) as Hsz.
    pose proof (fec_count_bounds F (part p) HF ltac:(lia) ltac:(lia)) as Hc.
    cbn [ft_packet_count fec_params]. rewrite N.mod_small by lia.
    destruct (0 <? fe_count F (part p)) eqn:E0; [|lia].
    eexists. eexists. split; [reflexivity|]. split; [split; [reflexivity|]; split; [reflexivity || exact R2|]; split; [exact R3|exact R4]|].
    split; [reflexivity|]. eexists. split; [reflexivity|]. split; reflexivity.
  - destruct (size <=? p * slice) eqn:E2; [reflexivity|].
    assert (p < part_count slice data) by (apply part_count_spec; [exact Hs|lia]). lia.
Qed.

Lemma prepare_busy : forall p k t, busy p k t -> k < fe_count F (part p) ->
  exists t', prepare_chunk F checked t = ChunkReady t' (chunk_of F slice data p k) /\ busy p (k + 1) t'.
Proof.
  intros p k t ((R1 & R2 & R3 & R4) & B1 & e & B2 & B3 & B4) Hk.
  assert (Hok : exists t' m, prepare_chunk F checked t = ChunkReady t' m).
  { unfold prepare_chunk, encode. rewrite B2, B3, B4.
    destruct (k <? fe_count F (part p)) eqn:E; [|lia].
    destruct (checked && (k <? os_in (ot_state t))) eqn:Ec; [|eexists; eexists; reflexivity].
    apply andb_prop in Ec as [Ec1 Ec2]. rewrite (R4 Ec1) in Ec2. lia. }
  destruct Hok as (t' & m & Hok). exists t'.
  destruct (prepare_chunk_ready F checked t e t' m B2 Hok) as (e' & A1 & A2 & A3 & A4 & A5 & A6 & A7 & A8 & A9 & A10 & _).
  rewrite B3, B4 in A10. destruct A10 as [(_ & A10 & A11)|(A10 & _)]; [|lia].
  split.
  - rewrite Hok. f_equal. rewrite A9, B1, B3, R1, A10. reflexivity.
  - split; [split; [congruence|]; split; [congruence|]; split; [congruence|rewrite A8; exact R4]|].
    split; [congruence|]. exists e'. split; [exact A1|]. split; congruence.
Qed.

Lemma complete_ready : forall p t, ready p t -> p + 1 < u32_max -> ready (p + 1) (set_state t (on_complete (ot_state t) p)).
Proof.
  intros p t (R1 & R2 & R3 & R4) Hp. unfold ready. cbn [set_state ot_data ot_state].
  unfold on_complete, set_part. rewrite R2, (N.mod_small (p + 1)) by exact Hp.
  replace (p + 1 + u32_max - 1) with (p + 1 * u32_max) by lia.
  rewrite N.mod_add by (unfold u32_max; lia). rewrite N.mod_small by lia. rewrite N.eqb_refl.
  cbn [os_part os_reply os_in]. tauto.
Qed.
Lemma confirm_busy : forall p k t j q, busy p k t -> checked = false -> busy p k (set_state t (on_confirm (ot_state t) j q)).
Proof.
  intros p k t j q ((R1 & R2 & R3 & R4) & B1 & B2) Hc. split; [|split; [exact B1|exact B2]].
  unfold ready. cbn [set_state ot_data ot_state]. split; [exact R1|].
  destruct (confirm_same (ot_state t) j q) as [H _].
  unfold on_confirm, set_seqno_in. destruct (os_part (ot_state t) =? j); [destruct (os_out (ot_state t) <? q)|]; cbn [os_part os_reply os_in];
    (split; [exact R2|]; split; [exact R3|]); intros Ht; congruence.
Qed.

(** ** Together *)

Local Notation turn := (turn F slice checked confirms).
Local Notation turns := (turns F slice checked confirms).

Lemma turns_app : forall a b st, turns (a + b) st = turns b (turns a st).
Proof. induction a as [|a IH]; intros b st; [reflexivity|]. cbn [Nat.add RldpExchangeSpec.turns]. apply IH. Qed.

(** The chunks sent in the meantime. *)
Fixpoint outs (n : nat) (st : sender * incoming) : list chunk :=
  match n with
  | O => []
  | S n => match snd (send_step F slice checked (fst st) EvStep) with Some m => [m] | None => [] end ++ outs n (turn st)
  end.
Lemma outs_app : forall a b st, outs (a + b) st = outs a st ++ outs b (turns a st).
Proof.
  induction a as [|a IH]; intros b st; [reflexivity|]. cbn [Nat.add RldpExchangeSpec.turns outs]. rewrite IH. now rewrite app_assoc.
Qed.
Definition source_chunk (m : chunk) : Prop :=
  exists p k, m = chunk_of F slice data p k /\ p < part_count slice data /\ k < fe_count F (part p).

(** After a part. *)
Definition part_over (p : N) (s : sender) (t : incoming) : Prop :=
  se_point s = AtStart /\ ready (p + 1) (se_transfer s)
  /\ (live t /\ size <= it_max t /\ it_part t = p + 1 /\ it_decoder t = None
      \/ finished t /\ p + 1 = part_count slice data).

(** In a part, before sending symbol [k]. *)
Definition in_part (p k : N) (s : sender) (t : incoming) : Prop :=
  se_point s = AtSend p /\ busy p k (se_transfer s)
  /\ live t /\ size <= it_max t /\ it_part t = p /\ (forall i, i < k -> exists x, In (i, x) (packets t)).

Lemma check_same : forall o p t, ready p o -> turn (mk_sender o (AtCheck p), t) = (mk_sender o (AtSend p), t).
Proof.
  intros o p t (R1 & R2 & R3 & R4). unfold RldpExchangeSpec.turn. cbn [send_step se_point se_transfer].
  unfold is_finished_or_next_part, is_finished. rewrite R3, R2, N.eqb_refl. reflexivity.
Qed.
Lemma check_next : forall o p t, ready (p + 1) o -> turn (mk_sender o (AtCheck p), t) = (mk_sender o AtStart, t).
Proof.
  intros o p t (R1 & R2 & R3 & R4). unfold RldpExchangeSpec.turn. cbn [send_step se_point se_transfer].
  unfold is_finished_or_next_part, is_finished. rewrite R3, R2. cbn [andb].
  destruct (p + 1 =? p) eqn:E1; [lia|]. rewrite N.eqb_refl. reflexivity.
Qed.

Lemma part_turn : forall p k s t, in_part p k s t ->
  k < fe_count F (part p)
  /\ outs 2 (s, t) = [chunk_of F slice data p k]
  /\ ((exists s' t', turns 2 (s, t) = (s', t') /\ in_part p (k + 1) s' t')
      \/ exists s' t', turns 2 (s, t) = (s', t') /\ part_over p s' t').
Proof.
  intros p k s t (P1 & P2 & P3 & P4 & P5 & P6).
  assert (Hk : k < fe_count F (part p)) by (rewrite <- P5; now apply not_all).
  split; [exact Hk|].
  destruct (prepare_busy p k _ P2 Hk) as (o & Ho & Hb).
  pose proof (current_outcome t k P3 P4) as Hout. rewrite P5 in Hout.
  destruct P3 as (L1 & L2 & L3 & L4). assert (Hp1 : p + 1 < u32_max \/ p + 1 = part_count slice data) by lia.
  assert (Hchk : exists o', turn (s, t) = (mk_sender o' (AtCheck p), snd (turn (s, t)))).
  { unfold RldpExchangeSpec.turn. cbn [send_step]. rewrite P1, Ho. destruct (incoming_done t); [eexists; reflexivity|].
    destruct (receive_one F t (chunk_of F slice data p k)) as [t' [[| |]|]]; try (eexists; reflexivity).
    destruct confirms; eexists; reflexivity. }
  split.
  { destruct Hchk as (o' & Hchk). cbn [outs fst]. rewrite Hchk. cbn [send_step fst se_point se_transfer]. rewrite P1, Ho.
    cbn [snd]. destruct (is_finished_or_next_part slice o' p) as [[|]|]; reflexivity. }
  clear Hchk.
  cbn [RldpExchangeSpec.turns]. destruct (turn (s, t)) as [s1 t1] eqn:Est.
  unfold RldpExchangeSpec.turn in Est. cbn [send_step] in Est. rewrite P1, Ho in Est.
  rewrite (live_not_done F slice Hs Hs32 data t) in Est by (split; [exact L1|]; split; [exact L2|]; split; assumption).
  destruct (receive_one F t (chunk_of F slice data p k)) as [t' r]. destruct Hout as (O1 & O2 & Hout).
  assert (Hpu : p + 1 < u32_max) by lia. injection Est as Es <-.
  destruct Hout as [(N1 & N2 & N3 & N4)|[(N1 & N2 & N3 & N4)|(N1 & N2 & N3)]].
  - (* more symbols *)
    left.
    assert (Hs' : exists o', busy p (k + 1) o' /\ s1 = mk_sender o' (AtCheck p)).
    { rewrite <- Es. destruct r as [[| |]|]; try (exists o; split; [exact Hb|reflexivity]).
      - destruct confirms; [|exists o; split; [exact Hb|reflexivity]].
        eexists. split; [|reflexivity]. apply confirm_busy; [exact Hb|now apply Hck].
      - exfalso. eapply N4. reflexivity. }
    destruct Hs' as (o' & Hb' & ->). exists (mk_sender o' (AtSend p)), t'.
    split.
    + apply check_same. apply Hb'.
    + split; [reflexivity|]. split; [exact Hb'|]. split; [exact N1|]. split; [lia|]. split; [congruence|].
      rewrite N3. intros i Hi. destruct (N.eq_dec i k) as [->|Hne].
      * eexists. apply in_or_app. right. left. reflexivity.
      * destruct (P6 i ltac:(lia)) as [x Hx]. exists x. apply in_or_app. left. exact Hx.
  - (* next part *)
    right. subst r. cbn [send_step fst se_transfer se_point] in Es. subst s1.
    pose proof (complete_ready p o ltac:(apply Hb) Hpu) as Hr.
    eexists. eexists. split; [exact (check_next _ _ _ Hr)|].
    split; [reflexivity|]. split; [exact Hr|]. left. split; [exact N1|]. split; [lia|]. split; [congruence|exact N3].
  - right. subst r. cbn [send_step fst se_transfer se_point] in Es. subst s1.
    pose proof (complete_ready p o ltac:(apply Hb) Hpu) as Hr.
    eexists. eexists. split; [exact (check_next _ _ _ Hr)|].
    split; [reflexivity|]. split; [exact Hr|]. right. split; [exact N1|]. destruct N1 as (_ & _ & N1). lia.
Qed.

Lemma part_ends : forall m p k s t, N.to_nat (fe_count F (part p) - k) = m -> in_part p k s t ->
  exists n s' t', turns n (s, t) = (s', t') /\ part_over p s' t'
    /\ Forall source_chunk (outs n (s, t)) /\ (length (outs n (s, t)) <= N.to_nat (fe_count F (part p) - k))%nat.
Proof.
  induction m as [|m IH]; intros p k s t Hm Hin; destruct (part_turn p k s t Hin) as [Hk [Hout [(s' & t' & Ht & Hi)|(s' & t' & Ht & Ho)]]];
    (assert (Hsc : source_chunk (chunk_of F slice data p k))
       by (exists p, k; split; [reflexivity|]; split; [|exact Hk]; destruct Hin as (_ & _ & (L1 & _) & _ & <- & _); exact L1)).
  - lia.
  - exists 2%nat, s', t'. split; [exact Ht|]. split; [exact Ho|]. rewrite Hout. split; [now repeat constructor|]. cbn [length]. lia.
  - destruct (IH p (k + 1) s' t' ltac:(lia) Hi) as (n & s2 & t2 & H1 & H2 & H3 & H4).
    exists (2 + n)%nat, s2, t2. rewrite turns_app, outs_app, Ht, Hout. split; [exact H1|]. split; [exact H2|].
    split; [now constructor|]. cbn [app length]. lia.
  - exists 2%nat, s', t'. split; [exact Ht|]. split; [exact Ho|]. rewrite Hout. split; [now repeat constructor|]. cbn [length]. lia.
Qed.

Definition at_part (p : N) (s : sender) (t : incoming) : Prop :=
  se_point s = AtStart /\ ready p (se_transfer s)
  /\ (live t /\ size <= it_max t /\ it_part t = p /\ it_decoder t = None
      \/ finished t /\ p = part_count slice data).

Lemma few_symbols : forall p, p < part_count slice data ->
  fe_count F (part p) <= N.of_nat (length (part p)).
Proof.
  intros p Hp. pose proof (part_of_size slice data p Hs Hp) as Hsz. rewrite (fec_count F HF). unfold symbol_size.
  apply N.lt_succ_r. apply N.div_lt_upper_bound; lia.
Qed.

Lemma all_parts : forall m p s t, N.to_nat (part_count slice data - p) = m -> at_part p s t ->
  exists n s' t', turns n (s, t) = (s', t') /\ se_point s' = SentAll /\ finished t'
    /\ Forall source_chunk (outs n (s, t)) /\ (length (outs n (s, t)) + length (first_parts slice data p) <= length data)%nat.
Proof.
  induction m as [|m IH]; intros p s t Hm (A1 & A2 & A3).
  - exists 1%nat. pose proof (start_ready p _ A2) as Hst.
    destruct A3 as [((L1 & _) & _ & A4 & _)|[A3 A4]]; [lia|].
    destruct (p <? part_count slice data) eqn:E; [lia|].
    eexists. eexists. split; [cbn [RldpExchangeSpec.turns]; unfold RldpExchangeSpec.turn; cbn [send_step]; rewrite A1, Hst; reflexivity|].
    split; [reflexivity|]. split; [exact A3|].
    assert (Ho : outs 1 (s, t) = []) by (cbn [outs fst send_step]; rewrite A1, Hst; reflexivity).
    rewrite Ho. split; [constructor|]. cbn [length Nat.add]. pose proof (first_parts_length slice data p). lia.
  - pose proof (start_ready p _ A2) as Hst. destruct (p <? part_count slice data) eqn:E; [|lia].
    destruct Hst as (o & c & Ho & Hb). destruct A3 as [(A3 & A4 & A5 & A6)|[_ A4]]; [|lia].
    assert (H2 : turns 2 (s, t) = (mk_sender o (AtSend p), t) /\ outs 2 (s, t) = []).
    { cbn [RldpExchangeSpec.turns outs fst]. unfold RldpExchangeSpec.turn. cbn [send_step]. rewrite A1, Ho. cbn [send_step se_point se_transfer fst snd].
      destruct Hb as ((_ & -> & _) & _). split; reflexivity. }
    destruct H2 as [H2 H2o].
    destruct (part_ends _ p 0 (mk_sender o (AtSend p)) t eq_refl) as (n & s1 & t1 & Hn & (B1 & B2 & B3) & B4 & B5).
    { split; [reflexivity|]. split; [exact Hb|]. split; [exact A3|]. split; [exact A4|]. split; [exact A5|]. intros i Hi. lia. }
    destruct (IH (p + 1) s1 t1 ltac:(lia)) as (n' & s2 & t2 & Hn' & Hfin & Hfin2 & F1 & F2).
    { split; [exact B1|]. split; [exact B2|exact B3]. }
    exists (2 + n + n')%nat, s2, t2. rewrite !turns_app, !outs_app, H2, H2o, turns_app, H2, Hn. split; [exact Hn'|]. split; [exact Hfin|]. split; [exact Hfin2|].
    cbn [app]. split; [now apply Forall_app|]. rewrite app_length.
    pose proof (few_symbols p ltac:(lia)). rewrite first_parts_succ, app_length in F2. lia.
Qed.

Lemma new_at_part : forall id rid max, data <> [] -> size <= max -> at_part 0 (sender_new id data) (incoming_new rid max).
Proof.
  intros id rid max Hd Hm. split; [reflexivity|]. split; [repeat split; reflexivity|]. left.
  split; [now apply new_live|]. split; [exact Hm|]. split; reflexivity.
Qed.
End Exchange.

Lemma exchange_chunks : forall F slice checked confirms data id rid max, fec_ok F -> 0 < slice -> slice < u32_max ->
  (confirms = true -> checked = false) -> data <> [] -> part_count slice data < u32_max -> N.of_nat (length data) <= max ->
  exists n,
    let st := (sender_new id data, incoming_new rid max) in
    (forall k, (n <= k)%nat ->
      let '(s, t) := turns F slice checked confirms k st in se_point s = SentAll /\ incoming_done t = true /\ it_data t = data)
    /\ Forall (source_chunk F slice data) (outs F slice checked confirms n st)
    /\ (length (outs F slice checked confirms n st) <= length data)%nat.
Proof.
  intros F slice checked confirms data id rid max HF Hs Hs32 Hck Hd Hc Hm.
  destruct (all_parts F HF slice Hs Hs32 checked confirms Hck data Hc _ 0 (sender_new id data) (incoming_new rid max) eq_refl)
    as (n & s & t & H1 & H2 & H3 & H4 & H5); [now apply new_at_part|].
  exists n. cbv zeta. split; [|split; [exact H4|lia]]. intros k Hk. replace k with (n + (k - n))%nat by lia. rewrite turns_app, H1.
  assert (Hst : forall j, turns F slice checked confirms j (s, t) = (s, t)).
  { induction j as [|j IH]; [reflexivity|]. cbn [turns]. unfold turn. cbn [send_step]. rewrite H2. exact IH. }
  rewrite Hst. split; [exact H2|]. split; [eapply finished_done; exact H3|]. apply H3.
Qed.

Lemma exchange_finishes : forall F slice checked confirms data id rid max, fec_ok F -> 0 < slice -> slice < u32_max ->
  (confirms = true -> checked = false) -> data <> [] -> part_count slice data < u32_max -> N.of_nat (length data) <= max ->
  exists n, forall k, (n <= k)%nat ->
    let '(s, t) := turns F slice checked confirms k (sender_new id data, incoming_new rid max) in
    se_point s = SentAll /\ incoming_done t = true /\ it_data t = data.
Proof.
  intros F slice checked confirms data id rid max HF Hs Hs32 Hck Hd Hc Hm.
  destruct (exchange_chunks F slice checked confirms data id rid max HF Hs Hs32 Hck Hd Hc Hm) as (n & H & _). exists n. exact H.
Qed.
