(** Incoming transfers. *)
From Coq Require Import List NArith Arith Bool Lia.
From Coq Require Import ZifyBool ZifyNat ZifyN.
From Verif.Base Require Import Bytes BytesFacts Res.
From Verif.Model Require Import ProtoRldp Fec RldpTransfer.
From Verif.Spec Require Import FecSpec RldpSpec.
From Verif.Proof Require Import FecFacts RldpParts.
Import ListNotations.
Open Scope N_scope.

(** ** Arbitrary chunks *)

(** Collected data within the announced total, the total within the limit. *)
Definition bounded (t : incoming) : Prop :=
  match it_total t with
  | Some total => N.of_nat (length (it_data t)) <= total /\ total <= it_max t
  | None => it_data t = []
  end.

(** The announced total is kept. *)
Definition total_kept (t t' : incoming) : Prop :=
  it_max t' = it_max t /\ match it_total t with Some n => it_total t' = Some n | None => True end.

Lemma process_current_bounded : forall F t total d m,
  it_total t = Some total -> bounded t ->
  bounded (fst (process_current F t total d m)) /\ total_kept t (fst (process_current F t total d m)).
Proof.
  intros F t total d m Ht Hb. unfold bounded, total_kept in *. rewrite Ht in *.
  unfold process_current. destruct (decode F d (ch_seqno m) (ch_data m)) as [r d'].
  unfold set_decoder, set_confirm.
  destruct r as [data|]; cbn [it_confirm it_data it_total it_max it_id it_part it_decoder it_updates] in *.
  - destruct (total <? N.of_nat (length data + length (it_data t))) eqn:E;
      cbn [fst it_total it_max it_data]; rewrite ?Ht; [tauto|].
    cbv zeta. destruct (N.of_nat (length (it_data t ++ data)) <? total) eqn:E2;
      cbn [fst it_total it_max it_data]; rewrite ?Ht, ?app_length in *; repeat split; try reflexivity; lia.
  - destruct (it_confirm t =? 9); cbn [fst it_total it_max it_data]; rewrite ?Ht; tauto.
Qed.

Lemma process_part_bounded : forall F t total m,
  it_total t = Some total -> bounded t ->
  bounded (fst (process_part F t total m)) /\ total_kept t (fst (process_part F t total m)).
Proof.
  intros F t total m Ht Hb. unfold process_part.
  assert (Hs : bounded t /\ total_kept t t) by (split; [exact Hb|split; [reflexivity|now rewrite Ht]]).
  destruct (ch_part m ?= it_part t); [|exact Hs|exact Hs].
  destruct (it_decoder t) as [d|]; [destruct (fec_type_eqb (de_params d) (ch_fec m)); [|exact Hs]|];
    now apply process_current_bounded.
Qed.

Lemma process_chunk_bounded : forall F t m, bounded t ->
  bounded (fst (process_chunk F t m)) /\ total_kept t (fst (process_chunk F t m)).
Proof.
  intros F t m Hb. unfold process_chunk. destruct (it_total t) as [total|] eqn:Et.
  - destruct (total =? ch_total m).
    + now apply process_part_bounded.
    + cbn [fst]. unfold total_kept. rewrite Et. tauto.
  - destruct (it_max t <? ch_total m) eqn:E.
    + cbn [fst]. unfold total_kept. rewrite Et. tauto.
    + destruct (process_part_bounded F (set_total t (ch_total m)) (ch_total m) m eq_refl) as [H1 H2].
      { unfold bounded in *. cbn [it_total it_data set_total it_max]. rewrite Et in Hb. rewrite Hb.
        cbn [length]. lia. }
      split; [exact H1|]. destruct H2 as [H2 _]. split; [exact H2|]. now rewrite Et.
Qed.

Lemma total_kept_trans : forall a b c, total_kept a b -> total_kept b c -> total_kept a c.
Proof.
  unfold total_kept. intros a b c [H1 H2] [H3 H4]. split; [congruence|].
  destruct (it_total a); [|exact I]. now rewrite H2 in H4.
Qed.

Lemma receive_one_bounded : forall F t m, bounded t ->
  bounded (fst (receive_one F t m)) /\ total_kept t (fst (receive_one F t m)).
Proof.
  intros F t m Hb. pose proof (process_chunk_bounded F t m Hb) as H.
  unfold receive_one. destruct (process_chunk F t m) as [t' r]. exact H.
Qed.

Lemma receive_cons : forall F t m ms,
  fst (receive F t (m :: ms))
  = if incoming_done (fst (receive_one F t m)) then fst (receive_one F t m)
    else fst (receive F (fst (receive_one F t m)) ms).
Proof.
  intros. cbn [receive]. destruct (receive_one F t m) as [t1 r]. cbn [fst].
  destruct (incoming_done t1); [reflexivity|]. destruct (receive F t1 ms) as [t2 more]. reflexivity.
Qed.

Lemma receive_cons_replies : forall F t m ms,
  snd (receive F t (m :: ms))
  = match snd (receive_one F t m) with Some r => [r] | None => [] end
    ++ if incoming_done (fst (receive_one F t m)) then []
       else snd (receive F (fst (receive_one F t m)) ms).
Proof.
  intros. cbn [receive]. destruct (receive_one F t m) as [t1 r]. cbn [fst snd].
  destruct (incoming_done t1); [now rewrite app_nil_r|]. destruct (receive F t1 ms) as [t2 more]. reflexivity.
Qed.

Lemma receive_bounded : forall F ms t, bounded t ->
  bounded (fst (receive F t ms)) /\ total_kept t (fst (receive F t ms)).
Proof.
  intros F ms. induction ms as [|m ms IH]; intros t Hb.
  - cbn [receive fst]. split; [exact Hb|]. split; [reflexivity|]. destruct (it_total t); [reflexivity|exact I].
  - rewrite receive_cons. destruct (receive_one_bounded F t m Hb) as [H1 H2].
    destruct (incoming_done (fst (receive_one F t m))); [tauto|].
    destruct (IH _ H1) as [H3 H4]. split; [exact H3|]. eapply total_kept_trans; eassumption.
Qed.

Lemma receive_app : forall F a t b, incoming_done t = false ->
  fst (receive F t (a ++ b))
  = if incoming_done (fst (receive F t a)) then fst (receive F t a)
    else fst (receive F (fst (receive F t a)) b).
Proof.
  intros F a. induction a as [|m a IH]; intros t b Hd.
  - cbn [app receive fst]. now rewrite Hd.
  - cbn [app]. rewrite !receive_cons.
    destruct (incoming_done (fst (receive_one F t m))) eqn:E; [now rewrite E|]. now apply IH.
Qed.

(** For the property: at every moment and from then on. *)
Lemma receive_limits : forall F id max ms1 ms2,
  let t1 := fst (receive F (incoming_new id max) ms1) in
  let t2 := fst (receive F (incoming_new id max) (ms1 ++ ms2)) in
  (forall total, it_total t1 = Some total ->
     N.of_nat (length (it_data t1)) <= total /\ total <= max /\ it_total t2 = Some total)
  /\ (it_total t1 = None -> it_data t1 = []).
Proof.
  intros F id max ms1 ms2 t1 t2.
  destruct (receive_bounded F ms1 (incoming_new id max)) as [Hb [Hm _]]; [reflexivity|].
  fold t1 in Hb, Hm. cbn [it_max incoming_new] in Hm. unfold bounded in Hb. split.
  - intros total Ht. rewrite Ht in Hb. split; [tauto|]. split; [lia|].
    unfold t2. rewrite receive_app by reflexivity. fold t1.
    destruct (incoming_done t1); [exact Ht|].
    destruct (receive_bounded F ms2 t1) as [_ [_ Hk]]; [unfold bounded; now rewrite Ht|].
    now rewrite Ht in Hk.
  - intros Ht. now rewrite Ht in Hb.
Qed.

(** ** Chunks of an honest sender *)

Section Honest.
Context (F : fec) (HF : fec_ok F) (slice : N) (Hs : 0 < slice) (Hs32 : slice < u32_max) (data : bytes).

(** The decoder holds symbols of part [j] and has not finished. *)
Definition decoding (j : N) (d : decoder) : Prop :=
  de_params d = fec_params F (part_of slice data j)
  /\ symbols_of F (part_of slice data j) (de_packets d)
  /\ de_packets d <> []
  /\ fe_decode F (de_params d) (de_packets d) = None.

Definition live (t : incoming) : Prop :=
  it_part t < part_count slice data
  /\ it_data t = first_parts slice data (it_part t)
  /\ match it_total t with
     | Some n => n = N.of_nat (length data)
     | None => it_part t = 0 /\ it_decoder t = None
     end
  /\ match it_decoder t with Some d => decoding (it_part t) d | None => True end.

Definition finished (t : incoming) : Prop :=
  it_total t = Some (N.of_nat (length data)) /\ it_data t = data /\ it_part t + 1 = part_count slice data.

Lemma live_not_done : forall t, live t -> incoming_done t = false.
Proof.
  intros t (H1 & H2 & H3 & _). unfold incoming_done. destruct (it_total t) as [n|]; [|reflexivity].
  subst n. apply N.leb_gt. rewrite H2, first_parts_length.
  apply part_count_spec in H1; [|exact Hs]. lia.
Qed.

Lemma finished_done : forall t, finished t -> incoming_done t = true.
Proof. intros t (H1 & H2 & _). unfold incoming_done. rewrite H1, H2. apply N.leb_refl. Qed.

(** What is known of one step that processes symbol [i] of part [j]. *)
Definition step_ok (t t' : incoming) (j i : N) : Prop :=
  it_max t' = it_max t
  /\ (finished t'
      \/ live t' /\ it_part t <= it_part t'
         /\ (it_total t' = it_total t \/ it_total t' = Some (N.of_nat (length data)))
         /\ (j = it_part t -> (N.of_nat (length data) <= it_max t \/ it_total t <> None) ->
             it_total t' <> None
             /\ (it_part t' = it_part t ->
                 exists d, it_decoder t' = Some d /\ (exists s, In (i, s) (de_packets d))
                   /\ forall d0 x, it_decoder t = Some d0 -> In x (de_packets d0) -> In x (de_packets d)))).

Definition reply_ok (t' : incoming) (r : option message_part) : Prop :=
  forall id j, r = Some (MpComplete id j) -> j < it_part t' \/ finished t' /\ j <= it_part t'.

Lemma process_current_live : forall t d i,
  live t -> it_total t = Some (N.of_nat (length data)) ->
  (it_decoder t = Some d \/ it_decoder t = None /\ d = decoder_new (fec_params F (part_of slice data (it_part t)))) ->
  let m := chunk_of F slice data (it_part t) i in
  let '(t', r) := process_current F t (N.of_nat (length data)) d m in
  step_ok t t' (it_part t) i /\ reply_ok t' (match r with Ok x => x | Err _ => None end).
Proof.
  intros t d i Hl Ht Hd m. pose proof Hl as (H1 & H2 & H3 & H4).
  assert (Hp : de_params d = fec_params F (part_of slice data (it_part t))
               /\ symbols_of F (part_of slice data (it_part t)) (de_packets d)).
  { destruct Hd as [Hd|[_ ->]]; [rewrite Hd in H4; destruct H4 as (A & B & _); tauto|].
    split; [reflexivity|constructor]. }
  destruct Hp as [Hp Hsym].
  assert (Hsym' : symbols_of F (part_of slice data (it_part t)) (de_packets d ++ [(ch_seqno m, ch_data m)])).
  { apply Forall_app. split; [exact Hsym|]. constructor; [reflexivity|constructor]. }
  pose proof (part_of_size slice data (it_part t) Hs H1) as Hsz.
  unfold process_current, decode. rewrite Hp.
  destruct (fec_sound F HF (part_of slice data (it_part t)) _ ltac:(lia) Hsym') as [He|He]; rewrite He.
  - (* more symbols are needed *)
    assert (Hdec : decoding (it_part t)
              (mk_decoder (fec_params F (part_of slice data (it_part t)))
                 (de_packets d ++ [(ch_seqno m, ch_data m)]) (ch_seqno m))).
    { split; [reflexivity|]. split; [exact Hsym'|]. split; [|exact He].
      cbn [de_packets]. intros Hn. apply app_eq_nil in Hn as [_ Hn]. discriminate. }
    assert (Hstep : forall c,
      step_ok t (set_confirm (set_decoder t (mk_decoder (fec_params F (part_of slice data (it_part t)))
                 (de_packets d ++ [(ch_seqno m, ch_data m)]) (ch_seqno m))) c) (it_part t) i).
    { intros c. unfold set_confirm, set_decoder, step_ok.
      cbn [it_total it_part it_max it_decoder it_data it_id it_confirm it_updates].
      split; [reflexivity|]. right.
      split; [|split; [lia|split; [left; reflexivity|]]].
      - unfold live. cbn [it_total it_part it_max it_decoder it_data it_id it_confirm it_updates].
        rewrite Ht. tauto.
      - intros _ _. split; [rewrite Ht; discriminate|].
        intros _. eexists. split; [reflexivity|]. cbn [de_packets]. split.
        + exists (ch_data m). apply in_or_app. right. left. reflexivity.
        + intros d0 x Hd0 Hx. apply in_or_app. left.
          destruct Hd as [Hd|[Hd _]]; [|congruence]. rewrite Hd in Hd0. injection Hd0 as <-. exact Hx. }
    cbv zeta. unfold set_decoder at 1.
    cbn [it_confirm].
    destruct (it_confirm t =? 9); split; try apply Hstep; intros id j Hj; discriminate.
  - (* the part is complete *)
    cbv zeta. unfold set_decoder. cbn [it_confirm it_data it_id it_part it_decoder it_total it_max it_updates].
    assert (Hall : it_data t ++ part_of slice data (it_part t) = first_parts slice data (it_part t + 1)).
    { rewrite H2. symmetry. apply first_parts_succ. }
    pose proof (first_parts_length slice data (it_part t)) as HL1.
    pose proof (first_parts_length slice data (it_part t + 1)) as HL2.
    pose proof (part_of_length slice data (it_part t)) as HL3.
    apply part_count_spec in H1 as H1'; [|exact Hs].
    destruct (N.of_nat (length data) <? N.of_nat (length (part_of slice data (it_part t)) + length (it_data t))) eqn:E1.
    { rewrite H2 in E1. lia. }
    rewrite Hall.
    destruct (N.of_nat (length (first_parts slice data (it_part t + 1))) <? N.of_nat (length data)) eqn:E2.
    + assert (Hlt : it_part t + 1 < part_count slice data) by (apply part_count_spec; [exact Hs|lia]).
      unfold step_ok, reply_ok.
      cbn [it_confirm it_data it_id it_part it_decoder it_total it_max it_updates]. split.
      * split; [reflexivity|]. right. split; [|split; [lia|split; [left; reflexivity|]]].
        -- unfold live. cbn [it_confirm it_data it_id it_part it_decoder it_total it_max it_updates].
           rewrite Ht. tauto.
        -- intros _ _. split; [rewrite Ht; discriminate|]. intros Hc. lia.
      * intros id j Hj. injection Hj as _ <-. cbn [ch_part m chunk_of]. left. lia.
    + assert (Hge : part_count slice data = it_part t + 1).
      { destruct (N.lt_ge_cases (it_part t + 1) (part_count slice data)) as [Hx|Hx]; [|lia].
        apply part_count_spec in Hx; [|exact Hs]. lia. }
      assert (Hdata : first_parts slice data (it_part t + 1) = data)
        by (apply first_parts_all; [exact Hs|lia]).
      unfold step_ok, reply_ok, finished.
      cbn [it_confirm it_data it_id it_part it_decoder it_total it_max it_updates].
      rewrite Hdata. split.
      * split; [reflexivity|]. left. rewrite Ht. repeat split; lia.
      * intros id j Hj. injection Hj as _ <-. cbn [ch_part m chunk_of]. right. rewrite Ht. repeat split; lia.
Qed.

Lemma fec_type_eqb_refl : forall a, fec_type_eqb a a = true.
Proof. intros a. unfold fec_type_eqb. now rewrite !N.eqb_refl. Qed.

Lemma process_part_live : forall t j i,
  live t -> it_total t = Some (N.of_nat (length data)) -> j < part_count slice data ->
  let '(t', r) := process_part F t (N.of_nat (length data)) (chunk_of F slice data j i) in
  step_ok t t' j i /\ reply_ok t' (match r with Ok x => x | Err _ => None end).
Proof.
  intros t j i Hl Ht Hj. pose proof Hl as (H1 & H2 & H3 & H4). unfold process_part. cbn [ch_part chunk_of].
  destruct (N.compare_spec j (it_part t)) as [->|Hlt|Hgt].
  - destruct (it_decoder t) as [d|] eqn:Ed.
    + destruct H4 as (A & _). cbn [ch_fec chunk_of]. rewrite A, fec_type_eqb_refl.
      apply process_current_live; auto.
    + apply process_current_live; auto.
  - split.
    + split; [reflexivity|]. right. split; [exact Hl|]. split; [lia|]. split; [left; reflexivity|].
      intros ->. lia.
    + intros id k Hk. injection Hk as _ <-. left. exact Hlt.
  - split.
    + split; [reflexivity|]. right. split; [exact Hl|]. split; [lia|]. split; [left; reflexivity|].
      intros ->. lia.
    + intros id k Hk. discriminate.
Qed.

Lemma receive_one_live : forall t j i, live t -> j < part_count slice data ->
  let '(t', r) := receive_one F t (chunk_of F slice data j i) in
  step_ok t t' j i /\ reply_ok t' r.
Proof.
  intros t j i Hl Hj. unfold receive_one.
  assert (H : let '(t', r) := process_chunk F t (chunk_of F slice data j i) in
              step_ok t t' j i /\ reply_ok t' (match r with Ok x => x | Err _ => None end)).
  { unfold process_chunk. cbn [ch_total chunk_of]. pose proof Hl as (H1 & H2 & H3 & H4).
    destruct (it_total t) as [n|] eqn:Et.
    - subst n. rewrite N.eqb_refl. now apply process_part_live.
    - destruct (it_max t <? N.of_nat (length data)) eqn:Em.
      + split; [|intros id k Hk; discriminate]. split; [reflexivity|]. right.
        split; [exact Hl|]. split; [lia|]. split; [left; reflexivity|]. intros _ [Hm|Hm]; [lia|congruence].
      + assert (Hl' : live (set_total t (N.of_nat (length data)))).
        { unfold live. cbn [it_part it_data it_total it_decoder set_total]. tauto. }
        pose proof (process_part_live (set_total t (N.of_nat (length data))) j i Hl' eq_refl Hj) as H.
        destruct (process_part F (set_total t (N.of_nat (length data))) (N.of_nat (length data))
                    (chunk_of F slice data j i)) as [t' r].
        destruct H as [[HA HB] HC]. split; [|exact HC]. split; [exact HA|].
        destruct HB as [HB|(B1 & B2 & B3 & B4)]; [left; exact HB|right].
        split; [exact B1|]. split; [exact B2|]. split; [|].
        * cbn [it_total set_total] in B3. right. destruct B3; assumption.
        * intros Hji Hm. apply B4; [exact Hji|]. right. discriminate. }
  destruct (process_chunk F t (chunk_of F slice data j i)) as [t' r]. exact H.
Qed.

(** A whole run. *)
Definition run_ok (t t' : incoming) : Prop :=
  it_max t' = it_max t /\ (finished t' \/ live t' /\ it_part t <= it_part t').

Lemma receive_live : forall ms t, live t -> Forall (honest F slice data) ms ->
  let '(t', replies) := receive F t ms in
  run_ok t t' /\ forall id j, In (MpComplete id j) replies -> j < it_part t' \/ finished t'.
Proof.
  intros ms. induction ms as [|m ms IH]; intros t Hl Hh.
  - cbn [receive]. split; [|intros id j []]. split; [reflexivity|]. right. split; [exact Hl|lia].
  - inversion Hh as [|? ? [j [i [Hj ->]]] Hh']. subst. cbn [receive].
    pose proof (receive_one_live t j i Hl Hj) as H1.
    destruct (receive_one F t (chunk_of F slice data j i)) as [t1 r] eqn:E1. destruct H1 as [[HA HB] HR].
    destruct HB as [HB|(B1 & B2 & _)].
    + rewrite (finished_done _ HB). split; [split; [exact HA|left; exact HB]|]. intros id k _. right. exact HB.
    + rewrite (live_not_done _ B1).
      specialize (IH t1 B1 Hh'). destruct (receive F t1 ms) as [t2 more]. destruct IH as [[IA IB] IR].
      split.
      * split; [congruence|]. destruct IB as [IB|[IB1 IB2]]; [left; exact IB|right]. split; [exact IB1|lia].
      * intros id k Hk. apply in_app_or in Hk as [Hk|Hk]; [|now apply (IR id)].
        destruct r as [r|]; [|destruct Hk]. destruct Hk as [->|[]].
        destruct (HR id k eq_refl) as [Hx|[Hx _]].
        -- destruct IB as [IB|[_ IB2]]; [right; exact IB|left; lia].
        -- exfalso. pose proof (finished_done _ Hx). pose proof (live_not_done _ B1). congruence.
Qed.

Lemma receive_pair_fst : forall t ms, live t -> Forall (honest F slice data) ms -> run_ok t (fst (receive F t ms)).
Proof.
  intros t ms Hl Hh. pose proof (receive_live ms t Hl Hh) as H. destruct (receive F t ms). apply H.
Qed.

Lemma new_live : forall id max, data <> [] -> live (incoming_new id max).
Proof.
  intros id max Hd. unfold live. cbn [it_part it_data it_total it_decoder incoming_new].
  split; [|split; [reflexivity|tauto]].
  apply part_count_spec; [exact Hs|]. destruct data; [congruence|cbn [length]; lia].
Qed.

(** No chunk without data. *)
Lemma honest_nonempty : forall m, honest F slice data m -> data <> [].
Proof.
  intros m (j & i & Hj & _) ->. apply part_count_spec in Hj; [|exact Hs]. cbn [length] in Hj. lia.
Qed.

(** Whatever of the sender's chunks arrives: what is there is the beginning of the data, and all of it
    when the transfer is complete. *)
Lemma receive_honest : forall id max ms, Forall (honest F slice data) ms ->
  let '(t, replies) := receive F (incoming_new id max) ms in
  it_data t = first_parts slice data (it_part t) /\ it_part t <= part_count slice data
    /\ incoming_done t = false
    /\ (forall k j, In (MpComplete k j) replies -> j < it_part t)
  \/ it_data t = data /\ incoming_done t = true.
Proof.
  intros id max ms Hh. destruct ms as [|m ms].
  - cbn [receive]. left. repeat split; [cbn; lia|intros k j []].
  - assert (Hd : data <> []) by (inversion Hh; subst; eapply honest_nonempty; eassumption).
    pose proof (receive_live (m :: ms) (incoming_new id max) (new_live id max Hd) Hh) as H.
    destruct (receive F (incoming_new id max) (m :: ms)) as [t replies].
    destruct H as [[_ [Hf|[Hl _]]] HR].
    + right. split; [apply Hf|now apply finished_done].
    + left. pose proof (live_not_done t Hl) as Hn.
      destruct Hl as (L1 & L2 & _). repeat split; [exact L2|lia|exact Hn|].
      intros k j Hin. destruct (HR k j Hin) as [Hx|Hx]; [exact Hx|].
      apply finished_done in Hx. congruence.
Qed.

(** Feeding all source symbols of the current part completes it. *)
Lemma feed_symbols : forall is t p, live t -> it_part t = p ->
  (N.of_nat (length data) <= it_max t \/ it_total t <> None) ->
  let t' := fst (receive F t (map (chunk_of F slice data p) is)) in
  finished t'
  \/ live t' /\ (p < it_part t'
     \/ it_part t' = p
        /\ (forall i, In i is -> exists d s, it_decoder t' = Some d /\ In (i, s) (de_packets d))
        /\ (forall d0 x, it_decoder t = Some d0 -> In x (de_packets d0) ->
            exists d, it_decoder t' = Some d /\ In x (de_packets d))).
Proof.
  intros is. induction is as [|i is IH]; intros t p Hl Hp Hm t'.
  - right. cbn [map receive fst] in t'. split; [exact Hl|]. right. split; [exact Hp|]. split; [intros ? []|].
    intros d0 x Hd Hx. exists d0. subst t'. tauto.
  - pose proof Hl as (L1 & _). rewrite Hp in L1.
    pose proof (receive_one_live t p i Hl L1) as H1.
    subst t'. cbn [map]. rewrite receive_cons.
    destruct (receive_one F t (chunk_of F slice data p i)) as [t1 r]. cbn [fst]. destruct H1 as [[HA HB] _].
    destruct HB as [HB|(B1 & B2 & B3 & B4)].
    + rewrite (finished_done _ HB). left. exact HB.
    + rewrite (live_not_done _ B1). destruct (B4 (eq_sym Hp) Hm) as [C1 C2].
      destruct (N.eq_dec (it_part t1) p) as [He|Hne].
      * specialize (C2 ltac:(congruence)). destruct C2 as (d & D1 & [s D2] & D3).
        specialize (IH t1 p B1 He (or_intror C1)). cbv zeta in IH.
        destruct IH as [IH|[I1 [I2|(I2 & I3 & I4)]]]; [left; exact IH|right; split; [exact I1|left; exact I2]|].
        right. split; [exact I1|]. right. split; [exact I2|]. split.
        -- intros k [->|Hk]; [|now apply I3]. destruct (I4 d (k, s) D1 D2) as [d' [Hd' Hin]]. eauto.
        -- intros d0 x Hd0 Hx. apply (I4 d x D1). eapply D3; eassumption.
      * assert (Hgt : p < it_part t1) by lia.
        assert (Hh : Forall (honest F slice data) (map (chunk_of F slice data p) is)).
        { apply Forall_forall. intros m Hin. apply in_map_iff in Hin as [k [<- _]]. exists p, k. tauto. }
        destruct (receive_pair_fst t1 _ B1 Hh) as [_ [Hf|[Hl2 Hpt]]]; [left; exact Hf|].
        right. split; [exact Hl2|]. left. lia.
Qed.

Lemma feed_part : forall t p, live t -> p <= it_part t -> N.of_nat (length data) <= it_max t ->
  let t' := fst (receive F t (source_chunks F slice data p)) in
  it_max t' = it_max t /\ (finished t' \/ live t' /\ p < it_part t').
Proof.
  intros t p Hl Hp Hm t'. pose proof Hl as (L1 & _).
  assert (Hh : Forall (honest F slice data) (source_chunks F slice data p)).
  { apply Forall_forall. intros m Hin. apply in_map_iff in Hin as [k [<- _]]. exists p, k. split; [lia|reflexivity]. }
  pose proof (receive_pair_fst t _ Hl Hh) as [Hmax Hrun]. split; [exact Hmax|].
  destruct (N.eq_dec p (it_part t)) as [He|Hne].
  - destruct (feed_symbols (numbers (fe_count F (part_of slice data p))) t p Hl (eq_sym He) (or_introl Hm))
      as [Hf|[Hl' [Hlt|(Hpt & Hall & _)]]]; [left; exact Hf|right; tauto|].
    exfalso. fold (source_chunks F slice data p) in Hl', Hpt, Hall. fold t' in Hl', Hpt, Hall.
    pose proof (part_of_size slice data p Hs ltac:(lia)) as Hsz.
    pose proof (fec_count_bounds F (part_of slice data p) HF ltac:(lia) ltac:(lia)) as Hc.
    destruct (Hall 0) as (d & s & Hd & _); [apply numbers_in; lia|].
    destruct Hl' as (_ & _ & _ & Hdec). rewrite Hd in Hdec. rewrite Hpt in Hdec.
    destruct Hdec as (E1 & E2 & E3 & E4).
    rewrite E1, (fec_complete F HF) in E4; try assumption; [discriminate|lia|].
    intros i Hi. destruct (Hall i) as (d' & s' & Hd' & Hin); [now apply numbers_in|].
    rewrite Hd in Hd'. injection Hd' as <-. eauto.
  - destruct Hrun as [Hf|[Hl' Hpt]]; [left; exact Hf|]. right. split; [exact Hl'|fold t' in Hpt; lia].
Qed.

Lemma feed_parts : forall n t, n <= part_count slice data -> live t -> N.of_nat (length data) <= it_max t ->
  let t' := fst (receive F t (flat_map (source_chunks F slice data) (numbers n))) in
  it_max t' = it_max t /\ (finished t' \/ live t' /\ n <= it_part t').
Proof.
  intros n. induction n as [|n IH] using N.peano_ind; intros t Hn Hl Hm t'.
  - split; [reflexivity|]. right. split; [exact Hl|lia].
  - subst t'. rewrite <- N.add_1_r in *. rewrite numbers_succ, flat_map_app. cbn [flat_map]. rewrite app_nil_r.
    rewrite receive_app by (now apply live_not_done).
    destruct (IH t ltac:(lia) Hl Hm) as [I1 [I2|[I2 I3]]].
    + rewrite (finished_done _ I2). split; [exact I1|left; exact I2].
    + rewrite (live_not_done _ I2).
      destruct (feed_part _ n I2 I3 ltac:(lia)) as [J1 J2]. split; [congruence|].
      destruct J2 as [J2|[J2 J3]]; [left; exact J2|right]. split; [exact J2|lia].
Qed.

(** After any history, all source symbols in order complete the transfer. *)
Lemma receive_completes : forall id max ms, data <> [] -> N.of_nat (length data) <= max ->
  Forall (honest F slice data) ms ->
  let t := fst (receive F (incoming_new id max) (ms ++ all_source_chunks F slice data)) in
  incoming_done t = true /\ it_data t = data.
Proof.
  intros id max ms Hd Hm Hh t. subst t. rewrite receive_app by reflexivity.
  destruct (receive_pair_fst _ ms (new_live id max Hd) Hh) as [Hmax [Hf|[Hl _]]].
  - rewrite (finished_done _ Hf). split; [now apply finished_done|apply Hf].
  - rewrite (live_not_done _ Hl). cbn [it_max incoming_new] in Hmax.
    destruct (feed_parts (part_count slice data) _ (N.le_refl _) Hl ltac:(lia)) as [_ [Hf|[Hl' Hx]]].
    + split; [now apply finished_done|apply Hf].
    + destruct Hl' as (L & _). exfalso. unfold all_source_chunks in *. lia.
Qed.
End Honest.
