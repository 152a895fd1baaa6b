(** An honest FEC broadcast arrives. *)
From stdpp Require Import gmap.
From Coq Require Import NArith Lia ZifyBool ZifyNat ZifyN.
From Verif.Base Require Import Bytes BytesFacts Res.
From Verif.Model Require Import Crypto Tl Scheme ProtoAdnl ProtoRldp ProtoOverlay AdnlNode History PeersSet
  Compression Fec DhtStorage Broadcast.
From Verif.Spec Require Import CryptoSpec HistorySpec CompressionSpec FecSpec DhtSpec OverlaySpec BroadcastSpec.
From Verif.Proof Require Import HistoryFacts CompressionFacts BroadcastFacts BroadcastAuth BroadcastLog.
Open Scope N_scope.

Lemma happened_shift : forall c s0 e0 evs s e, happened c (bc_step c s0 e0) evs s e -> happened c s0 (e0 :: evs) s e.
Proof. intros c s0 e0 evs s e (b & a & -> & ->). exists (e0 :: b), a. split; reflexivity. Qed.

Lemma timely_not_outdated : forall c s date, timely c s date ->
  outdated (bs_checks c) date (bo_timeout (bs_options c)) (now_sec s) = Some false.
Proof.
  intros c s date [H1 H2]. unfold outdated. rewrite (N.mod_small (bo_timeout _)) by lia.
  destruct (N.ltb_spec (date + bo_timeout (bs_options c)) (2 ^ 32)) as [H|H]; [|lia].
  f_equal. apply N.ltb_ge. exact H2.
Qed.

Lemma nth_error_snoc : forall {A} (l : list A) a j x, nth_error (l ++ [a]) j = Some x ->
  nth_error l j = Some x \/ j = length l /\ a = x.
Proof.
  intros A l a j x H. destruct (Nat.lt_ge_cases j (length l)) as [Hl|Hl].
  - left. now rewrite nth_error_app1 in H.
  - rewrite nth_error_app2 in H by exact Hl. destruct (j - length l)%nat as [|k] eqn:E; cbn in H.
    + injection H as <-. right. split; [lia|reflexivity].
    + destruct k; discriminate.
Qed.

Lemma wire_opens : forall c data compressed, zstd_ok (bs_zstd c) -> bytes_ok data = true -> N.of_nat (length data) < 2 ^ 32 ->
  wire c compressed data = data \/ decompress (bs_zstd c) (wire c compressed data) = Some data.
Proof.
  intros c data compressed Hz Hd Hl. unfold wire. destruct compressed; [|now left].
  destruct (N.leb_spec (N.of_nat (length data)) 256) as [H|H]; [left; now apply compress_short|right].
  now apply compress_roundtrip.
Qed.

Section live.
Context (c : bc_setup) (secret data : bytes) (compressed : bool).
Local Notation P := (bs_prims c).
Local Notation F := (bs_fec c).
Local Notation z := (bs_zstd c).
Local Notation key := (pub_of P secret).
Local Notation id := (sha256 P data).
Local Notation payload := (wire c compressed data).
Local Notation own date esi := (own_fec_packet P F secret id payload date esi).
Context (HP : prims_ok P) (HF : fec_ok F) (Hz : zstd_ok z).
Context (Hdata : bytes_ok data = true) (Hlen : N.of_nat (length payload) < 2 ^ 32) (Hdlen : N.of_nat (length data) < 2 ^ 32)
        (Hne : payload <> []).
Context (Huniq : forall u, decompress z payload = Some u -> sha256 P u = id -> u = data).

Lemma payload_size : N.of_nat (length payload) mod u32_max = N.of_nat (length payload).
Proof. apply N.mod_small. exact Hlen. Qed.

Lemma own_process : forall date esi d, de_params d = fec_params F payload ->
  symbols_of F payload (de_packets d) ->
  let packets := de_packets d ++ [(esi, fe_symbol F payload esi)] in
  let d' := mk_decoder (de_params d) packets esi in
  (fe_decode F (fec_params F payload) packets = None /\ process_fec P z F d (packet_of key (own date esi)) = (Ok None, d'))
  \/ process_fec P z F d (packet_of key (own date esi)) = (Ok (Some data), d').
Proof.
  intros date esi d Hd Hs packets d'. pose proof (wire_opens c data compressed Hz Hdata Hdlen) as Hopen. pose proof Huniq as Hu'. unfold process_fec.
  cbn [packet_of own_fec_packet bf_src bf_data_hash bf_data_size bf_flags bf_data bf_seqno bf_fec bf_date bf_signature
       fp_flags fp_key fp_hash fp_size fp_date fp_fec fp_data fp_seqno fp_signature].
  change (is_any_sender any_sender) with true. cbv iota.
  unfold verify_full. rewrite (sign_len P HP), (sign_verifies P HP). rewrite Nat.eqb_refl. cbn [andb negb].
  unfold decode. rewrite Hd. fold packets.
  assert (Hsp : symbols_of F payload packets).
  { apply List.Forall_app. split; [exact Hs|]. constructor; [reflexivity|constructor]. }
  destruct (fec_sound F HF payload packets Hlen Hsp) as [He|He]; rewrite He.
  - left. split; [reflexivity|]. unfold d'. now rewrite Hd.
  - right. cbn [fec_params ft_total_len]. rewrite payload_size, N.eqb_refl. cbn [negb]. unfold d'. rewrite Hd.
    destruct (decompress z payload) as [u|] eqn:Ez.
    + destruct (bytes_eqb (sha256 P u) id) eqn:Eu.
      * apply bytes_eqb_eq in Eu. rewrite (Hu' u) by auto. reflexivity.
      * destruct Hopen as [Hw|Hw]; [rewrite Hw; now rewrite bytes_eqb_refl|].
        assert (Hud : u = data) by congruence. rewrite Hud in Eu. rewrite bytes_eqb_refl in Eu. discriminate.
    + destruct Hopen as [Hw|Hw]; [rewrite Hw; now rewrite bytes_eqb_refl|]. congruence.
Qed.

Definition got (s : bstate) : Prop :=
  exists d, In d (br_delivered s) /\ dl_id d = id /\ dl_data d = data /\ dl_from d = node_id P key.

(** The broadcast is being received; [seen] are the symbols that arrived. *)
Record receiving (T : N) (seen : list N) (s : bstate) : Prop := mk_receiving
  { re_clock : T <= br_clock s;
    re_young : young (bs_options c) T id s;
    re_entry : exists x t, br_owned s !! id = Some (Incoming x)
      /\ nth_error (br_tasks s) (ic_task x) = Some t
      /\ ic_completed x = false /\ ic_source x = node_id P key
      /\ (exists known, inv (ic_history x) known /\ incl known seen)
      /\ tk_id t = id /\ tk_source t = node_id P key /\ tk_phase t = Running
      /\ de_params (tk_decoder t) = fec_params F payload
      /\ symbols_of F payload (de_packets (tk_decoder t))
      /\ (de_packets (tk_decoder t) = [] \/ fe_decode F (fec_params F payload) (de_packets (tk_decoder t)) = None)
      /\ Forall (fun p => exists date esi, p = packet_of key (own date esi)) (tk_queue t)
      /\ (forall n, In n seen -> In n (map fst (de_packets (tk_decoder t))) \/ In n (map fp_seqno (tk_queue t)))
      /\ (forall j t', nth_error (br_tasks s) j = Some t' -> tk_id t' = id -> j = ic_task x) }.

Record idle (s : bstate) : Prop := mk_idle
  { id_owned : br_owned s !! id = None;
    id_tasks : forall t, In t (br_tasks s) -> tk_id t <> id }.

Lemma delivered_step : forall s e d, In d (br_delivered s) -> In d (br_delivered (bc_step c s e)).
Proof.
  intros s e d Hd.
  destruct e as [ms|e peer raw b|e peer raw b|sec dat targets|sec dat targets|i|i|i|]; cbn [bc_step].
  - exact Hd.
  - destruct (receive_broadcast_cases P z (bs_checks c) (bs_options c) e s peer raw b) as [->|(dat & from & _ & _ & _ & _ & Hn & ->)]; [exact Hd|].
    cbn. apply in_or_app. now left.
  - destruct (receive_fec_cases P (bs_checks c) (bs_options c) e s peer raw b) as [->|(k & _ & _ & _ & _ & _ & Hc)]; [exact Hd|].
    cbv zeta in Hc.
    assert (Hs1 : br_delivered (with_entry (bs_options c) s (bf_fec b) (bf_data_hash b) (node_id P k)) = br_delivered s).
    { unfold with_entry. now destruct (br_owned s !! _). }
    rewrite <- Hs1 in Hd.
    destruct Hc as [[-> _]|(t & t' & Hown & _ & Hc)]; [exact Hd|].
    destruct Hc as [[-> _]|(_ & _ & targets & _ & [[_ ->]|(_ & task & _ & _ & ->)])]; exact Hd.
  - destruct (send_broadcast_cases P z (bs_options c) (bs_overlay c) sec s dat targets) as [->|(Hn & m & ->)]; exact Hd.
  - destruct (send_fec_cases P z (bs_options c) (bs_overlay c) sec s dat targets) as [->|(Hn & ->)]; exact Hd.
  - destruct (task_step_cases P z F s i) as [->|(t & Ht & Hc)]; [exact Hd|].
    destruct Hc as [(Hp & p & rest & r & de & Hq & Hpf & [[_ ->]|[(dat & _ & ->)|[_ ->]]])|[(Hp & Hq & -> & _)|(Hp & m & -> & Hm)]]; try exact Hd.
    cbn. apply in_or_app. now left.
  - unfold timer_step. destruct (nth_error _ _) as [t|] eqn:Ht; [|exact Hd]. destruct (_ <? _); [exact Hd|].
    destruct t as [i' due|i' due]; [destruct (match br_owned s !! i' with Some _ => _ | None => _ end)|]; exact Hd.
  - unfold push_step. now destruct (nth_error _ _).
  - unfold collector_step. destruct (br_collector s); [destruct (_ <? _)|destruct (br_finished s)| |]; exact Hd.
Qed.

(** A step that touches neither the entry nor its task. *)
Lemma receiving_other : forall T seen s s', receiving T seen s -> T <= br_clock s' -> young (bs_options c) T id s' ->
  br_owned s' !! id = br_owned s !! id ->
  (forall j t, nth_error (br_tasks s) j = Some t -> tk_id t = id -> nth_error (br_tasks s') j = Some t) ->
  (forall j t, nth_error (br_tasks s') j = Some t -> tk_id t = id -> nth_error (br_tasks s) j = Some t) ->
  receiving T seen s'.
Proof.
  intros T seen s s' [_ _ (x & t & H1 & H2 & H3)] Hc Hy Ho Ht Ht'. split; [exact Hc|exact Hy|].
  exists x, t. rewrite Ho. split; [exact H1|]. destruct H3 as (H3 & H4 & H5 & H6 & H7 & H8 & H9 & H10 & H11 & H12 & H13 & H14).
  split; [now apply Ht|]. repeat (split; [assumption|]). intros j t' Hj Hi. eapply H14; [apply Ht'; eassumption|exact Hi].
Qed.

Lemma entries_have_tasks : forall s, (exists clock evs, s = bc_run c (bstate_new clock) evs) ->
  forall i x, br_owned s !! i = Some (Incoming x) -> exists t, nth_error (br_tasks s) (ic_task x) = Some t /\ tk_id t = i.
Proof.
  intros s (clock & evs & ->) i x Hx. destruct (au_entries _ _ _ _ (auth_run c clock evs) i x Hx) as (t & H1 & H2 & _).
  now exists t.
Qed.

Definition reachable (s : bstate) : Prop := exists clock evs, s = bc_run c (bstate_new clock) evs.
Lemma reachable_step : forall s e, reachable s -> reachable (bc_step c s e).
Proof. intros s e (clock & evs & ->). exists clock, (evs ++ [e]). now rewrite bc_run_last. Qed.
Lemma reachable_log : forall s, reachable s -> log_ok s.
Proof. intros s (clock & evs & ->). apply log_run. Qed.

Lemma update_other : forall l i f t j, nth_error l i = Some t -> j <> i -> nth_error (update_task l i f) j = nth_error l j.
Proof. intros l i f t j H Hj. rewrite (update_task_nth _ _ _ _ j H). destruct (Nat.eqb_spec j i); congruence. Qed.

(** Idle, and the event is not about [id]. *)
Lemma idle_other : forall s e, ~ about c id (now_sec s) e -> (forall ee peer raw b, e = EvFec ee peer raw b -> bf_data_hash b <> id) ->
  idle s -> idle (bc_step c s e).
Proof.
  intros s e Ha Hf [H1 H2]. split.
  - destruct (br_owned (bc_step c s e) !! id) eqn:E; [exfalso|reflexivity].
    assert (Hs : is_Some (br_owned (bc_step c s e) !! id)) by (rewrite E; eauto). clear E. revert Hs.
    destruct e as [ms|e peer raw b|e peer raw b|sec dat targets|sec dat targets|i|i|i|].
    4:{ intros Hs. cbn [bc_step] in Hs. destruct (send_broadcast_cases P z (bs_options c) (bs_overlay c) sec s dat targets) as [He|(_ & m & He)]; rewrite He in Hs.
        - rewrite H1 in Hs. now destruct Hs.
        - cbn [br_owned] in Hs. apply insert_dom in Hs as [Hs|Hs]; [now apply Ha|rewrite H1 in Hs; now destruct Hs]. }
    all: intros Hs; rewrite (fresh_step c id s) in Hs; [now destruct Hs|intros now; exact Ha|exact H1].
  - intros t.
    destruct e as [ms|e peer raw b|e peer raw b|sec dat targets|sec dat targets|i|i|i|]; cbn [bc_step].
    + apply H2.
    + destruct (receive_broadcast_cases P z (bs_checks c) (bs_options c) e s peer raw b) as [->|(dat & from & _ & _ & _ & _ & Hn & ->)]; apply H2.
    + assert (Hb : bf_data_hash b <> id) by (eapply Hf; reflexivity).
      destruct (receive_fec_cases P (bs_checks c) (bs_options c) e s peer raw b) as [->|(k & _ & _ & _ & _ & _ & Hc)]; [apply H2|].
      cbv zeta in Hc.
      assert (Hs1 : forall t, In t (br_tasks (with_entry (bs_options c) s (bf_fec b) (bf_data_hash b) (node_id P k))) -> tk_id t <> id).
      { unfold with_entry. destruct (br_owned s !! bf_data_hash b); [exact H2|]. cbn. intros t' Ht'. apply in_app_or in Ht' as [Ht'|[<-|[]]]; [now apply H2|exact Hb]. }
      destruct Hc as [[-> _]|(x & x' & Hown & _ & Hc)]; [apply Hs1|].
      destruct Hc as [[-> _]|(_ & _ & targets & _ & [[_ ->]|(_ & task & Hn & _ & ->)])]; [apply Hs1|apply Hs1|].
      cbn [distribute set_tasks set_owned br_tasks]. intros Ht. destruct (update_task_in _ _ _ _ _ Hn Ht) as [->|Hin]; [|now apply Hs1].
      cbn [push_packet tk_id]. apply Hs1. eapply nth_error_In, Hn.
    + destruct (send_broadcast_cases P z (bs_options c) (bs_overlay c) sec s dat targets) as [->|(Hn & m & ->)]; apply H2.
    + destruct (send_fec_cases P z (bs_options c) (bs_overlay c) sec s dat targets) as [->|(Hn & ->)]; apply H2.
    + destruct (task_step_cases P z F s i) as [->|(t0 & Ht & Hc)]; [apply H2|].
      destruct Hc as [(Hp & p & rest & r & de & Hq & Hpf & [[_ ->]|[(dat & _ & ->)|[_ ->]]])|[(Hp & Hq & -> & _)|(Hp & m & -> & Hm)]];
      cbn [deliver_data set_tasks set_owned br_tasks]; intros Hin; destruct (update_task_in _ _ _ _ _ Ht Hin) as [->|Hin']; try (now apply H2); cbn [tk_id]; apply H2; eapply nth_error_In, Ht.
    + unfold timer_step. destruct (nth_error _ _) as [t0|] eqn:Ht; [|apply H2]. destruct (_ <? _); [apply H2|].
      destruct t0 as [i' due|i' due]; [destruct (match br_owned s !! i' with Some _ => _ | None => _ end)|]; apply H2.
    + unfold push_step. destruct (nth_error _ _); apply H2.
    + unfold collector_step. destruct (br_collector s); [destruct (_ <? _)|destruct (br_finished s)| |]; apply H2.
Qed.

(** A genuine packet arrives at a node that has an entry or nothing. *)
Lemma own_receive : forall s e peer raw date esi, timely c s date -> esi < 2 ^ 32 ->
  let b := own date esi in
  let s1 := with_entry (bs_options c) s (fec_params F payload) id (node_id P key) in
  forall x t, br_owned s1 !! id = Some (Incoming x) -> nth_error (br_tasks s1) (ic_task x) = Some t ->
  tk_phase t = Running -> ic_completed x = false -> ic_source x = node_id P key ->
  forall known, inv (ic_history x) known ->
  exists h u, let s' := bc_step c s (EvFec e peer raw b) in
    br_clock s' = br_clock s1 /\ br_timers s' = br_timers s1 /\ br_delivered s' = br_delivered s1
    /\ (forall i, i <> id -> br_owned s' !! i = br_owned s1 !! i)
    /\ br_owned s' !! id = Some (Incoming (mk_incoming (ic_task x) false h (ic_source x) (ic_started x) u))
    /\ ((fst (spec_deliver known esi) = true /\ inv h (snd (spec_deliver known esi))
         /\ br_tasks s' = update_task (br_tasks s1) (ic_task x) (push_packet (packet_of key b)))
        \/ (fst (spec_deliver known esi) = false /\ inv h known /\ br_tasks s' = br_tasks s1)).
Proof.
  intros s e peer raw date esi Ht He b s1 x t Hx Htk Hp Hc Hs known Hk. cbv zeta. cbn [bc_step]. unfold receive_fec.
  subst b. cbn [own_fec_packet bf_date bf_src bf_data_hash bf_signature bf_fec bf_seqno bf_data_size bf_flags bf_data].
  rewrite (timely_not_outdated c s date Ht). unfold full_id. rewrite (pub_valid P HP).
  rewrite (sign_len P HP). cbn [Nat.eqb negb].
  change (short_id P key) with (node_id P key).
  change (match br_owned s !! id with Some _ => s | None => spawn_fec_receiver (bs_options c) s (fec_params F payload) id (node_id P key) end) with s1.
  rewrite Hx, Hs, bytes_eqb_refl. cbn [negb].
  destruct (deliver_spec (bs_checks c) (ic_history x) known esi Hk) as (o & h & Ed & Hpan & Hb & Hinv & _); [lia|lia|].
  rewrite Ed, Hc. cbv iota. destruct o; [| |congruence]; cbn [bool_of] in Hb.
  - cbn [set_owned br_tasks]. rewrite Htk, Hp. exists h. eexists. cbn [snd distribute set_tasks set_owned br_clock br_timers br_delivered br_owned br_tasks].
    split; [reflexivity|]. split; [reflexivity|]. split; [reflexivity|].
    split; [intros i Hi; now rewrite !lookup_insert_ne by congruence|]. split; [rewrite lookup_insert; reflexivity|].
    left. split; [now symmetry|]. split; [exact Hinv|reflexivity].
  - exists (ic_history x). eexists. cbn [snd set_owned br_clock br_timers br_delivered br_owned br_tasks].
    split; [reflexivity|]. split; [reflexivity|]. split; [reflexivity|].
    split; [intros i Hi; now rewrite !lookup_insert_ne by congruence|]. split; [rewrite lookup_insert; reflexivity|].
    right. split; [now symmetry|]. split; [exact Hk|reflexivity].
Qed.

Lemma known_seen : forall known seen esi, incl known seen -> incl (snd (spec_deliver known esi)) (esi :: seen).
Proof.
  intros known seen esi Hi. unfold spec_deliver. destruct (256 <=? esi); [intros y []|].
  destruct (existsb _ _); intros y Hy; cbn [snd] in Hy.
  - right. now apply Hi.
  - destruct Hy as [<-|Hy]; [now left|right; now apply Hi].
Qed.

Lemma rejected_seen : forall known seen esi, incl known seen -> fst (spec_deliver known esi) = false -> In esi seen.
Proof.
  intros known seen esi Hi H. unfold spec_deliver in H. destruct (256 <=? esi); [discriminate|].
  destruct (existsb (N.eqb esi) known) eqn:E; [|discriminate]. apply existsb_exists in E as (y & Hy & Heq).
  apply N.eqb_eq in Heq. subst y. now apply Hi.
Qed.

Lemma first_packet : forall s e peer raw date esi, timely c s date -> esi < 2 ^ 32 -> idle s ->
  receiving (br_clock s) [esi] (bc_step c s (EvFec e peer raw (own date esi))).
Proof.
  intros s e peer raw date esi Ht He [H1 H2].
  set (x := mk_incoming (length (br_tasks s)) false history_new (node_id P key) (br_clock s) 0).
  set (t := mk_fec_task id (node_id P key) [] (decoder_new (fec_params F payload)) 0 Running).
  assert (Hs1 : with_entry (bs_options c) s (fec_params F payload) id (node_id P key)
                = spawn_fec_receiver (bs_options c) s (fec_params F payload) id (node_id P key)).
  { unfold with_entry. now rewrite H1. }
  pose proof (own_receive s e peer raw date esi Ht He) as Hr. cbv zeta in Hr. rewrite Hs1 in Hr.
  assert (Hx : br_owned (spawn_fec_receiver (bs_options c) s (fec_params F payload) id (node_id P key)) !! id = Some (Incoming x)).
  { unfold spawn_fec_receiver. cbn. now rewrite lookup_insert. }
  assert (Hn : nth_error (br_tasks (spawn_fec_receiver (bs_options c) s (fec_params F payload) id (node_id P key))) (ic_task x) = Some t).
  { unfold spawn_fec_receiver. cbn [set_timers set_tasks set_owned br_tasks x ic_task]. rewrite nth_error_app2, Nat.sub_diag by lia. reflexivity. }
  destruct (Hr x t Hx Hn eq_refl eq_refl eq_refl [] inv_new) as (h & u & R1 & R2 & R3 & R4 & R5 & R6).
  assert (Hacc : fst (spec_deliver [] esi) = true) by (unfold spec_deliver; now destruct (256 <=? esi)).
  destruct R6 as [(_ & R6 & R7)|(R6 & _)]; [|congruence].
  set (s' := bc_step c s (EvFec e peer raw (own date esi))) in *.
  split.
  - rewrite R1. cbn. lia.
  - exists (Cleanup id (br_clock s + bo_timeout (bs_options c) * 100)). split; [|split; [reflexivity|exact I]].
    rewrite R2. cbn. apply in_or_app. right. now left.
  - eexists _, _. split; [exact R5|]. cbn [ic_task]. rewrite R7. rewrite (update_task_nth _ _ _ _ _ Hn), Nat.eqb_refl.
    split; [reflexivity|]. cbn [ic_completed ic_source ic_history push_packet tk_id tk_source tk_phase tk_decoder tk_queue t].
    split; [reflexivity|]. split; [reflexivity|]. split.
    { exists (snd (spec_deliver [] esi)). split; [exact R6|]. apply known_seen. intros y []. }
    split; [reflexivity|]. split; [reflexivity|]. split; [reflexivity|]. split; [reflexivity|].
    split; [constructor|]. split; [now left|]. split; [constructor; [eauto|constructor]|].
    split.
    { intros n [<-|[]]. right. now left. }
    intros j t' Hj Hi. rewrite (update_task_nth _ _ _ _ j Hn) in Hj.
    destruct (Nat.eqb_spec j (ic_task x)) as [E|E]; [exact E|]. exfalso.
    unfold spawn_fec_receiver in Hj. cbn [set_timers set_tasks set_owned br_tasks] in Hj.
    apply nth_error_snoc in Hj as [Hj|[Hj _]]; [exact (H2 _ (nth_error_In _ _ Hj) Hi)|]. exact (E Hj).
Qed.

Lemma next_packet : forall T seen s e peer raw date esi, timely c s date -> esi < 2 ^ 32 -> receiving T seen s ->
  receiving T (esi :: seen) (bc_step c s (EvFec e peer raw (own date esi))).
Proof.
  intros T seen s e peer raw date esi Ht He [Hc Hy (x & t & H1 & H2 & H3 & H4 & (known & H5 & H5') & H6 & H7 & H8 & H9 & H10 & H11 & H12 & H13 & H14)].
  assert (Hs1 : with_entry (bs_options c) s (fec_params F payload) id (node_id P key) = s).
  { unfold with_entry. now rewrite H1. }
  pose proof (own_receive s e peer raw date esi Ht He) as Hr. cbv zeta in Hr. rewrite Hs1 in Hr.
  destruct (Hr x t H1 H2 H8 H3 H4 known H5) as (h & u & R1 & R2 & R3 & R4 & R5 & R6).
  set (s' := bc_step c s (EvFec e peer raw (own date esi))) in *.
  split.
  - rewrite R1. exact Hc.
  - destruct Hy as (y & Hy & Hy'). exists y. now rewrite R2.
  - destruct R6 as [(_ & R6 & R7)|(Hrej & R6 & R7)].
    + eexists _, _. split; [exact R5|]. cbn [ic_task]. rewrite R7. rewrite (update_task_nth _ _ _ _ _ H2), Nat.eqb_refl.
      split; [reflexivity|]. cbn [ic_completed ic_source ic_history push_packet tk_id tk_source tk_phase tk_decoder tk_queue].
      split; [reflexivity|]. split; [exact H4|]. split.
      { eexists. split; [exact R6|]. now apply known_seen. }
      repeat (split; [assumption|]). split.
      { apply List.Forall_app. split; [exact H12|]. constructor; [eauto|constructor]. }
      split.
      { intros n Hn. rewrite map_app, in_app_iff. cbn [map]. destruct Hn as [<-|Hn].
        - right. right. now left.
        - destruct (H13 n Hn) as [Hd|Hq]; auto. }
      intros j t' Hj Hi. rewrite (update_task_nth _ _ _ _ j H2) in Hj.
      destruct (Nat.eqb_spec j (ic_task x)) as [E|E]; [exact E|]. now apply (H14 j t').
    + eexists _, t. split; [exact R5|]. cbn [ic_task]. rewrite R7. split; [exact H2|].
      cbn [ic_completed ic_source ic_history].
      split; [reflexivity|]. split; [exact H4|]. split.
      { exists known. split; [exact R6|]. intros y Hy'. right. now apply H5'. }
      repeat (split; [assumption|]). split; [|exact H14].
      intros n [<-|Hn]; [|now apply H13]. apply H13. eapply rejected_seen; eauto.
Qed.

(** The task of the broadcast runs, or another one. *)
Lemma task_receiving : forall T seen s i, receiving T seen s ->
  got (task_step P z F s i) \/ receiving T seen (task_step P z F s i).
Proof.
  intros T seen s i Hr. pose proof Hr as [Hc Hy (x & t & H1 & H2 & H3 & H4 & H5 & H6 & H7 & H8 & H9 & H10 & H11 & H12 & H13 & H14)].
  destruct (task_step_cases P z F s i) as [->|(t0 & Ht & Hcase)]; [now right|].
  destruct (Nat.eq_dec i (ic_task x)) as [->|Hi].
  - rewrite H2 in Ht. injection Ht as <-.
    destruct Hcase as [(Hp & p & rest & r & d & Hq & Hpf & Hcase)|[(Hp & Hq & -> & Hno)|(Hp & _)]].
    + rewrite Hq in H12, H13. apply List.Forall_cons_iff in H12 as [(date & esi & ->) H12].
      destruct (own_process date esi (tk_decoder t) H9 H10) as [[Hdec Hpr]|Hpr]; rewrite Hpf in Hpr; injection Hpr as Hr1 Hr2; subst r d.
      * destruct Hcase as [[_ ->]|[(dat & Hx & _)|[Hx _]]]; [|discriminate|discriminate]. right.
        split; [exact Hc|exact Hy|]. eexists x, _. split; [exact H1|].
        cbn [set_tasks br_tasks]. rewrite (update_task_nth _ _ _ _ _ H2), Nat.eqb_refl. split; [reflexivity|].
        cbn [tk_id tk_source tk_phase tk_decoder tk_queue de_params de_packets].
        repeat (split; [assumption || reflexivity|]). split.
        { apply List.Forall_app. split; [exact H10|]. constructor; [reflexivity|constructor]. }
        split; [right; exact Hdec|]. split; [exact H12|]. split.
        { intros n Hn. rewrite map_app, in_app_iff. cbn [map fst]. destruct (H13 n Hn) as [Hd|[Hq'|Hq']]; auto.
          cbn in Hq'. left. right. now left. }
        intros j t' Hj Hi. rewrite (update_task_nth _ _ _ _ j H2) in Hj.
        destruct (Nat.eqb_spec j (ic_task x)) as [E|E]; [exact E|]. now apply (H14 j t').
      * destruct Hcase as [[Hx _]|[(dat & Hx & ->)|[Hx _]]]; [discriminate| |discriminate]. left.
        injection Hx as <-. eexists. split; [cbn; apply in_or_app; right; now left|]. cbn [dl_id dl_data dl_from]. auto.
    + exfalso. now apply (Hno id x).
    + congruence.
  - right. assert (Hid : tk_id t0 <> id) by (intros E; apply Hi; now apply (H14 i t0)).
    assert (Hup : forall f s1, br_tasks s1 = update_task (br_tasks s) i f -> tk_id (f t0) = tk_id t0 ->
      (forall j t, nth_error (br_tasks s) j = Some t -> tk_id t = id -> nth_error (br_tasks s1) j = Some t)
      /\ (forall j t, nth_error (br_tasks s1) j = Some t -> tk_id t = id -> nth_error (br_tasks s) j = Some t)).
    { intros f s1 Hs1 Hf. split; intros j t' Hj Hj'.
      - rewrite Hs1, (update_other _ _ _ _ j Ht); [exact Hj|]. intros ->. congruence.
      - rewrite Hs1, (update_task_nth _ _ _ _ j Ht) in Hj. destruct (Nat.eqb_spec j i) as [->|E]; [|exact Hj].
        injection Hj as <-. congruence. }
    destruct Hcase as [(Hp & p & rest & r & d & Hq & Hpf & [[_ ->]|[(dat & _ & ->)|[_ ->]]])|[(Hp & Hq & -> & _)|(Hp & m & -> & Hm)]].
    all: match goal with |- receiving _ _ ?s1 => match s1 with context [update_task _ _ ?f] =>
           destruct (Hup f s1 eq_refl eq_refl) as [Hu1 Hu2] end end.
    1-4: apply (receiving_other T seen s); [exact Hr|exact Hc|exact Hy|reflexivity|exact Hu1|exact Hu2].
    apply (receiving_other T seen s); [exact Hr|exact Hc|exact Hy| |exact Hu1|exact Hu2].
    cbn [set_tasks set_owned br_owned]. destruct Hm as [->|(k & Hk & ->)]; [reflexivity|]. now rewrite lookup_insert_ne.
Qed.

Lemma other_fec : forall T seen s e peer raw b, reachable s -> receiving T seen s -> bf_data_hash b <> id ->
  receiving T seen (snd (receive_fec P (bs_checks c) (bs_options c) e s peer raw b)).
Proof.
  intros T seen s e peer raw b Hreach Hr Hb.
  destruct (receive_fec_cases P (bs_checks c) (bs_options c) e s peer raw b) as [->|(k & _ & _ & _ & _ & _ & Hcase)]; [exact Hr|].
  cbv zeta in Hcase.
  assert (Hs1 : receiving T seen (with_entry (bs_options c) s (bf_fec b) (bf_data_hash b) (node_id P k))
      /\ forall x t, br_owned (with_entry (bs_options c) s (bf_fec b) (bf_data_hash b) (node_id P k)) !! bf_data_hash b = Some (Incoming x) ->
          nth_error (br_tasks (with_entry (bs_options c) s (bf_fec b) (bf_data_hash b) (node_id P k))) (ic_task x) = Some t -> tk_id t <> id).
  { unfold with_entry. destruct (br_owned s !! bf_data_hash b) as [o|] eqn:E.
    - split; [exact Hr|]. intros x t Hx Ht. destruct (entries_have_tasks s Hreach _ _ Hx) as (t' & Ht' & Hi). congruence.
    - split.
      + pose proof Hr as [Hc Hy _]. apply (receiving_other T seen s); [exact Hr|exact Hc| | | |].
        * eapply young_more; [|exact Hy]. intros t Ht. cbn. apply in_or_app. now left.
        * cbn. now rewrite lookup_insert_ne.
        * intros j t Hj _. cbn. rewrite nth_error_app1; [exact Hj|]. apply nth_error_Some. congruence.
        * cbn. intros j t Hj Hi. apply nth_error_snoc in Hj as [Hj|[_ <-]]; [exact Hj|]. cbn in Hi. congruence.
      + intros x t Hx. cbn in Hx. rewrite lookup_insert in Hx. injection Hx as <-. cbn [ic_task].
        cbn. rewrite nth_error_app2, Nat.sub_diag by lia. cbn. intros Ht. injection Ht as <-. exact Hb. }
  set (s1 := with_entry _ _ _ _ _) in *. destruct Hs1 as [Hs1 Htask].
  pose proof Hs1 as [Hc1 Hy1 _].
  destruct Hcase as [[-> _]|(x & x' & Hown & _ & Hcase)]; [exact Hs1|].
  destruct Hcase as [[-> _]|(_ & _ & targets & _ & [[_ ->]|(_ & task & Hn & _ & ->)])].
  - apply (receiving_other T seen s1); auto. cbn. now rewrite lookup_insert_ne.
  - apply (receiving_other T seen s1); auto. cbn. now rewrite lookup_insert_ne.
  - specialize (Htask x task Hown Hn).
    apply (receiving_other T seen s1); auto.
    + cbn. now rewrite lookup_insert_ne.
    + cbn. intros j t Hj Hi. rewrite (update_other _ _ _ _ j Hn); [exact Hj|]. intros ->. congruence.
    + cbn. intros j t Hj Hi. rewrite (update_task_nth _ _ _ _ j Hn) in Hj. destruct (Nat.eqb_spec j (ic_task x)); [|exact Hj].
      injection Hj as <-. cbn in Hi. congruence.
Qed.

Lemma receiving_step : forall T seen s e, reachable s -> receiving T seen s ->
  br_clock (bc_step c s e) < T + bo_timeout (bs_options c) * 1000 ->
  (forall ee peer raw b, e = EvFec ee peer raw b -> bf_data_hash b <> id) ->
  got (bc_step c s e) \/ receiving T seen (bc_step c s e).
Proof.
  intros T seen s e Hreach Hr Hclk Hf. pose proof Hr as [Hc Hy (x & t & Ho & _)].
  pose proof (proj1 (clock_step c s e)) as Hm.
  assert (Hy' : young (bs_options c) T id (bc_step c s e)).
  { destruct (young_step c T id s e Hc Hy) as [H|H]; [exact H|lia]. }
  assert (Hsame : br_tasks (bc_step c s e) = br_tasks s -> br_owned (bc_step c s e) !! id = br_owned s !! id -> receiving T seen (bc_step c s e)).
  { intros Ht Hown. apply (receiving_other T seen s); auto; [lia| |]; rewrite Ht; auto. }
  destruct e as [ms|e peer raw b|e peer raw b|sec dat targets|sec dat targets|i|i|i|]; cbn [bc_step] in *.
  - right. now apply Hsame.
  - right. destruct (receive_broadcast_cases P z (bs_checks c) (bs_options c) e s peer raw b) as [He|(dat & from & _ & _ & _ & _ & Hn & He)]; [now rewrite He|].
    apply Hsame; rewrite He; [reflexivity|]. cbn [accepted_state br_owned]. rewrite lookup_insert_ne; [reflexivity|]. intros E. rewrite E, Ho in Hn. discriminate.
  - right. apply other_fec; auto. eapply Hf. reflexivity.
  - right. destruct (send_broadcast_cases P z (bs_options c) (bs_overlay c) sec s dat targets) as [He|(Hn & m & He)]; [now rewrite He|].
    apply Hsame; rewrite He; [reflexivity|]. cbn [accepted_state br_owned]. rewrite lookup_insert_ne; [reflexivity|]. intros E. rewrite E, Ho in Hn. discriminate.
  - right. destruct (send_fec_cases P z (bs_options c) (bs_overlay c) sec s dat targets) as [He|(Hn & He)]; [now rewrite He|].
    apply Hsame; rewrite He; [reflexivity|]. cbn [accepted_state br_owned]. rewrite lookup_insert_ne; [reflexivity|]. intros E. rewrite E, Ho in Hn. discriminate.
  - now apply task_receiving.
  - right. apply Hsame; unfold timer_step; (destruct (nth_error _ _) as [t0|]; [|reflexivity]); (destruct (_ <? _); [reflexivity|]);
      (destruct t0 as [i' due|i' due]; [destruct (match br_owned s !! i' with Some _ => _ | None => _ end)|]); reflexivity.
  - right. apply Hsame; unfold push_step; destruct (nth_error _ _); reflexivity.
  - right. pose proof (young_owned _ _ _ _ (reachable_log _ (reachable_step s EvCollect Hreach)) Hy') as Hs.
    cbn [bc_step] in Hs.
    apply Hsame; unfold collector_step in *; destruct (br_collector s); try reflexivity; try (destruct (_ <? _); reflexivity); try (destruct (br_finished s); reflexivity).
    cbn [bc_step set_collector set_owned br_owned] in Hs |- *. apply lookup_delete_is_Some in Hs as [Hneq _]. now rewrite lookup_delete_ne.
Qed.

(** Packets that make no difference. *)
Lemma unusable_packet : forall s e peer raw b, unusable c s b -> bc_step c s (EvFec e peer raw b) = s.
Proof.
  intros s e peer raw b H. cbn [bc_step]. unfold receive_fec. destruct H as [[H1 H2]|[H|H]].
  - assert (Ho : outdated (bs_checks c) (bf_date b) (bo_timeout (bs_options c)) (now_sec s) = Some true).
    { unfold outdated. rewrite (N.mod_small (bo_timeout _)) by lia.
      destruct (N.ltb_spec (bf_date b + bo_timeout (bs_options c)) (2 ^ 32)) as [_|?]; [|lia]. f_equal. now apply N.ltb_lt. }
    now rewrite Ho.
  - destruct (outdated _ _ _ _) as [[]|]; try reflexivity. destruct (full_id P (bf_src b)); [|reflexivity].
    destruct (Nat.eqb_spec (length (bf_signature b)) 64); [contradiction|reflexivity].
  - destruct (outdated _ _ _ _) as [[]|]; try reflexivity. unfold full_id.
    destruct (bf_src b) as [key0| | |]; try reflexivity. now rewrite (H key0 eq_refl).
Qed.
Lemma foreign_packet : forall T seen s e peer raw b, receiving T seen s -> bf_data_hash b = id -> foreign c b secret ->
  receiving T seen (bc_step c s (EvFec e peer raw b)).
Proof.
  intros T seen s e peer raw b Hr Hb Hf. pose proof Hr as [Hc Hy (x & t & H1 & H2 & H3 & H4 & H5 & H6)].
  cbn [bc_step]. unfold receive_fec. destruct (outdated _ _ _ _) as [[]|]; try exact Hr. unfold full_id.
  destruct (bf_src b) as [key0| | |] eqn:Es; try exact Hr. destruct (valid_pub P key0); [|exact Hr]. cbv zeta.
  destruct (negb _); [exact Hr|]. rewrite Hb, H1, H1, H4. change (short_id P key0) with (node_id P key0).
  destruct (bytes_eqb (node_id P key) (node_id P key0)) eqn:E.
  - apply bytes_eqb_eq in E. exfalso. exact (Hf key0 Es (eq_sym E)).
  - cbn [negb snd]. split; [exact Hc|exact Hy|]. eexists _, t. cbn [set_owned br_owned br_tasks].
    split; [apply lookup_insert|]. cbn [ic_task ic_completed ic_source ic_history]. split; [exact H2|]. split; [exact H3|].
    split; [reflexivity|]. split; [exact H5|exact H6].
Qed.
Lemma arrived_more : forall s0 evs more n, symbol_in_time c s0 evs secret id payload n ->
  symbol_in_time c s0 (evs ++ more) secret id payload n.
Proof. intros s0 evs more n (s & e & peer & raw & date & H & Ht). exists s, e, peer, raw, date. split; [now apply happened_more|exact Ht]. Qed.
Lemma happened_snoc : forall s0 evs e s ev, happened c s0 (evs ++ [e]) s ev ->
  happened c s0 evs s ev \/ ev = e /\ s = bc_run c s0 evs.
Proof.
  intros s0 evs e s ev (before & after & H & ->). destruct after as [|a after _] using rev_ind.
  - apply app_inj_tail in H as [-> ->]. now right.
  - rewrite app_comm_cons, app_assoc in H. apply app_inj_tail in H as [-> _]. left. now exists before, after.
Qed.

Lemma source_symbols : 1 <= fe_count F payload.
Proof.
  rewrite (fec_count F HF). unfold symbol_size. assert (0 < length payload)%nat by (destruct payload; [congruence|cbn; lia]).
  apply N.div_le_lower_bound; lia.
Qed.

Lemma progress : forall s0 evs, reachable s0 -> idle s0 ->
  undisturbed c s0 evs secret id data payload ->
  br_clock (bc_run c s0 evs) < br_clock s0 + bo_timeout (bs_options c) * 1000 ->
  let s := bc_run c s0 evs in
  reachable s /\ (got s
  \/ (idle s /\ forall n, ~ symbol_in_time c s0 evs secret id payload n)
  \/ exists T seen, br_clock s0 <= T /\ receiving T seen s /\ forall n, symbol_in_time c s0 evs secret id payload n -> In n seen).
Proof.
  intros s0 evs Hreach Hidle. induction evs as [|e evs IH] using rev_ind; intros Hg Hclk; cbv zeta.
  - split; [exact Hreach|]. right. left. split; [exact Hidle|]. intros n (s & ee & peer & raw & date & (b & a & H & _) & _).
    destruct b; discriminate H.
  - rewrite bc_run_last in *. pose proof (proj1 (clock_step c (bc_run c s0 evs) e)) as Hm.
    destruct IH as [Hr IH].
    { destruct Hg as [Hg1 Hg2]. split.
      - intros before ee peer raw b after ->. apply (Hg1 before ee peer raw b (after ++ [e])). now rewrite <- app_assoc.
      - intros s ev Hh. apply Hg2. now apply happened_more. }
    { lia. }
    set (s := bc_run c s0 evs) in *. split; [now apply reachable_step|].
    destruct Hg as [Hg1 Hg2]. pose proof (happened_last c s0 evs e) as Hlast. fold s in Hlast.
    assert (Harr : forall n, symbol_in_time c s0 (evs ++ [e]) secret id payload n -> symbol_in_time c s0 evs secret id payload n
              \/ exists ee peer raw date, e = EvFec ee peer raw (own date n) /\ timely c s date).
    { intros n (s' & ee & peer & raw & date & Hh & Ht). apply happened_snoc in Hh as [Hh|[Hh Es]].
      - left. now exists s', ee, peer, raw, date.
      - right. subst s'. exists ee, peer, raw, date. split; [now symmetry|exact Ht]. }
    destruct IH as [(d & Hd & Hd')|IH].
    { left. exists d. split; [now apply delivered_step|exact Hd']. }
    assert (Hdec : (exists ee peer raw b, e = EvFec ee peer raw b /\ bf_data_hash b = id)
                   \/ forall ee peer raw b, e = EvFec ee peer raw b -> bf_data_hash b <> id).
    { destruct e; try (right; intros; discriminate).
      destruct (bytes_eqb (bf_data_hash b) id) eqn:E.
      - left. apply bytes_eqb_eq in E. repeat eexists. exact E.
      - right. intros ? ? ? ? Heq Hx. injection Heq as <- <- <- <-. rewrite Hx, bytes_eqb_refl in E. discriminate. }
    destruct Hdec as [(ee & peer & raw & b & -> & Hb)|Hno].
    + pose proof (Hg1 evs _ _ _ _ [] eq_refl Hb) as Hcase. cbv zeta in Hcase. fold s in Hcase.
      destruct Hcase as [(date & esi & -> & Hesi & Htime)|[Hun|[[Hfo Hbeg]|(d & Hd & Hd')]]].
      * right. right. destruct IH as [[Hid Hna]|(T & seen & HT & Hrec & Hall)].
        -- exists (br_clock s), [esi]. split; [apply clock_run|]. split; [now apply first_packet|].
           intros n Hn. destruct (Harr n Hn) as [Hn'|(? & ? & ? & ? & Heq & _)]; [now apply Hna in Hn'|].
           apply (f_equal (fun e => match e with EvFec _ _ _ b => bf_seqno b | _ => 0 end)) in Heq. cbn in Heq. left. congruence.
        -- exists T, (esi :: seen). split; [exact HT|]. split; [now apply next_packet|].
           intros n Hn. destruct (Harr n Hn) as [Hn'|(? & ? & ? & ? & Heq & _)]; [right; now apply Hall|].
           apply (f_equal (fun e => match e with EvFec _ _ _ b => bf_seqno b | _ => 0 end)) in Heq. cbn in Heq. left. congruence.
      * rewrite (unusable_packet s ee peer raw b Hun). right.
        assert (Hkeep : forall n, symbol_in_time c s0 (evs ++ [EvFec ee peer raw b]) secret id payload n -> symbol_in_time c s0 evs secret id payload n).
        { intros n Hn. destruct (Harr n Hn) as [Hn'|(? & ? & ? & date & Heq & Ht)]; [exact Hn'|]. exfalso.
          apply (f_equal (fun e => match e with EvFec _ _ _ b => Some b | _ => None end)) in Heq. injection Heq as ->.
          destruct Hun as [[H1 H2]|[H|H]].
          - destruct Ht as [H3 H4]. cbn [own_fec_packet bf_date] in H2. lia.
          - apply H. cbn [own_fec_packet bf_signature]. apply (sign_len P HP).
          - specialize (H key eq_refl). rewrite (pub_valid P HP) in H. discriminate H. }
        destruct IH as [[Hid Hna]|(T & seen & HT & Hrec & Hall)].
        -- left. split; [exact Hid|]. intros n Hn. exact (Hna n (Hkeep n Hn)).
        -- right. exists T, seen. split; [exact HT|]. split; [exact Hrec|]. auto.
      * right. right. destruct IH as [[_ Hna]|(T & seen & HT & Hrec & Hall)].
        -- exfalso. destruct Hbeg as (n & Hn). exact (Hna n Hn).
        -- exists T, seen. split; [exact HT|]. split; [now apply foreign_packet|]. intros n Hn.
           destruct (Harr n Hn) as [Hn'|(? & ? & ? & date & Heq & Ht)]; [now apply Hall|]. exfalso.
           apply (f_equal (fun e => match e with EvFec _ _ _ b => Some b | _ => None end)) in Heq. injection Heq as ->.
           exact (Hfo key eq_refl eq_refl).
      * left. exists d. split; [now apply delivered_step|exact Hd'].
    + assert (Hkeep : forall n, symbol_in_time c s0 (evs ++ [e]) secret id payload n -> symbol_in_time c s0 evs secret id payload n).
      { intros n Hn. destruct (Harr n Hn) as [Hn'|(? & ? & ? & ? & Heq & _)]; [exact Hn'|]. exfalso. exact (Hno _ _ _ _ Heq eq_refl). }
      destruct IH as [[Hid Hna]|(T & seen & HT & Hrec & Hall)].
      * right. left. split; [|intros n Hn; exact (Hna n (Hkeep n Hn))].
        apply idle_other; auto. intros Ha. destruct (Hg2 _ _ Hlast Ha) as (ee & peer & raw & b & Heq). subst e.
        cbn in Ha. exact (Hno _ _ _ _ eq_refl Ha).
      * destruct (receiving_step T seen s e Hr Hrec) as [H|H]; [lia|exact Hno|now left|].
        right. right. exists T, seen. auto.
Qed.

Lemma arrives : forall s0 evs, reachable s0 -> idle s0 ->
  undisturbed c s0 evs secret id data payload ->
  (forall i, i < fe_count F payload -> symbol_in_time c s0 evs secret id payload i) ->
  let s := bc_run c s0 evs in
  br_clock s < br_clock s0 + bo_timeout (bs_options c) * 1000 ->
  processed id s -> got s.
Proof.
  intros s0 evs Hreach Hidle Hg Hall s Hclk Hproc. pose proof source_symbols as HK.
  destruct (progress s0 evs Hreach Hidle Hg Hclk) as [_ [H|[[_ H]|(T & seen & _ & [_ _ (x & t & H1 & H2 & H3 & H4 & H5 & H6 & H7 & H8 & H9 & H10 & H11 & H12 & H13 & H14)] & Hseen)]]]; [exact H| |].
  - exfalso. apply (H 0). apply Hall. lia.
  - exfalso. pose proof (Hproc t (nth_error_In _ _ H2) H6 H8) as Hq. rewrite Hq in H13.
    assert (Hin : forall i, i < fe_count F payload -> In i (map fst (de_packets (tk_decoder t)))).
    { intros i Hi. destruct (H13 i (Hseen i (Hall i Hi))) as [Hd|[]]. exact Hd. }
    assert (Hne' : de_packets (tk_decoder t) <> []).
    { intros E. specialize (Hin 0). rewrite E in Hin. apply Hin. lia. }
    destruct H11 as [H11|H11]; [contradiction|].
    rewrite (fec_complete F HF payload) in H11; [discriminate|exact Hlen|exact H10|exact Hne'|].
    intros i Hi. specialize (Hin i Hi). apply in_map_iff in Hin as ([a b] & <- & Hab). now exists b.
Qed.
End live.

Theorem honest_broadcast_arrives : forall c clock before evs secret data compressed,
  let P := bs_prims c in let F := bs_fec c in let z := bs_zstd c in
  let id := sha256 P data in let payload := wire c compressed data in
  prims_ok P -> fec_ok F -> zstd_ok z ->
  bytes_ok data = true -> N.of_nat (length data) < 2 ^ 32 -> N.of_nat (length payload) < 2 ^ 32 -> payload <> [] ->
  (forall u, decompress z payload = Some u -> sha256 P u = id -> u = data) ->
  let s0 := bc_run c (bstate_new clock) before in
  br_owned s0 !! id = None -> (forall t, In t (br_tasks s0) -> tk_id t <> id) ->
  undisturbed c s0 evs secret id data payload ->
  (forall i, i < fe_count F payload -> symbol_in_time c s0 evs secret id payload i) ->
  let s := bc_run c s0 evs in
  br_clock s < br_clock s0 + bo_timeout (bs_options c) * 1000 ->
  processed id s ->
  exists d, In d (br_delivered s) /\ dl_id d = id /\ dl_data d = data /\ dl_from d = node_id P (pub_of P secret).
Proof.
  intros c clock before evs secret data compressed P F z id payload HP HF Hz Hd Hdl Hpl Hne Hu s0 Ho Ht Hg Hall s Hclk Hproc.
  apply (arrives c secret data compressed HP HF Hz Hd Hpl Hdl Hne Hu s0 evs); try assumption.
  - now exists clock, before.
  - now split.
Qed.

(** ** The packets of an outgoing broadcast *)
Lemma fec_loop_sources : forall F data packets n k fuel,
  (N.of_nat (k + n) = fe_count F data) -> fe_count F data <= packets -> (n < fuel)%nat ->
  fec_loop F fuel (mk_encoder data (N.of_nat k)) (N.of_nat k) packets =
  match fec_loop F (fuel - n) (mk_encoder data (fe_count F data)) (fe_count F data) packets with
  | Some l => Some (map N.of_nat (seq k n) ++ l) | None => None end.
Proof.
  intros F data packets n. induction n as [|n IH]; intros k fuel Hk Hp Hf.
  - rewrite Nat.sub_0_r. replace (N.of_nat k) with (fe_count F data) by lia. cbn [seq map app].
    now destruct (fec_loop _ _ _ _ _).
  - destruct fuel as [|fuel]; [lia|]. cbn [fec_loop Nat.sub]. unfold encode at 1. cbn [en_sent en_data].
    destruct (N.ltb_spec (N.of_nat k) (fe_count F data)) as [_|H]; [|lia]. cbv zeta.
    destruct (N.ltb_spec packets (N.of_nat k + 1)) as [H|_]; [lia|].
    replace (N.of_nat k + 1) with (N.of_nat (S k)) by lia. rewrite (IH (S k) fuel) by lia.
    cbn [seq map app]. now destruct (fec_loop F (fuel - n) _ _ _).
Qed.

Lemma fec_loop_end : forall F data packets fuel, (0 < fuel)%nat -> packets < 2 * fe_count F data + 1 ->
  fec_loop F fuel (mk_encoder data (fe_count F data)) (fe_count F data) packets = Some [2 * fe_count F data].
Proof.
  intros F data packets [|fuel] Hf Hp; [lia|]. cbn [fec_loop]. unfold encode. cbn [en_sent en_data].
  rewrite N.ltb_irrefl. cbv zeta. replace (fe_count F data + fe_count F data) with (2 * fe_count F data) by lia.
  destruct (N.ltb_spec packets (2 * fe_count F data + 1)) as [_|H]; [reflexivity|lia].
Qed.

Theorem sent_packets : forall F data, fec_ok F -> data <> [] ->
  let size := N.of_nat (length data) in
  let K := fe_count F data in
  exists fuel, fec_loop F fuel (encoder_new data) 0 (fec_packets size)
  = Some (map N.of_nat (seq 0 (N.to_nat K)) ++ if size =? 768 then [2; 4] else [2 * K]).
Proof.
  intros F data HF Hne size K. exists (N.to_nat K + 2)%nat. unfold encoder_new.
  assert (Hs : 1 <= size) by (unfold size; destruct data; [congruence|cbn; lia]).
  assert (HK : K = (size + 768 - 1) / 768) by apply (fec_count F HF).
  assert (Hd := N.div_mod' size 768). assert (Hm := N.mod_lt size 768 ltac:(discriminate)).
  assert (HKd := N.div_mod' (size + 768 - 1) 768). assert (HKm := N.mod_lt (size + 768 - 1) 768 ltac:(discriminate)).
  rewrite <- HK in HKd.
  assert (Hpk : fec_packets size = (size / 768 + 1) * 3 / 2) by reflexivity.
  assert (Hp2 := N.div_mod' ((size / 768 + 1) * 3) 2). assert (Hpm := N.mod_lt ((size / 768 + 1) * 3) 2 ltac:(discriminate)).
  rewrite <- Hpk in Hp2.
  replace 0 with (N.of_nat 0) at 1 2 by reflexivity.
  rewrite (fec_loop_sources F data _ (N.to_nat K) 0) by (fold K; lia). fold K.
  replace (N.to_nat K + 2 - N.to_nat K)%nat with 2%nat by lia.
  destruct (N.eqb_spec size 768) as [E|E].
  - assert (HK1 : K = 1) by (rewrite HK, E; reflexivity). rewrite Hpk, E. rewrite HK1.
    change ((768 / 768 + 1) * 3 / 2) with 3. cbn [fec_loop]. unfold encode. cbn [en_sent en_data]. fold K. rewrite HK1.
    change (1 <? 1) with false. cbv iota beta zeta. cbn [en_sent en_data]. fold K. rewrite HK1. reflexivity.
  - unfold K at 3 4. rewrite fec_loop_end; [reflexivity|lia|]. fold K. lia.
Qed.

Theorem fewer_than_announced : forall F data, fec_ok F -> 3 * 768 < N.of_nat (length data) ->
  exists fuel l, fec_loop F fuel (encoder_new data) 0 (fec_packets (N.of_nat (length data))) = Some l
  /\ N.of_nat (length l) = fe_count F data + 1
  /\ N.of_nat (length l) < fec_packets (N.of_nat (length data)).
Proof.
  intros F data HF Hl. destruct (sent_packets F data HF) as [fuel H]; [intros ->; cbn in Hl; lia|].
  cbv zeta in H. destruct (N.eqb_spec (N.of_nat (length data)) 768) as [E|E]; [lia|].
  exists fuel. eexists. split; [exact H|]. rewrite app_length, map_length, seq_length. cbn [length].
  split; [lia|]. rewrite (fec_count F HF). unfold fec_packets, symbol_size.
  set (size := N.of_nat (length data)) in *.
  assert (Hd := N.div_mod' size 768). assert (Hm := N.mod_lt size 768 ltac:(discriminate)).
  assert (HKd := N.div_mod' (size + 768 - 1) 768). assert (HKm := N.mod_lt (size + 768 - 1) 768 ltac:(discriminate)).
  assert (Hp2 := N.div_mod' ((size / 768 + 1) * 3) 2). assert (Hpm := N.mod_lt ((size / 768 + 1) * 3) 2 ltac:(discriminate)).
  lia.
Qed.

Theorem all_sources_sent : forall F data, fec_ok F -> data <> [] ->
  exists fuel l repairs, fec_loop F fuel (encoder_new data) 0 (fec_packets (N.of_nat (length data))) = Some l
  /\ l = map N.of_nat (seq 0 (N.to_nat (fe_count F data))) ++ repairs
  /\ repairs <> [] /\ Forall (fun esi => fe_count F data <= esi) repairs /\ List.NoDup l.
Proof.
  intros F data HF Hne. destruct (sent_packets F data HF Hne) as [fuel H]. cbv zeta in H.
  exists fuel. eexists. eexists. split; [exact H|]. split; [reflexivity|].
  assert (HK : N.of_nat (length data) = 768 -> fe_count F data = 1).
  { intros E. rewrite (fec_count F HF), E. reflexivity. }
  assert (Hr : forall r, Forall (fun esi => fe_count F data <= esi) r -> List.NoDup r ->
     List.NoDup (map N.of_nat (seq 0 (N.to_nat (fe_count F data))) ++ r)).
  { intros r Hr Hnd. rewrite List.Forall_forall in Hr.
    assert (Hs : List.NoDup (map N.of_nat (seq 0 (N.to_nat (fe_count F data))))).
    { apply FinFun.Injective_map_NoDup; [intros a b Hab; lia|apply seq_NoDup]. }
    apply NoDup_ListNoDup. apply NoDup_ListNoDup in Hs, Hnd. apply NoDup_app. split; [exact Hs|]. split; [|exact Hnd].
    intros x Hx Hx'. apply elem_of_list_In in Hx, Hx'. specialize (Hr x Hx'). apply in_map_iff in Hx as (y & <- & Hy).
    apply in_seq in Hy. lia. }
  destruct (N.eqb_spec (N.of_nat (length data)) 768) as [E|E].
  - specialize (HK E). split; [discriminate|].
    assert (Hf : Forall (fun esi => fe_count F data <= esi) [2; 4]) by (rewrite HK; repeat constructor; lia).
    split; [exact Hf|]. apply Hr; [exact Hf|]. repeat constructor; cbn; intuition lia.
  - split; [discriminate|].
    assert (Hf : Forall (fun esi => fe_count F data <= esi) [2 * fe_count F data]) by (repeat constructor; lia).
    split; [exact Hf|]. apply Hr; [exact Hf|]. repeat constructor; cbn; intuition.
Qed.

(** ** An honest ordinary broadcast arrives *)
Theorem honest_ordinary_arrives : forall c s secret data compressed date e peer raw,
  let P := bs_prims c in let z := bs_zstd c in
  prims_ok P -> zstd_ok z -> bytes_ok data = true -> N.of_nat (length data) < 2 ^ 32 ->
  let o := mk_bc_options (bo_timeout (bs_options c)) 0 0 0 0 compressed in
  let b := own_broadcast P z o secret data date in
  let id := sha256 P (broadcast_claim P 1 [] data date) in
  let from := node_id P (pub_of P secret) in
  (forall u, decompress z (wire c compressed data) = Some u -> u <> data -> ~ signed_by P (pub_of P secret) (broadcast_claim P 1 [] u date) (ob_signature b)) ->
  timely c s date -> br_owned s !! id = None ->
  let s' := bc_step c s (EvBroadcast e peer raw b) in
  br_delivered s' = br_delivered s ++ [mk_delivery id 1 data from]
  /\ br_sent s' = br_sent s ++ [(get_random_peers (be_neighbours e) (bo_secondary (bs_options c)) (Some peer) (be_picks e), raw)]
  /\ br_owned s' !! id = Some Other.
Proof.
  intros c s secret data compressed date e peer raw P z HP Hz Hd Hdl o b id from Hu Ht Hn s'.
  assert (Hacc : s' = accepted_state (bs_options c) e s peer raw id data from).
  { unfold s'. cbn [bc_step]. unfold receive_broadcast, b. cbn [own_broadcast ob_date ob_src ob_flags ob_data ob_signature].
    rewrite (timely_not_outdated c s date Ht). unfold full_id. fold P. rewrite (pub_valid P HP).
    change (is_any_sender any_sender) with true. cbv iota. change (bo_compress o) with compressed.
    change (if compressed then compress z data else data) with (wire c compressed data). fold z.
    assert (Hv : forall m, verify_full P (pub_of P secret) m (sign P secret m) = true).
    { intros m. unfold verify_full. rewrite (sign_len P HP), (sign_verifies P HP). reflexivity. }
    assert (Hacc : accept_broadcast (bs_options c) e s peer raw (broadcast_id P (broadcast_to_sign P data date None)) data (short_id P (pub_of P secret))
                   = accepted_state (bs_options c) e s peer raw id data from).
    { destruct (accept_cases (bs_options c) e s peer raw (broadcast_id P (broadcast_to_sign P data date None)) data (short_id P (pub_of P secret))) as [He|[_ He]]; [|exact He].
      exfalso. revert He. unfold accept_broadcast, create_broadcast. change (broadcast_id P (broadcast_to_sign P data date None)) with id.
      rewrite Hn. intros He. apply (f_equal (fun s => length (br_delivered s))) in He. cbn in He. rewrite app_length in He. cbn in He. lia. }
    destruct (wire_opens c data compressed Hz Hd Hdl) as [Hw|Hw].
    - destruct (decompress z (wire c compressed data)) as [u|] eqn:Ez.
      + destruct (verify_full P (pub_of P secret) (broadcast_to_sign P u date None) (sign P secret (broadcast_to_sign P data date None))) eqn:Ev.
        * destruct (List.list_eq_dec N.eq_dec u data) as [->|Hne]; [exact Hacc|]. exfalso. apply (Hu u eq_refl Hne).
          unfold verify_full in Ev. apply andb_true_iff in Ev as [Hl Ev]. apply Nat.eqb_eq in Hl. split; [apply (pub_valid P HP)|]. split; [exact Hl|exact Ev].
        * rewrite Hw, Hv. exact Hacc.
      + rewrite Hw, Hv. exact Hacc.
    - fold z in Hw. rewrite Hw, Hv. exact Hacc. }
  rewrite Hacc. cbn [accepted_state br_delivered br_sent br_owned]. split; [reflexivity|]. split; [reflexivity|]. apply lookup_insert.
Qed.

(** The announced number, and what is sent. *)
Lemma announced_packets : forall P z o overlay secret s data targets announced k,
  fst (send_fec_broadcast P z o overlay secret s data targets) = Some (announced, k) ->
  let payload := if bo_compress o then compress z data else data in
  N.of_nat (length payload) < 2 ^ 32 ->
  announced = fec_packets (N.of_nat (length payload)) /\ k = length targets.
Proof.
  intros P z o overlay secret s data targets announced k H payload Hl. unfold send_fec_broadcast in H.
  destruct (create_broadcast s (sha256 P data)) as [[] s']; [|discriminate H]. cbn [fst] in H. fold payload in H.
  rewrite N.mod_small in H by exact Hl. injection H as <- <-. auto.
Qed.

Theorem redundancy_missing : forall P z F o overlay secret s data targets announced k,
  fec_ok F ->
  fst (send_fec_broadcast P z o overlay secret s data targets) = Some (announced, k) ->
  let payload := if bo_compress o then compress z data else data in
  3 * 768 < N.of_nat (length payload) -> N.of_nat (length payload) < 2 ^ 32 ->
  exists fuel l, fec_loop F fuel (encoder_new payload) 0 announced = Some l
  /\ N.of_nat (length l) = fe_count F payload + 1
  /\ N.of_nat (length l) < announced.
Proof.
  intros P z F o overlay secret s data targets announced k HF H payload Hl1 Hl2.
  destruct (announced_packets _ _ _ _ _ _ _ _ _ _ H Hl2) as [-> _]. fold payload. now apply fewer_than_announced.
Qed.

Theorem sources_then_repairs : forall P z F o overlay secret s data targets announced k,
  fec_ok F ->
  fst (send_fec_broadcast P z o overlay secret s data targets) = Some (announced, k) ->
  let payload := if bo_compress o then compress z data else data in
  payload <> [] -> N.of_nat (length payload) < 2 ^ 32 ->
  k = length targets
  /\ exists fuel l repairs, fec_loop F fuel (encoder_new payload) 0 announced = Some l
     /\ l = map N.of_nat (seq 0 (N.to_nat (fe_count F payload))) ++ repairs
     /\ repairs <> [] /\ Forall (fun esi => fe_count F payload <= esi) repairs /\ List.NoDup l.
Proof.
  intros P z F o overlay secret s data targets announced k HF H payload Hne Hl.
  destruct (announced_packets _ _ _ _ _ _ _ _ _ _ H Hl) as [-> ->]. split; [reflexivity|]. fold payload. now apply all_sources_sent.
Qed.
