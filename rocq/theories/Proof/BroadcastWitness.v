(** Histories that contradict the full statements. *)
From stdpp Require Import gmap.
From Coq Require Import NArith Lia ZifyBool ZifyNat ZifyN.
From Verif.Base Require Import Bytes BytesFacts Res.
From Verif.Model Require Import Crypto Tl Scheme ProtoAdnl ProtoRldp ProtoOverlay AdnlNode History PeersSet
  Compression Fec DhtStorage Broadcast.
From Verif.Spec Require Import CryptoSpec CompressionSpec FecSpec Sample DhtSample HistorySpec DhtSpec OverlaySpec BroadcastSpec BroadcastSample.
From Verif.Proof Require Import FecFacts CompressionFacts BroadcastFacts BroadcastAuth BroadcastLog BroadcastLive.
Open Scope N_scope.

Definition twice : list bc_event :=
  [t_get 100; EvTick 10000; EvTimer 0; EvPush 0; EvCollect; EvCollect; EvCollect; EvCollect; t_get 100].

Lemma delivered_twice : deliveries (t_ordinary_id 100) (bc_run (t_bc 10 0) (bstate_new 100000) twice) = 2%nat.
Proof. vm_compute. reflexivity. Qed.

Theorem not_once : exists c clock evs id,
  prims_ok (bs_prims c) /\ zstd_ok (bs_zstd c) /\ fec_ok (bs_fec c)
  /\ (forall s e peer raw b, happened c (bstate_new clock) evs s (EvBroadcast e peer raw b) -> ob_date b = clock / 1000)
  /\ deliveries id (bc_run c (bstate_new clock) evs) = 2%nat.
Proof.
  exists (t_bc 10 0), 100000, twice, (t_ordinary_id 100).
  split; [exact brief_ok|]. split; [exact toy_zstd_ok|]. split; [exact toy_fec_ok|]. split; [|exact delivered_twice].
  intros s e peer raw b (before & after & H & _).
  assert (Hi : In (EvBroadcast e peer raw b) twice) by (rewrite H; apply in_or_app; right; now left).
  unfold twice, t_get in Hi. cbn [In] in Hi.
  repeat destruct Hi as [Hi|Hi]; try discriminate Hi; try contradiction; injection Hi as <- <- <- <-; reflexivity.
Qed.

(** One packet with a bad signature, then the whole broadcast. *)
Definition suppressed : list bc_event :=
  [t_get_bad; EvTask 0; EvTask 0; t_get_part 0; t_get_part 1; t_get_part 4; EvTask 0; EvTask 0].

Lemma suppressed_run : let s := bc_run (t_bc 10 0) (bstate_new 100000) suppressed in
  br_delivered s = [] /\ map tk_phase (br_tasks s) = [Finished] /\ br_clock s = 100000.
Proof. vm_compute. auto. Qed.

Theorem suppressible : exists c clock evs secret data,
  prims_ok (bs_prims c) /\ zstd_ok (bs_zstd c) /\ fec_ok (bs_fec c)
  /\ let id := sha256 (bs_prims c) data in
     let s := bc_run c (bstate_new clock) evs in
     (forall i, i < fe_count (bs_fec c) data -> exists e peer raw,
        In (EvFec e peer raw (own_fec_packet (bs_prims c) (bs_fec c) secret id data (clock / 1000) i)) evs)
     /\ br_clock s = clock /\ processed id s /\ br_delivered s = [].
Proof.
  exists (t_bc 10 0), 100000, suppressed, (secret_of 7), t_long.
  split; [exact brief_ok|]. split; [exact toy_zstd_ok|]. split; [exact toy_fec_ok|].
  destruct suppressed_run as (H1 & H2 & H3). cbv zeta. split; [|split; [exact H3|split; [|exact H1]]].
  - intros i Hi. assert (Hc : fe_count (bs_fec (t_bc 10 0)) t_long = 2) by (vm_compute; reflexivity). rewrite Hc in Hi.
    assert (Hi' : i = 0 \/ i = 1) by lia.
    destruct Hi' as [->| ->]; exists t_benv, (t_id 2); eexists; unfold suppressed, t_get_part; cbn [In];
      change (100000 / 1000) with 100; unfold t_part, t_long_id; cbn [t_bc bs_prims bs_fec]; tauto.
  - intros t Ht _ Hp. pose proof (in_map tk_phase _ _ Ht) as Hm.
    rewrite H2 in Hm. destruct Hm as [Hm|[]]. rewrite Hp in Hm. discriminate Hm.
Qed.

(** The collector runs between the two halves of a timer. *)
Definition leak : list bc_event := [t_get 100; EvTick 10000; EvTimer 0; EvCollect; EvCollect; EvCollect; EvPush 0].

Lemma leaked_state : let s := bc_run (t_bc 10 0) (bstate_new 100000) leak in
  br_timers s = [] /\ br_pending s = [] /\ br_finished s = [t_ordinary_id 100]
  /\ br_count s = 0 /\ br_collector s = CCheck.
Proof. vm_compute. repeat split. Qed.

Lemma idle_collector : forall c s n, br_collector s = CCheck -> br_count s = 0 -> bc_run c s (repeat EvCollect n) = s.
Proof.
  intros c s n H5 H4. induction n as [|n IH]; [reflexivity|]. cbn [repeat bc_run fold_left bc_step].
  unfold collector_step. rewrite H5, H4. destruct (N.ltb_spec (bo_log (bs_options c)) 0); [lia|exact IH].
Qed.

Theorem log_leaks : exists c clock evs,
  prims_ok (bs_prims c) /\ zstd_ok (bs_zstd c) /\ fec_ok (bs_fec c)
  /\ let s := bc_run c (bstate_new clock) evs in
     br_timers s = [] /\ br_pending s = []
     /\ forall n, bo_log (bs_options c) < N.of_nat (length (timed_out (bc_run c s (repeat EvCollect n)))).
Proof.
  exists (t_bc 10 0), 100000, leak. split; [exact brief_ok|]. split; [exact toy_zstd_ok|]. split; [exact toy_fec_ok|].
  pose proof leaked_state as H. cbv zeta in H. destruct H as (H1 & H2 & H3 & H4 & H5). cbv zeta.
  split; [exact H1|]. split; [exact H2|].
  intros n. rewrite (idle_collector _ _ n H5 H4). unfold timed_out. rewrite H2, H3. reflexivity.
Qed.

(** ** The hypotheses of the partial theorems are met *)
Definition no_tick (e : bc_event) : bool := match e with EvTick _ => false | _ => true end.

Lemma same_clock : forall c evs s, forallb no_tick evs = true -> br_clock (bc_run c s evs) = br_clock s.
Proof.
  intros c evs. induction evs as [|e evs IH]; intros s H; [reflexivity|]. cbn in H. apply andb_true_iff in H as [H1 H2].
  change (br_clock (bc_run c (bc_step c s e) evs) = br_clock s). rewrite (IH _ H2).
  pose proof (proj2 (clock_step c s e)) as Hc. destruct e; try discriminate H1; exact Hc.
Qed.

(** Packets of node 7, and of node 9 in its own name, and one with a short signature. *)
Definition parts : list bc_event :=
  [t_get_part 1; t_get_foreign; t_get_short; t_get_part 0; EvTask 0; EvTask 0; t_get_part 4; t_get_part 1; t_get_bad].

Lemma parts_in_time : forall before ev after, parts = before ++ ev :: after ->
  In ev parts /\ now_sec (bc_run (t_bc 10 0) (bstate_new 100000) before) = 100.
Proof.
  intros before ev after H. split; [rewrite H; apply in_or_app; right; now left|].
  unfold now_sec. rewrite same_clock; [reflexivity|]. assert (Hf : forallb no_tick parts = true) by reflexivity.
  rewrite H, forallb_app in Hf. now apply andb_true_iff in Hf.
Qed.
Lemma part_in_time : forall before e peer raw i after, parts = before ++ EvFec e peer raw (t_part i) :: after ->
  timely (t_bc 10 0) (bc_run (t_bc 10 0) (bstate_new 100000) before) 100.
Proof. intros before e peer raw i after H. destruct (parts_in_time _ _ _ H) as [_ Hc]. unfold timely. rewrite Hc. split; [reflexivity|discriminate]. Qed.
Lemma part_arrived : forall before e peer raw i after more, parts = (before ++ EvFec e peer raw (t_part i) :: after) ++ more ->
  symbol_in_time (t_bc 10 0) (bstate_new 100000) (before ++ EvFec e peer raw (t_part i) :: after) (secret_of 7) t_long_id t_long i.
Proof.
  intros before e peer raw i after more H. exists (bc_run (t_bc 10 0) (bstate_new 100000) before), e, peer, raw, 100.
  split; [now exists before, after|]. rewrite <- app_assoc in H. exact (part_in_time _ _ _ _ _ _ H).
Qed.
Lemma parts_undisturbed : undisturbed (t_bc 10 0) (bstate_new 100000) parts (secret_of 7) t_long_id t_long t_long.
Proof.
  split.
  - intros before e peer raw b after H _. cbv zeta.
    assert (Hg : forall i, b = t_part i -> i < 2 ^ 32 -> exists date esi, b = own_fec_packet (bs_prims (t_bc 10 0)) (bs_fec (t_bc 10 0)) (secret_of 7) t_long_id t_long date esi
      /\ esi < 2 ^ 32 /\ timely (t_bc 10 0) (bc_run (t_bc 10 0) (bstate_new 100000) before) date).
    { intros i -> Hi. exists 100, i. split; [reflexivity|]. split; [exact Hi|]. exact (part_in_time _ _ _ _ _ _ H). }
    pose proof H as H0. unfold parts, t_get_part, t_get_foreign, t_get_short, t_get_bad in H.
    destruct before as [|e0 before]; cbn [app] in H.
    { injection H as _ _ _ <- _. left. now apply (Hg 1). }
    injection H as <- H. destruct before as [|e1 before]; cbn [app] in H.
    { injection H as _ _ _ <- _. right. right. left. split.
      - intros k Hk. injection Hk as <-. intros E. vm_compute in E. discriminate E.
      - exists 1. exact (part_arrived [] _ _ _ _ [] _ H0). }
    injection H as <- H. destruct before as [|e2 before]; cbn [app] in H.
    { injection H as _ _ _ <- _. right. left. right. left. discriminate. }
    injection H as <- H. destruct before as [|e3 before]; cbn [app] in H.
    { injection H as _ _ _ <- _. left. now apply (Hg 0). }
    injection H as <- H. destruct before as [|e4 before]; cbn [app] in H; [discriminate H|].
    injection H as <- H. destruct before as [|e5 before]; cbn [app] in H; [discriminate H|].
    injection H as <- H. destruct before as [|e6 before]; cbn [app] in H.
    { injection H as _ _ _ <- _. left. now apply (Hg 4). }
    injection H as <- H. destruct before as [|e7 before]; cbn [app] in H.
    { injection H as _ _ _ <- _. left. now apply (Hg 1). }
    injection H as <- H. destruct before as [|e8 before]; cbn [app] in H.
    { right. right. right. exists (mk_delivery t_long_id 2 t_long (t_id 7)). split; [vm_compute; now left|]. split; [reflexivity|]. split; reflexivity. }
    injection H as _ H. destruct before; discriminate H.
  - intros s ev (before & after & H & _) Ha. destruct (parts_in_time _ _ _ H) as [Hi _].
    unfold parts, t_get_part, t_get_foreign, t_get_short, t_get_bad in Hi. cbn [In] in Hi.
    repeat destruct Hi as [Hi|Hi]; try contradiction; subst ev; try contradiction; eauto.
Qed.

Lemma parts_arrived : forall i, i < fe_count toy_fec t_long ->
  symbol_in_time (t_bc 10 0) (bstate_new 100000) parts (secret_of 7) t_long_id t_long i.
Proof.
  intros i Hi. assert (Hc : fe_count toy_fec t_long = 2) by (vm_compute; reflexivity). rewrite Hc in Hi.
  assert (Hi' : i = 0 \/ i = 1) by lia. destruct Hi' as [->| ->].
  - exact (part_arrived [t_get_part 1; t_get_foreign; t_get_short] _ _ _ 0 [EvTask 0; EvTask 0; t_get_part 4; t_get_part 1; t_get_bad] [] eq_refl).
  - exact (part_arrived [] _ _ _ 1 [t_get_foreign; t_get_short; t_get_part 0; EvTask 0; EvTask 0; t_get_part 4; t_get_part 1; t_get_bad] [] eq_refl).
Qed.

Lemma parts_processed : let s := bc_run (t_bc 10 0) (bstate_new 100000) parts in
  br_clock s = 100000 /\ map (fun t => (tk_phase t, tk_id t)) (br_tasks s) = [(Marking, t_long_id)]
  /\ br_delivered s = [mk_delivery t_long_id 2 t_long (t_id 7)].
Proof. vm_compute. auto. Qed.

(** A packet of somebody else with the same hash comes first. *)
Definition squatted : list bc_event :=
  [t_get_foreign; t_get_part 0; t_get_part 1; t_get_part 4; EvTask 0; EvTask 0; EvTask 0; EvTask 0].
Lemma squatted_run : let s := bc_run (t_bc 10 0) (bstate_new 100000) squatted in
  br_delivered s = [] /\ map (fun t => length (tk_queue t)) (br_tasks s) = [0%nat] /\ br_clock s = 100000.
Proof. vm_compute. auto. Qed.
Theorem squattable : exists c clock evs secret data,
  prims_ok (bs_prims c) /\ zstd_ok (bs_zstd c) /\ fec_ok (bs_fec c)
  /\ let id := sha256 (bs_prims c) data in
     let s := bc_run c (bstate_new clock) evs in
     (forall e peer raw b, In (EvFec e peer raw b) evs -> exists k payload date esi,
        b = own_fec_packet (bs_prims c) (bs_fec c) k id payload date esi)
     /\ (forall i, i < fe_count (bs_fec c) data -> exists e peer raw,
        In (EvFec e peer raw (own_fec_packet (bs_prims c) (bs_fec c) secret id data (clock / 1000) i)) evs)
     /\ br_clock s = clock /\ processed id s /\ br_delivered s = [].
Proof.
  exists (t_bc 10 0), 100000, squatted, (secret_of 7), t_long.
  split; [exact brief_ok|]. split; [exact toy_zstd_ok|]. split; [exact toy_fec_ok|].
  destruct squatted_run as (H1 & H2 & H3). cbv zeta. split; [|split; [|split; [exact H3|split; [|exact H1]]]].
  - intros e peer raw b Hi. unfold squatted, t_get_part, t_get_foreign in Hi. cbn [In] in Hi.
    repeat destruct Hi as [Hi|Hi]; try discriminate Hi; try contradiction; injection Hi as _ _ _ <-;
      unfold t_part, t_foreign_part, t_long_id; cbn [t_bc bs_prims bs_fec]; do 4 eexists; reflexivity.
  - intros i Hi. assert (Hc : fe_count (bs_fec (t_bc 10 0)) t_long = 2) by (vm_compute; reflexivity). rewrite Hc in Hi.
    assert (Hi' : i = 0 \/ i = 1) by lia.
    destruct Hi' as [->| ->]; exists t_benv, (t_id 2); eexists; unfold squatted, t_get_part; cbn [In];
      change (100000 / 1000) with 100; unfold t_part, t_long_id; cbn [t_bc bs_prims bs_fec]; tauto.
  - intros t Ht _ Hp. pose proof (in_map (fun t => length (tk_queue t)) _ _ Ht) as Hm.
    rewrite H2 in Hm. destruct Hm as [Hm|[]]. destruct (tk_queue t); [reflexivity|discriminate Hm].
Qed.
