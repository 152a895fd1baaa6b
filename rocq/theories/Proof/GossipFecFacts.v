From stdpp Require Import gmap.
From Coq Require Import NArith Lia ZifyBool ZifyNat ZifyN.
From Verif.Base Require Import Bytes BytesFacts Res.
From Verif.Model Require Import Crypto Tl Scheme ProtoAdnl ProtoRldp ProtoOverlay AdnlNode History PeersSet DhtStorage Compression Fec OverlayPeers Broadcast OverlayNode.
From Verif.Spec Require Import Codec CryptoSpec HistorySpec CompressionSpec FecSpec DhtSpec OverlaySpec PeersSetSpec BroadcastSpec OverlayNodeSpec GossipSpec GossipFecSpec.
From Verif.Proof Require Import TlFacts ProtoFacts HistoryFacts BroadcastFacts BroadcastLog OverlayNodeFacts BroadcastForward GossipFacts.
From Verif.Proof Require BroadcastLive.
Open Scope N_scope.

(** ** The entry of a broadcast in one node *)
Section entry.
Context (c : bc_setup) (id src : bytes).
Local Notation P := (bs_prims c).
Local Notation z := (bs_zstd c).
Local Notation F := (bs_fec c).

(** [R] holds for all numbers the entry remembers, and the task still takes packets. *)
Definition entry_ok (R : N -> Prop) (s : bstate) : Prop :=
  match br_owned s !! id with
  | None => True
  | Some Other => False
  | Some (Incoming x) =>
    ic_source x = src /\ (exists known, inv (ic_history x) known /\ forall j, In j known -> R j)
    /\ exists t, nth_error (br_tasks s) (ic_task x) = Some t /\ tk_id t = id /\ (ic_completed x = false -> tk_phase t <> Finished)
  end.

Lemma entry_weaken : forall (R R' : N -> Prop) s, (forall j, R j -> R' j) -> entry_ok R s -> entry_ok R' s.
Proof.
  intros R R' s H. unfold entry_ok. destruct (br_owned s !! id) as [[|x]|]; auto.
  intros (H1 & (known & H2 & H3) & H4). split; [exact H1|]. split; [|exact H4]. exists known. auto.
Qed.

Lemma entry_same : forall R s s', br_owned s' !! id = br_owned s !! id ->
  (forall j t, nth_error (br_tasks s) j = Some t -> tk_id t = id ->
     exists t', nth_error (br_tasks s') j = Some t' /\ tk_id t' = id /\ (tk_phase t <> Finished -> tk_phase t' <> Finished)) ->
  entry_ok R s -> entry_ok R s'.
Proof.
  intros R s s' Ho Ht. unfold entry_ok. rewrite Ho. destruct (br_owned s !! id) as [[|x]|]; auto.
  intros (H1 & H2 & t & H3 & H4 & H5). split; [exact H1|]. split; [exact H2|]. destruct (Ht _ _ H3 H4) as (t' & T1 & T2 & T3). exists t'. auto.
Qed.
Lemma entry_gone : forall R s, br_owned s !! id = None -> entry_ok R s.
Proof. intros R s H. unfold entry_ok. now rewrite H. Qed.

Lemma keeps_task : forall s j t, nth_error (br_tasks s) j = Some t -> tk_id t = id ->
  exists t', nth_error (br_tasks s) j = Some t' /\ tk_id t' = id /\ (tk_phase t <> Finished -> tk_phase t' <> Finished).
Proof. intros s j t H1 H2. exists t. auto. Qed.

Lemma updated_task : forall l i t0 f j t, nth_error l i = Some t0 -> tk_id (f t0) = tk_id t0 -> (tk_phase t0 <> Finished -> tk_phase (f t0) <> Finished) ->
  nth_error l j = Some t -> tk_id t = id ->
  exists t', nth_error (update_task l i f) j = Some t' /\ tk_id t' = id /\ (tk_phase t <> Finished -> tk_phase t' <> Finished).
Proof.
  intros l i t0 f j t H0 Hi Hp Hj Ht. rewrite (update_task_nth _ _ _ _ j H0). destruct (Nat.eqb_spec j i) as [->|E].
  - rewrite H0 in Hj. injection Hj as <-. exists (f t0). split; [reflexivity|]. split; [congruence|exact Hp].
  - exists t. auto.
Qed.

(** What is not about the broadcast leaves the entry alone, or removes it. *)
Lemma entry_other : forall R s e, ~ about c id (now_sec s) e -> entry_ok R s -> entry_ok R (bc_step c s e).
Proof.
  intros R s e Ha H.
  destruct e as [ms|e peer raw b|e peer raw b|sec dat targets|sec dat targets|i|i|i|]; cbn [bc_step about] in *.
  - exact H.
  - destruct (receive_broadcast_cases P z (bs_checks c) (bs_options c) e s peer raw b) as [->|(dat & from & _ & _ & _ & Hin & Hn & ->)]; [exact H|].
    apply (entry_same R s); [|exact (keeps_task s)|exact H]. cbn [accepted_state br_owned]. rewrite lookup_insert_ne; [reflexivity|]. intros E. apply Ha. now rewrite <- E.
  - destruct (receive_fec_cases P (bs_checks c) (bs_options c) e s peer raw b) as [->|(k & _ & _ & _ & _ & _ & Hc)]; [exact H|].
    cbv zeta in Hc.
    assert (Hs1 : entry_ok R (with_entry (bs_options c) s (bf_fec b) (bf_data_hash b) (node_id P k))).
    { unfold with_entry. destruct (br_owned s !! bf_data_hash b); [exact H|]. apply (entry_same R s); [| |exact H].
      - cbn. now rewrite lookup_insert_ne.
      - intros j t Hj Ht. exists t. split; [|auto]. cbn. rewrite nth_error_app1; [exact Hj|]. apply nth_error_Some. congruence. }
    set (s1 := with_entry _ _ _ _ _) in *.
    destruct Hc as [[-> _]|(t & t' & Hown & _ & Hc)]; [exact Hs1|].
    destruct Hc as [[-> _]|(_ & _ & targets & _ & [[_ ->]|(_ & task & Hn & _ & ->)])].
    + apply (entry_same R s1); [|exact (keeps_task s1)|exact Hs1]. cbn. now rewrite lookup_insert_ne.
    + apply (entry_same R s1); [|exact (keeps_task s1)|exact Hs1]. cbn. now rewrite lookup_insert_ne.
    + apply (entry_same R s1); [| |exact Hs1].
      * cbn. now rewrite lookup_insert_ne.
      * cbn [distribute set_tasks set_owned br_tasks]. intros j x. apply (updated_task _ _ task); [exact Hn|reflexivity|]. intros Hp. exact Hp.
  - destruct (send_broadcast_cases P z (bs_options c) (bs_overlay c) sec s dat targets) as [->|(Hn & m & ->)]; [exact H|].
    apply (entry_same R s); [|exact (keeps_task s)|exact H]. cbn [br_owned]. rewrite lookup_insert_ne; [reflexivity|]. intros E. apply Ha. now rewrite <- E.
  - destruct (send_fec_cases P z (bs_options c) (bs_overlay c) sec s dat targets) as [->|(Hn & ->)]; [exact H|].
    apply (entry_same R s); [|exact (keeps_task s)|exact H]. cbn [br_owned]. rewrite lookup_insert_ne; [reflexivity|]. intros E. apply Ha. now rewrite <- E.
  - unfold task_step. destruct (nth_error (br_tasks s) i) as [t|] eqn:Et; [|exact H].
    destruct (tk_phase t) eqn:Ep; [| |exact H].
    + destruct (tk_queue t) as [|p rest].
      * destruct (existsb _ _); [exact H|]. apply (entry_same R s); [reflexivity| |exact H].
        intros j x. cbn [set_tasks br_tasks]. apply (updated_task _ _ t); [exact Et|reflexivity|discriminate].
      * destruct (process_fec _ _ _ _ _) as [[[dat|]|er] d];
          (apply (entry_same R s); [reflexivity| |exact H]; intros j x; cbn [deliver_data set_tasks br_tasks]; apply (updated_task _ _ t); [exact Et|reflexivity|discriminate]).
    + destruct (bytes_eqb (tk_id t) id) eqn:Eid.
      * apply bytes_eqb_eq in Eid. unfold entry_ok in H |- *. rewrite Eid. destruct (br_owned s !! id) as [[|x]|] eqn:Eo.
        { destruct H. }
        { destruct H as (H1 & H2 & t' & H3 & H4 & H5). cbn [set_tasks set_owned br_owned br_tasks]. rewrite lookup_insert.
          cbn [ic_source ic_history ic_task ic_completed]. split; [exact H1|]. split; [exact H2|].
          rewrite (update_task_nth _ _ _ _ (ic_task x) Et). destruct (Nat.eqb_spec (ic_task x) i) as [E|E].
          - eexists. split; [reflexivity|]. split; [exact Eid|discriminate].
          - exists t'. split; [exact H3|]. split; [exact H4|discriminate]. }
        { cbn [set_tasks br_owned]. now rewrite Eo. }
      * assert (Hne : tk_id t <> id) by (intros E; rewrite E, bytes_eqb_refl in Eid; discriminate).
        apply (entry_same R s); [| |exact H].
        { destruct (br_owned s !! tk_id t) as [[|x]|]; [reflexivity| |reflexivity]. cbn. now rewrite lookup_insert_ne. }
        { intros j t' Hj Ht'. exists t'. split; [|auto].
          assert (Hx : forall m, br_tasks (set_owned s m) = br_tasks s) by reflexivity.
          destruct (br_owned s !! tk_id t) as [[|x]|]; cbn [set_tasks set_owned br_tasks]; rewrite (update_task_nth _ _ _ _ j Et);
            (destruct (Nat.eqb_spec j i) as [->|E]; [congruence|exact Hj]). }
  - unfold timer_step. destruct (nth_error _ _) as [t0|]; [|exact H]. destruct (_ <? _); [exact H|].
    destruct t0 as [i' due|i' due]; [destruct (match br_owned s !! i' with Some _ => _ | None => _ end)|]; exact H.
  - unfold push_step. destruct (nth_error _ _); exact H.
  - unfold collector_step. destruct (br_collector s) as [| |x|]; try (destruct (_ <? _); exact H); try (destruct (br_finished s); exact H); try exact H.
    destruct (bytes_eqb x id) eqn:E.
    + apply bytes_eqb_eq in E. subst x. apply entry_gone. cbn. apply lookup_delete.
    + apply (entry_same R s); [|exact (keeps_task s)|exact H]. cbn. rewrite lookup_delete_ne; [reflexivity|]. intros ->. rewrite bytes_eqb_refl in E. discriminate.
Qed.

(** A genuine packet is sent on, or is known. *)
Lemma entry_packet : forall R s en peer raw b, prims_ok P ->
  (exists secret, bf_src b = PkEd25519 (pub_of P secret) /\ src = node_id P (pub_of P secret)) -> length (bf_signature b) = 64%nat ->
  bf_data_hash b = id -> bf_seqno b < 2 ^ 32 -> timely c s (bf_date b) -> entry_ok R s ->
  let s' := bc_step c s (EvFec en peer raw b) in
  (entry_ok (fun j => j = bf_seqno b \/ R j) s'
   /\ br_sent s' = br_sent s ++ [(get_random_peers (be_neighbours en) (bo_secondary_fec (bs_options c)) (Some peer) (be_picks en), raw)])
  \/ (entry_ok R s' /\ br_sent s' = br_sent s /\ R (bf_seqno b)).
Proof.
  intros R s en peer raw b HP (secret & Hsrc & Hkey) Hsig Hid Hseq Ht H. cbv zeta. cbn [bc_step]. unfold receive_fec.
  rewrite (BroadcastLive.timely_not_outdated c s _ Ht). rewrite Hsrc. unfold full_id. rewrite (pub_valid P HP). rewrite Hsig. cbn [Nat.eqb negb].
  change (short_id P (pub_of P secret)) with (node_id P (pub_of P secret)). rewrite <- Hkey, Hid.
  set (s1 := match br_owned s !! id with None => spawn_fec_receiver (bs_options c) s (bf_fec b) id src | Some _ => s end).
  assert (H1 : entry_ok R s1 /\ br_sent s1 = br_sent s /\ exists x, br_owned s1 !! id = Some (Incoming x)).
  { unfold s1. destruct (br_owned s !! id) as [[|x]|] eqn:E.
    - unfold entry_ok in H. rewrite E in H. destruct H.
    - split; [exact H|]. split; [reflexivity|]. exists x. exact E.
    - split; [|split; [reflexivity|]].
      + unfold entry_ok, spawn_fec_receiver. cbn [set_timers set_tasks set_owned br_owned br_tasks]. rewrite lookup_insert. cbn [ic_source ic_history ic_task ic_completed].
        split; [reflexivity|]. split; [exists []; split; [exact inv_new|intros j []]|]. eexists.
        rewrite nth_error_app2, Nat.sub_diag by lia. split; [reflexivity|]. split; [reflexivity|discriminate].
      + eexists. unfold spawn_fec_receiver. cbn. apply lookup_insert. }
  clearbody s1. destruct H1 as (H1 & Hsent & x & Hx). rewrite Hx. unfold entry_ok in H1. rewrite Hx in H1.
  destruct H1 as (S1 & (known & S2 & S3) & t & S4 & S5 & S6). rewrite S1, bytes_eqb_refl. cbn [negb].
  destruct (deliver_spec (bs_checks c) (ic_history x) known (bf_seqno b) S2) as (o & h & Ed & Hpan & Hb & Hinv & _); [lia|lia|].
  rewrite Ed. destruct o; [| |congruence]; cbn [bool_of] in Hb.
  - left. assert (Hknown : forall j, In j (snd (spec_deliver known (bf_seqno b))) -> j = bf_seqno b \/ R j).
    { intros j Hj. unfold spec_deliver in Hj. destruct (256 <=? bf_seqno b); [destruct Hj|]. destruct (existsb _ known); cbn [snd] in Hj.
      - right. now apply S3.
      - destruct Hj as [Hj|Hj]; [left; now symmetry|right; now apply S3]. }
    destruct (ic_completed x) eqn:Ec.
    + cbn [snd]. split; [|cbn [distribute set_owned br_sent]; now rewrite Hsent].
      unfold entry_ok. cbn [distribute set_owned br_owned br_tasks]. rewrite lookup_insert. cbn [ic_source ic_history ic_task ic_completed].
      split; [reflexivity|]. split; [exists (snd (spec_deliver known (bf_seqno b))); auto|]. exists t. split; [exact S4|]. split; [exact S5|discriminate].
    + cbn [set_owned br_tasks]. rewrite S4. specialize (S6 eq_refl).
      destruct (tk_phase t) eqn:Ep; [| |now destruct S6]; cbn [snd]; (split; [|cbn [distribute set_tasks set_owned br_sent]; now rewrite Hsent]);
        unfold entry_ok; cbn [distribute set_tasks set_owned br_owned br_tasks]; rewrite lookup_insert; cbn [ic_source ic_history ic_task ic_completed];
        (split; [reflexivity|]); (split; [exists (snd (spec_deliver known (bf_seqno b))); auto|]);
        rewrite (update_task_nth _ _ _ _ (ic_task x) S4), Nat.eqb_refl; eexists; (split; [reflexivity|]); (split; [exact S5|]); cbn [push_packet tk_phase]; rewrite Ep; discriminate.
  - right. cbn [snd]. split; [|split].
    + unfold entry_ok. cbn [set_owned br_owned br_tasks]. rewrite lookup_insert. cbn [ic_source ic_history ic_task ic_completed].
      split; [reflexivity|]. split; [exists known; auto|]. exists t. auto.
    + exact Hsent.
    + apply S3. eapply BroadcastLive.rejected_seen; [apply incl_refl|now symmetry].
Qed.
End entry.

(** ** The overlay *)
Section world.
Context (P : prims) (z : zstd) (checks : bool) (F : fec) (react : consumers) (overlay : bytes) (keys : bytes -> bytes).
Context (packed : bool) (secret data : bytes) (origin : bytes) (neighbours : bytes -> list bytes).
Local Notation setup := (setup_of P z checks F overlay).
Local Notation at_node := (at_node overlay).
Local Notation sent_by := (sent_by overlay).
Local Notation delivered_by := (delivered_by overlay).
Local Notation step := (gossip_step P z checks F react overlay).
Local Notation start := (gossip_start keys).
Local Notation run := (gossip_run P z checks F react overlay start).
Local Notation at_time := (at_time P z checks F react overlay keys).
Local Notation receives := (receives overlay).
Local Notation occurs := (occurs overlay).
Local Notation payload := (parts_of z packed data).
Local Notation id := (parts_id P data).
Local Notation own := (own_fec_packet P F secret id payload).
Local Notation part := (part_message P z F overlay packed secret data).
Local Notation receives_part := (receives_part P z F overlay packed secret data).
Local Notation gets_part := (gets_part P z checks F react overlay packed secret data keys).
Local Notation punctual := (parts_punctual P z checks F react overlay packed secret data keys).
Local Notation undisturbed := (parts_undisturbed P z checks F react overlay packed secret data keys).
Local Notation flood := (parts_flood P z checks F react overlay packed secret data keys).
Local Notation run_last := (run_last P z checks F react overlay keys).
Local Notation at_time_last := (at_time_last P z checks F react overlay keys).
Local Notation at_time_more := (at_time_more P z checks F react overlay keys).
Local Notation world_step := (world_step P z checks F react overlay).
Context (HP : prims_ok P) (HF : fec_ok F) (Hz : zstd_ok z) (Hov : hash_ok overlay) (Hdiv : divisible P z packed data).

Lemma part_ok : forall date esi, date < 2 ^ 32 -> esi < 2 ^ 32 -> broadcast_ok (BBroadcastFec (own date esi)).
Proof.
  intros date esi Hd He. cbn [broadcast_ok]. unfold ov_broadcast_fec_ok, own_fec_packet.
  cbn [bf_src bf_certificate bf_data_hash bf_data_size bf_flags bf_data bf_seqno bf_fec bf_date bf_signature].
  assert (Hm : forall x, x mod u32_max < 2 ^ 32) by (intros x; apply N.mod_lt; discriminate).
  split; [exact (pub_len P HP secret)|]. split; [exact I|]. split; [apply (sha_len P HP)|]. split; [apply Hm|]. split; [reflexivity|].
  split; [unfold blob_ok; rewrite (fec_symbol_size F HF); reflexivity|]. split; [exact He|].
  split; [split; [apply Hm|split; [reflexivity|apply Hm]]|]. split; [exact Hd|]. unfold blob_ok. rewrite (sign_len P HP). reflexivity.
Qed.
Lemma part_named : forall date esi, named (part date esi) = overlay.
Proof. intros date esi. eapply named_hash. unfold part_message, overlay_message. now apply message_named. Qed.
Lemma part_reads : forall date esi, date < 2 ^ 32 -> esi < 2 ^ 32 ->
  get_broadcast (skipn 36 (part date esi)) = Some (BBroadcastFec (own date esi), []).
Proof.
  intros date esi Hd He. unfold part_message. rewrite (message_rest overlay Hov).
  pose proof (broadcast_reads (BBroadcastFec (own date esi)) [] (part_ok date esi Hd He)) as H. now rewrite app_nil_r in H.
Qed.
Lemma part_injective : forall date esi date' esi', date < 2 ^ 32 -> esi < 2 ^ 32 -> date' < 2 ^ 32 -> esi' < 2 ^ 32 ->
  part date esi = part date' esi' -> date = date' /\ esi = esi'.
Proof.
  intros date esi date' esi' H1 H2 H3 H4 H. pose proof (part_reads date esi H1 H2) as Hr. rewrite H, (part_reads date' esi' H3 H4) in Hr.
  assert (Ho : own date' esi' = own date esi) by congruence. split.
  - now apply (f_equal bf_date) in Ho.
  - now apply (f_equal bf_seqno) in Ho.
Qed.

(** A packet is handled by the overlay. *)
Lemma fec_handled : forall g i peer b picks, broadcast_ok (BBroadcastFec b) -> gr_overlays g !! overlay = Some i ->
  let m := overlay_message overlay (BBroadcastFec b) in
  gr_overlays (group_step P z checks F react g (GoMessage peer id_overlay_message m picks)) !! overlay
  = Some (mk_instance (in_peers i) (in_options i)
      (bc_step (setup i) (in_broadcasts i) (EvFec (mk_bc_env (ov_neighbours (in_peers i)) picks) peer m b))).
Proof.
  intros g i peer b picks Hok Hi m. cbn [group_step]. unfold on_message. rewrite N.eqb_refl. cbn [negb].
  unfold m at 1, overlay_message. rewrite message_named by exact Hov.
  pose proof (broadcast_reads (BBroadcastFec b) [] Hok) as Hr. rewrite app_nil_r in Hr. rewrite Hr, Hi.
  cbn [bc_step setup_of bs_prims bs_zstd bs_checks bs_options].
  destruct (receive_fec _ _ _ _ _ _ _ _) as [y s]. cbn. now rewrite lookup_insert.
Qed.
Lemma part_gets : forall w ev n i peer date esi picks, receives_part w ev n peer date esi picks -> at_node w n = Some i ->
  at_node (step w ev) n = Some (mk_instance (in_peers i) (in_options i)
    (bc_step (setup i) (in_broadcasts i) (EvFec (mk_bc_env (ov_neighbours (in_peers i)) picks) peer (part date esi) (own date esi)))).
Proof.
  intros w ev n i peer date esi picks (Hd & He & Hr) Hi. unfold GossipSpec.at_node in *.
  pose proof (fec_handled (w n) i peer (own date esi) picks (part_ok date esi Hd He) Hi) as Hh. cbv zeta in Hh.
  change (overlay_message overlay (BBroadcastFec (own date esi))) with (part date esi) in Hh.
  destruct ev as [x op|from k to q]; cbn [GossipSpec.receives gossip_step] in *.
  - destruct op; try contradiction. destruct Hr as (-> & -> & -> & -> & ->). rewrite place_same. exact Hh.
  - destruct Hr as (-> & -> & -> & targets & Hs & Hin). rewrite Hs.
    assert (Hu : exists r, get_u32 (part date esi) = Some (id_overlay_message, r)).
    { unfold part_message, overlay_message, put_overlay_message. rewrite <- !app_assoc. eexists. apply u32_reads. reflexivity. }
    destruct Hu as (r & ->).
    assert (existsb (bytes_eqb n) targets = true) as -> by (apply existsb_exists; exists n; split; [exact Hin|apply bytes_eqb_refl]).
    rewrite place_same. exact Hh.
Qed.

(** An event at a node is the reception of a packet of the broadcast, or is not about it. *)
Lemma reception_dec : forall w ev n, (exists peer raw picks, receives w ev n peer raw picks) \/ (forall peer raw picks, ~ receives w ev n peer raw picks).
Proof.
  intros w ev n. destruct ev as [x op|from k to q]; cbn [GossipSpec.receives].
  - destruct op as [ | | |p con r q| | | ]; try (right; intros; tauto).
    destruct (bytes_eqb x n) eqn:E; [apply bytes_eqb_eq in E|right; intros peer raw picks (-> & _); rewrite bytes_eqb_refl in E; discriminate].
    destruct (N.eqb_spec con id_overlay_message) as [Ec|Ec]; [|right; tauto]. left. exists p, r, q. auto.
  - destruct (bytes_eqb to n) eqn:E; [apply bytes_eqb_eq in E|right; intros peer raw picks (-> & _); rewrite bytes_eqb_refl in E; discriminate].
    destruct (nth_error (sent_by w from) k) as [[targets raw]|] eqn:En.
    + destruct (in_dec (List.list_eq_dec N.eq_dec) to targets) as [Hin|Hin].
      * left. exists from, raw, q. split; [exact E|]. split; [reflexivity|]. split; [reflexivity|]. exists targets. auto.
      * right. intros peer raw' picks (_ & _ & _ & targets' & Hs & Hi). apply Hin. injection Hs as -> _. exact Hi.
    + right. intros peer raw' picks (_ & _ & _ & targets' & Hs & Hi). congruence.
Qed.
Lemma receives_fun : forall w ev n peer raw picks peer' raw' picks', receives w ev n peer raw picks -> receives w ev n peer' raw' picks' ->
  peer = peer' /\ raw = raw' /\ picks = picks'.
Proof.
  intros w ev n peer raw picks peer' raw' picks'. destruct ev as [x op|from k to q]; cbn [GossipSpec.receives].
  - destruct op; try contradiction. intros (_ & _ & <- & <- & <-) (_ & _ & <- & <- & <-). auto.
  - intros (_ & <- & <- & t & Hs & _) (_ & <- & <- & t' & Hs' & _). split; [reflexivity|]. split; [congruence|reflexivity].
Qed.

Lemma part_or_not : forall evs w ev n, undisturbed evs origin -> at_time evs w ev ->
  (exists peer date esi picks, receives_part w ev n peer date esi picks /\ (peer = origin \/ exists k, ev = Arrives peer k n picks))
  \/ ((forall peer date esi picks, ~ receives_part w ev n peer date esi picks)
      /\ forall i e, at_node w n = Some i -> occurs w ev n i e -> n <> origin -> ~ about (setup i) id (now_sec (in_broadcasts i)) e).
Proof.
  intros evs w ev n (U1 & U2 & U3 & U4) Ht.
  assert (Hcase : (exists peer date esi picks, receives_part w ev n peer date esi picks /\ (peer = origin \/ exists k, ev = Arrives peer k n picks))
     \/ (forall peer raw picks b rest, receives w ev n peer raw picks -> named raw = overlay -> get_broadcast (skipn 36 raw) = Some (BBroadcastFec b, rest) -> bf_data_hash b <> id)).
  { destruct (reception_dec w ev n) as [(peer & raw & picks & Hr)|Hno].
    2:{ right. intros peer raw picks b rest Hr. exfalso. exact (Hno _ _ _ Hr). }
    destruct (bytes_eqb (named raw) overlay) eqn:En.
    2:{ right. intros peer' raw' picks' b rest Hr' Hn'. destruct (receives_fun _ _ _ _ _ _ _ _ _ Hr Hr') as (<- & <- & <-). rewrite Hn', bytes_eqb_refl in En. discriminate. }
    apply bytes_eqb_eq in En.
    destruct (get_broadcast (skipn 36 raw)) as [[b rest]|] eqn:Eg.
    2:{ right. intros peer' raw' picks' b rest Hr' Hn' Hg. destruct (receives_fun _ _ _ _ _ _ _ _ _ Hr Hr') as (<- & <- & <-). congruence. }
    destruct b as [b|b| | | | | ]; try (right; intros peer' raw' picks' b' rest' Hr' Hn' Hg; destruct (receives_fun _ _ _ _ _ _ _ _ _ Hr Hr') as (<- & <- & <-); congruence).
    destruct (bytes_eqb (bf_data_hash b) id) eqn:Eh.
    - left. apply bytes_eqb_eq in Eh. destruct (U1 _ _ _ _ _ _ _ _ Ht Hr En Eg Eh) as (date & esi & Hd & He & -> & Hp).
      exists peer, date, esi, picks. split; [|exact Hp]. split; [exact Hd|]. split; [exact He|exact Hr].
    - right. intros peer' raw' picks' b' rest' Hr' Hn' Hg. destruct (receives_fun _ _ _ _ _ _ _ _ _ Hr Hr') as (<- & <- & <-).
      rewrite Eg in Hg. injection Hg as <- <-. intros E. rewrite E, bytes_eqb_refl in Eh. discriminate. }
  destruct Hcase as [Hcase|Hcase]; [now left|right]. split.
  - intros peer date esi picks (Hd & He & Hr). exact (Hcase _ _ _ _ _ Hr (part_named date esi) (part_reads date esi Hd He) eq_refl).
  - intros i e Hi Ho Hne Ha. destruct e as [ms|en peer raw b|en peer raw b|sec dat targets|sec dat targets|j|j|j|]; cbn [about GossipFacts.occurs] in *; try contradiction.
    + destruct Ho as (picks & rest & _ & Hr & Hn & Hg). exact (U2 _ _ _ _ _ _ _ _ Ht Hr Hn Hg Ha).
    + destruct Ho as (picks & rest & _ & Hr & Hn & Hg). exact (Hcase _ _ _ _ _ Hr Hn Hg Ha).
    + apply (U3 w ev n Ht). exists sec, dat, targets, i. split; [exact Ho|]. split; [exact Hi|]. now symmetry.
    + apply Hne. subst ev. destruct Ht as (before & after & -> & _). apply (U4 n sec dat targets); [|now symmetry].
      apply in_or_app. right. now left.
Qed.

Lemma gets_more : forall evs more n esi, gets_part evs n esi -> gets_part (evs ++ more) n esi.
Proof. intros evs more n esi (w & e & peer & date & picks & Ht & Hr). exists w, e, peer, date, picks. split; [now apply at_time_more|exact Hr]. Qed.
Lemma punctual_less : forall evs more, punctual (evs ++ more) -> punctual evs.
Proof. intros evs more H w e n peer date esi picks Ht. apply H. now apply at_time_more. Qed.
Lemma undisturbed_less : forall evs more, undisturbed (evs ++ more) origin -> undisturbed evs origin.
Proof.
  intros evs more (H1 & H2 & H3 & H4). split; [|split; [|split]].
  - intros w e n peer raw picks b rest Ht. apply (H1 w e n peer raw picks b rest). now apply at_time_more.
  - intros w e n peer raw picks b rest Ht. apply (H2 w e n peer raw picks b rest). now apply at_time_more.
  - intros w e n Ht. apply H3. now apply at_time_more.
  - intros n sec dat targets Hin. apply (H4 n sec dat targets). apply in_or_app. now left.
Qed.
Lemma flood_less : forall evs more, flood (evs ++ more) neighbours -> flood evs neighbours.
Proof. intros evs more H w e n peer date esi picks i Ht. apply (H w e n peer date esi picks i). now apply at_time_more. Qed.
Lemma proper_less : forall evs more, proper_sends z overlay (evs ++ more) -> proper_sends z overlay evs.
Proof. intros evs more H n s d t p Hin. apply (H n s d t p). apply in_or_app. now left. Qed.

(** Symbol [esi] was sent on by [n] to its neighbours, but for one that has it. *)
Definition passed_on (evs : list gossip_event) (n : bytes) (esi : N) : Prop :=
  exists p targets date, date < 2 ^ 32 /\ esi < 2 ^ 32 /\ In (targets, part date esi) (sent_by (run evs) n)
  /\ (forall x, In x (neighbours n) -> x = p \/ In x targets)
  /\ (p = origin \/ exists date' targets', date' < 2 ^ 32 /\ In (targets', part date' esi) (sent_by (run evs) p)).
Lemma passed_more : forall evs more n esi, passed_on evs n esi -> passed_on (evs ++ more) n esi.
Proof.
  intros evs more n esi (p & targets & date & H1 & H2 & H3 & H4 & H5). exists p, targets, date. split; [exact H1|]. split; [exact H2|].
  split; [|split; [exact H4|]].
  - destruct (sent_run P z checks F react overlay keys evs more n) as (l & ->). apply in_or_app. now left.
  - destruct H5 as [H5|(date' & targets' & Hd & H5)]; [now left|right]. exists date', targets'. split; [exact Hd|].
    destruct (sent_run P z checks F react overlay keys evs more p) as (l & ->). apply in_or_app. now left.
Qed.

Record spread (evs : list gossip_event) : Prop := mk_spread
  { sp_sent : forall n targets date esi, date < 2 ^ 32 -> esi < 2 ^ 32 -> In (targets, part date esi) (sent_by (run evs) n) -> gets_part evs n esi;
    sp_entry : forall n i, n <> origin -> at_node (run evs) n = Some i ->
      entry_ok id (node_id P (pub_of P secret)) (passed_on evs n) (in_broadcasts i);
    sp_passed : forall n esi, n <> origin -> gets_part evs n esi -> passed_on evs n esi }.

(** A packet arrives at a node. *)
Lemma part_step : forall evs ev n peer date esi picks, spread evs -> punctual (evs ++ [ev]) -> flood (evs ++ [ev]) neighbours -> n <> origin ->
  receives_part (run evs) ev n peer date esi picks -> (peer = origin \/ exists k, ev = Arrives peer k n picks) ->
  exists i', at_node (run (evs ++ [ev])) n = Some i'
  /\ entry_ok id (node_id P (pub_of P secret)) (passed_on (evs ++ [ev]) n) (in_broadcasts i') /\ passed_on (evs ++ [ev]) n esi.
Proof.
  intros evs ev n peer date esi picks Hs Hp Hf Hne Hr Hpeer. pose proof Hr as (Hd & He & Hr0).
  destruct (Hp _ _ _ _ _ _ _ (at_time_last evs ev) Hr) as (i & Hi & Ht).
  pose proof (part_gets _ _ _ _ _ _ _ _ Hr Hi) as Hstep. rewrite <- run_last in Hstep. eexists. split; [exact Hstep|]. cbn [in_broadcasts].
  pose proof (entry_packet (setup i) id (node_id P (pub_of P secret)) (passed_on evs n) (in_broadcasts i)
    (mk_bc_env (ov_neighbours (in_peers i)) picks) peer (part date esi) (own date esi) HP) as H.
  cbv zeta in H. destruct H as [(H1 & H2)|(H1 & H2 & H3)].
  - exists secret. split; reflexivity.
  - cbn. apply (sign_len P HP).
  - reflexivity.
  - exact He.
  - exact Ht.
  - exact (sp_entry _ Hs n i Hne Hi).
  - cbn [be_neighbours be_picks] in H2.
    assert (Hpass : passed_on (evs ++ [ev]) n esi).
    { exists peer. eexists. exists date. split; [exact Hd|]. split; [exact He|]. split; [|split].
      - unfold GossipSpec.sent_by. rewrite Hstep. cbn [in_broadcasts]. rewrite H2. apply in_or_app. right. left. reflexivity.
      - intros x Hx. destruct (Hf _ _ _ _ _ _ _ i (at_time_last evs ev) Hr Hi) as (F1 & F2 & F3 & F4). apply all_chosen; auto.
      - destruct Hpeer as [->|(k & ->)]; [now left|right]. destruct Hr0 as (_ & _ & _ & targets & Hk & _).
        exists date, targets. split; [exact Hd|]. destruct (sent_run P z checks F react overlay keys evs [Arrives peer k n picks] peer) as (l & ->).
        apply in_or_app. left. eapply nth_error_In, Hk. }
    split; [|exact Hpass]. eapply entry_weaken; [|exact H1]. cbn beta. intros j [->|Hj]; [exact Hpass|now apply passed_more].
  - split; [|now apply passed_more]. eapply entry_weaken; [|exact H1]. intros j Hj. now apply passed_more.
Qed.

Lemma spread_run : forall evs, punctual evs -> undisturbed evs origin -> flood evs neighbours -> proper_sends z overlay evs -> spread evs.
Proof.
  induction evs as [|ev evs IH] using rev_ind; intros Hp Hu Hf Hs.
  - split.
    + intros n targets date esi _ _ H. unfold GossipSpec.sent_by, GossipSpec.at_node in H. cbn in H. rewrite lookup_empty in H. destruct H.
    + intros n i _ Hi. cbn in Hi. unfold GossipSpec.at_node in Hi. cbn in Hi. rewrite lookup_empty in Hi. discriminate.
    + intros n esi _ (w & e & peer & date & picks & ([|] & after & He & _) & _); discriminate.
  - specialize (IH (punctual_less _ _ Hp) (undisturbed_less _ _ Hu) (flood_less _ _ Hf) (proper_less _ _ Hs)).
    pose proof (at_time_last evs ev) as Hat.
    assert (Hlast : In ev (evs ++ [ev])) by (apply in_or_app; right; now left).
    split.
    + intros n targets date esi Hd He. rewrite run_last. unfold GossipSpec.sent_by at 1.
      destruct (world_step (run evs) ev n) as [H|[[H (i & clock & H' & Hb)]|[(i & p & H & H')|(i & e & H & H' & Ho)]]]; rewrite ?H, ?H'.
      * intros Hin. apply gets_more, (sp_sent _ IH n targets date esi Hd He). exact Hin.
      * rewrite Hb. intros [].
      * cbn [in_broadcasts]. intros Hin. apply gets_more, (sp_sent _ IH n targets date esi Hd He). unfold GossipSpec.sent_by. now rewrite H.
      * cbn [in_broadcasts]. intros Hin.
        assert (Hold : In (targets, part date esi) (br_sent (in_broadcasts i)) -> gets_part (evs ++ [ev]) n esi).
        { intros Hx. apply gets_more, (sp_sent _ IH n targets date esi Hd He). unfold GossipSpec.sent_by. now rewrite H. }
        destruct (sent_cases (setup i) (in_broadcasts i) e) as [Hc|Hc]; [rewrite Hc in Hin; auto|].
        destruct e as [ms|e peer raw b|e peer raw b|sec dat tgts|sec dat tgts|j|j|j|]; try contradiction;
          rewrite Hc in Hin; apply in_app_or in Hin as [Hin|[Hin|[]]]; auto; apply (f_equal snd) in Hin; cbn [snd] in Hin; rename Hin into Hraw.
        { exfalso. destruct Ho as (picks & rest & _ & _ & _ & Hb). rewrite Hraw, (part_reads date esi Hd He) in Hb. discriminate. }
        { destruct Ho as (picks & rest & _ & Hr & _). rewrite Hraw in Hr. exists (run evs), ev, peer, date, picks. split; [exact Hat|]. split; [exact Hd|]. split; [exact He|exact Hr]. }
        { exfalso. cbn in Ho. subst ev. pose proof (part_reads date esi Hd He) as Hrd. rewrite <- Hraw in Hrd.
          change (bs_overlay (setup i)) with overlay in Hrd. rewrite (message_rest overlay Hov) in Hrd.
          assert (Hn : now_sec (in_broadcasts i) < 2 ^ 32) by (unfold now_sec; apply N.mod_lt; discriminate).
          pose proof (own_ok P z HP (in_options i) sec dat (now_sec (in_broadcasts i)) Hn (Hs _ _ _ _ _ Hlast)) as Hok.
          pose proof (broadcast_reads _ [] Hok) as Hr. rewrite app_nil_r in Hr.
          cbn [setup_of bs_prims bs_zstd bs_options] in Hrd. rewrite Hr in Hrd. discriminate. }
    + intros n i' Hne. intros Hi'.
      destruct (part_or_not (evs ++ [ev]) (run evs) ev n Hu Hat) as [(peer & date & esi & picks & Hr & Hpeer)|[Hno Hab]].
      { destruct (part_step evs ev n peer date esi picks IH Hp Hf Hne Hr Hpeer) as (i2 & H2 & H3 & _). rewrite Hi' in H2. injection H2 as <-. exact H3. }
      assert (Hweak : forall s, entry_ok id (node_id P (pub_of P secret)) (passed_on evs n) s -> entry_ok id (node_id P (pub_of P secret)) (passed_on (evs ++ [ev]) n) s).
      { intros s. apply entry_weaken. intros j. apply passed_more. }
      rewrite run_last in Hi'. apply Hweak.
      destruct (world_step (run evs) ev n) as [H|[[H (i & clock & H' & Hb)]|[(i & p & H & H')|(i & e & H & H' & Ho)]]]; rewrite Hi' in *.
      * apply (sp_entry _ IH n i' Hne). now symmetry.
      * injection H' as ->. rewrite Hb. apply entry_gone. cbn. apply lookup_empty.
      * injection H' as ->. cbn [in_broadcasts]. now apply (sp_entry _ IH n i Hne).
      * injection H' as ->. cbn [in_broadcasts]. apply entry_other; [exact (Hab i e H Ho Hne)|now apply (sp_entry _ IH n i Hne)].
    + intros n esi Hne (w & e & peer & date & picks & (before & after & He & Hw) & Hr).
      destruct after as [|e' after] using rev_ind.
      * apply app_inj_tail in He as [<- <-]. subst w.
        destruct (part_or_not (evs ++ [ev]) (run evs) ev n Hu Hat) as [(peer' & date' & esi' & picks' & Hr' & Hpeer)|[Hno _]]; [|exfalso; exact (Hno _ _ _ _ Hr)].
        destruct Hr as (Hd & Hesi & Hr). destruct Hr' as (Hd' & Hesi' & Hr').
        destruct (receives_fun _ _ _ _ _ _ _ _ _ Hr Hr') as (<- & Heq & <-). apply part_injective in Heq as [<- <-]; try assumption.
        destruct (part_step evs ev n peer date esi picks IH Hp Hf Hne) as (_ & _ & _ & H); [split; [exact Hd|split; [exact Hesi|exact Hr]]|exact Hpeer|exact H].
      * clear IHafter. rewrite app_comm_cons, app_assoc in He. apply app_inj_tail in He as [-> ->]. apply passed_more, (sp_passed _ IH n esi Hne).
        exists w, e, peer, date, picks. split; [|exact Hr]. exists before, after. auto.
Qed.

Theorem symbols_spread : forall evs a n esi, punctual evs -> undisturbed evs origin -> flood evs neighbours -> proper_sends z overlay evs ->
  no_part_lost P z checks F react overlay packed secret data keys evs ->
  a <> origin -> gets_part evs a esi -> path (beyond origin neighbours) a n -> n = origin \/ gets_part evs n esi.
Proof.
  intros evs a n esi Hp Hu Hf Hs Hl Hne Ha. pose proof (spread_run evs Hp Hu Hf Hs) as Hsp.
  induction 1 as [|b d Hb IH [Hbo Hd]]; [now right|]. destruct IH as [IH|IH]; [contradiction|].
  destruct (sp_passed _ Hsp b esi Hbo IH) as (p & targets & date & D1 & D2 & D3 & D4 & D5).
  destruct (D4 d Hd) as [->|Hin].
  - destruct D5 as [D5|(date' & targets' & D6 & D7)]; [now left|right]. exact (sp_sent _ Hsp p targets' date' esi D6 D2 D7).
  - right. apply In_nth_error in D3 as (k & Hk). destruct (Hl date esi D1 D2 b k targets d Hk Hin) as (w & picks & Ht & Hlt).
    exists w, (Arrives b k d picks), b, date, picks. split; [exact Ht|]. split; [exact D1|]. split; [exact D2|].
    cbn. split; [reflexivity|]. split; [reflexivity|]. split; [reflexivity|]. exists targets. split; [|exact Hin].
    destruct Ht as (before & after & -> & ->). destruct (sent_run P z checks F react overlay keys before (Arrives b k d picks :: after) b) as (l & He).
    rewrite He in Hk. now rewrite nth_error_app1 in Hk.
Qed.

(** ** Delivery *)
Local Notation receiving i := (BroadcastLive.receiving (setup i) secret data packed).
Local Notation idle i := (BroadcastLive.idle (setup i) data).
Local Notation got i := (BroadcastLive.got (setup i) secret data).
Local Notation timeout_of i := (bo_timeout (in_options i)).

Lemma node_stays : forall before after n i, at_node (run before) n = Some i ->
  exists i', at_node (run (before ++ after)) n = Some i' /\ in_options i' = in_options i
  /\ br_clock (in_broadcasts i) <= br_clock (in_broadcasts i').
Proof.
  intros before after n i Hi. induction after as [|ev after IH] using rev_ind.
  - exists i. rewrite app_nil_r. split; [exact Hi|]. split; [reflexivity|lia].
  - destruct IH as (i1 & H1 & H2 & H3). rewrite app_assoc, run_last.
    destruct (world_step (run (before ++ after)) ev n) as [H|[[H _]|[(j & p & H & H')|(j & e & H & H' & _)]]].
    + exists i1. rewrite H. auto.
    + congruence.
    + rewrite H1 in H. injection H as <-. eexists. split; [exact H'|]. split; [exact H2|exact H3].
    + rewrite H1 in H. injection H as <-. eexists. split; [exact H'|]. split; [exact H2|]. cbn [in_broadcasts].
      pose proof (proj1 (clock_step (setup i1) (in_broadcasts i1) e)). lia.
Qed.

Local Notation within := (within_timeout P z checks F react overlay packed secret data keys).
Lemma within_less : forall evs more n, within (evs ++ more) n -> within evs n.
Proof.
  intros evs more n H w e peer date esi picks i i' Ht Hr Hi Hi'.
  destruct (node_stays evs more n i' Hi') as (i2 & H2 & H3 & H4).
  pose proof (H w e peer date esi picks i i2 (at_time_more _ _ _ _ Ht) Hr Hi H2). lia.
Qed.

Lemma last_reception : forall evs ev n esi, gets_part (evs ++ [ev]) n esi ->
  gets_part evs n esi \/ exists peer date picks, receives_part (run evs) ev n peer date esi picks.
Proof.
  intros evs ev n esi (w & e & peer & date & picks & (before & after & He & Hw) & Hr).
  destruct after as [|e' after] using rev_ind.
  - right. apply app_inj_tail in He as [<- <-]. subst w. eauto.
  - clear IHafter. left. rewrite app_comm_cons, app_assoc in He. apply app_inj_tail in He as [-> ->].
    exists w, e, peer, date, picks. split; [|exact Hr]. exists before, after. auto.
Qed.

(** Time [T] is when [n] received a packet. *)
Definition received_at (evs : list gossip_event) (n : bytes) (T : N) : Prop :=
  exists w e peer date esi picks i, at_time evs w e /\ receives_part w e n peer date esi picks /\ at_node w n = Some i /\ T = br_clock (in_broadcasts i).
Lemma received_at_more : forall evs more n T, received_at evs n T -> received_at (evs ++ more) n T.
Proof.
  intros evs more n T (w & e & peer & date & esi & picks & i & H1 & H2). exists w, e, peer, date, esi, picks, i.
  split; [now apply at_time_more|exact H2].
Qed.

Definition follows (evs : list gossip_event) (n : bytes) : Prop :=
  match at_node (run evs) n with
  | None => forall esi, ~ gets_part evs n esi
  | Some i => BroadcastLive.reachable (setup i) (in_broadcasts i)
    /\ (got i (in_broadcasts i) \/ (idle i (in_broadcasts i) /\ forall esi, ~ gets_part evs n esi)
        \/ exists T seen, receiving i T seen (in_broadcasts i) /\ (forall esi, gets_part evs n esi -> In esi seen) /\ received_at evs n T)
  end.

Lemma follows_run : forall evs n, n <> origin -> punctual evs -> undisturbed evs origin -> within evs n -> follows evs n.
Proof.
  destruct Hdiv as (D1 & D2 & D3 & D4 & D5).
  intros evs n Hne. induction evs as [|ev evs IH] using rev_ind; intros Hp Hu Hw.
  - unfold follows. cbn. unfold GossipSpec.at_node. cbn. rewrite lookup_empty. intros esi (w & e & peer & date & picks & ([|] & after & He & _) & _); discriminate.
  - specialize (IH (punctual_less _ _ Hp) (undisturbed_less _ _ Hu) (within_less _ _ _ Hw)).
    pose proof (at_time_last evs ev) as Hat.
    destruct (part_or_not (evs ++ [ev]) (run evs) ev n Hu Hat) as [(peer & date & esi & picks & Hr & Hpeer)|[Hno Hab]].
    + destruct (Hp _ _ _ _ _ _ _ Hat Hr) as (i & Hi & Ht).
      pose proof (part_gets _ _ _ _ _ _ _ _ Hr Hi) as Hstep. rewrite <- run_last in Hstep. unfold follows in IH |- *. rewrite Hi in IH. rewrite Hstep.
      cbn [in_broadcasts]. change (setup (mk_instance (in_peers i) (in_options i) _)) with (setup i).
      destruct IH as [Hreach IH]. split; [now apply BroadcastLive.reachable_step|].
      pose proof Hr as (Hd & He & Hr0).
      assert (Hnew : forall x, gets_part (evs ++ [ev]) n x -> gets_part evs n x \/ x = esi).
      { intros x Hx. destruct (last_reception evs ev n x Hx) as [H|(peer' & date' & picks' & Hd' & Hx' & Hr')]; [now left|right].
        destruct (receives_fun _ _ _ _ _ _ _ _ _ Hr0 Hr') as (_ & Heq & _). apply part_injective in Heq as [_ ->]; auto. }
      destruct IH as [(d & Hd1 & Hd2)|[[Hidle Hnone]|(T & seen & Hrec & Hseen & HT)]].
      * left. exists d. split; [now apply BroadcastLive.delivered_step|exact Hd2].
      * right. right. exists (br_clock (in_broadcasts i)), [esi]. split; [|split].
        { exact (BroadcastLive.first_packet (setup i) secret data packed HP D3 D2 D5 (in_broadcasts i) _ peer (part date esi) date esi Ht He Hidle). }
        { intros x Hx. destruct (Hnew x Hx) as [H|H]; [now apply Hnone in H|now left]. }
        { exists (run evs), ev, peer, date, esi, picks, i. auto. }
      * right. right. exists T, (esi :: seen). split; [|split].
        { exact (BroadcastLive.next_packet (setup i) secret data packed HP D3 D2 D5 T seen (in_broadcasts i) _ peer (part date esi) date esi Ht He Hrec). }
        { intros x Hx. destruct (Hnew x Hx) as [H|H]; [right; now apply Hseen|now left]. }
        { now apply received_at_more. }
    + assert (Hkeep : forall x, gets_part (evs ++ [ev]) n x -> gets_part evs n x).
      { intros x Hx. destruct (last_reception evs ev n x Hx) as [H|(peer' & date' & picks' & Hr')]; [exact H|]. exfalso. exact (Hno _ _ _ _ Hr'). }
      assert (Hsame : forall i, at_node (run (evs ++ [ev])) n = Some i -> forall i0, at_node (run evs) n = Some i0 -> in_options i = in_options i0 ->
         in_broadcasts i = in_broadcasts i0 -> follows (evs ++ [ev]) n).
      { intros i Hi i0 Hi0 Ho Hb. unfold follows in *. rewrite Hi. rewrite Hi0 in IH.
        assert (Hsetup : setup i = setup i0) by (unfold setup_of; now rewrite Ho). rewrite Hsetup, Hb. destruct IH as [H1 H2]. split; [exact H1|].
        destruct H2 as [H2|[[H2 H3]|(T & seen & H2 & H3 & H4)]].
        - now left.
        - right. left. split; [exact H2|]. intros x Hx. apply (H3 x). now apply Hkeep.
        - right. right. exists T, seen. split; [exact H2|]. split; [|now apply received_at_more]. intros x Hx. apply H3. now apply Hkeep. }
      destruct (world_step (run evs) ev n) as [H|[[H (i & clock & H' & Hb)]|[(i & p & H & H')|(i & e & H & H' & Ho)]]]; rewrite <- run_last in *.
      * destruct (at_node (run (evs ++ [ev])) n) as [i|] eqn:Ei.
        { exact (Hsame i eq_refl i (eq_sym H) eq_refl eq_refl). }
        { unfold follows in *. rewrite Ei. rewrite <- H in IH. intros x Hx. apply (IH x). now apply Hkeep. }
      * unfold follows in *. rewrite H'. rewrite H in IH. rewrite Hb. split; [exists clock, []; reflexivity|]. right. left. split.
        { split; [apply lookup_empty|intros t []]. }
        { intros x Hx. apply (IH x). now apply Hkeep. }
      * eapply Hsame; [exact H'|exact H|reflexivity|reflexivity].
      * specialize (Hab i e H Ho Hne). unfold follows in IH |- *. rewrite H'. rewrite H in IH.
        cbn [in_broadcasts]. change (setup (mk_instance (in_peers i) (in_options i) _)) with (setup i).
        destruct IH as [Hreach IH]. split; [now apply BroadcastLive.reachable_step|].
        assert (Hfec : forall ee peer raw b, e = EvFec ee peer raw b -> bf_data_hash b <> id).
        { intros ee peer raw b -> E. apply Hab. exact E. }
        destruct IH as [(d & Hd1 & Hd2)|[[Hidle Hnone]|(T & seen & Hrec & Hseen & HT)]].
        { left. exists d. split; [now apply BroadcastLive.delivered_step|exact Hd2]. }
        { right. left. split; [|intros x Hx; apply (Hnone x); now apply Hkeep].
          apply BroadcastLive.idle_other; [exact Hab|exact Hfec|exact Hidle]. }
        { assert (Hclk : br_clock (bc_step (setup i) (in_broadcasts i) e) < T + timeout_of i * 1000).
          { destruct HT as (w & e0 & peer & date & esi & picks & i0 & T1 & T2 & T3 & ->).
            pose proof (Hw w e0 peer date esi picks i0 _ (at_time_more _ _ _ _ T1) T2 T3 H') as Hlt. cbn [in_broadcasts] in Hlt.
            destruct T1 as (before & after & -> & ->). destruct (node_stays before (e0 :: after) n i0 T3) as (i1 & N1 & N2 & _).
            rewrite H in N1. injection N1 as <-. now rewrite N2. }
          destruct (BroadcastLive.receiving_step (setup i) secret data packed HP HF Hz D1 D3 D2 D5 T seen (in_broadcasts i) e Hreach Hrec Hclk Hfec) as [G|G]; [now left|].
          right. right. exists T, seen. split; [exact G|]. split; [intros x Hx; apply Hseen; now apply Hkeep|now apply received_at_more]. }
Qed.

Theorem data_delivered : forall evs n, punctual evs -> undisturbed evs origin -> flood evs neighbours -> proper_sends z overlay evs ->
  no_part_lost P z checks F react overlay packed secret data keys evs -> n <> origin ->
  within evs n -> worked_off P z checks F react overlay data keys evs n ->
  (forall i, i < fe_count F payload -> exists a, a <> origin /\ gets_part evs a i /\ path (beyond origin neighbours) a n) ->
  exists d, In d (delivered_by (run evs) n) /\ dl_id d = id /\ dl_data d = data /\ dl_from d = node_id P (pub_of P secret).
Proof.
  intros evs n Hp Hu Hf Hs Hl Hne Hw Hoff Hall.
  assert (Hgets : forall i, i < fe_count F payload -> gets_part evs n i).
  { intros i Hi. destruct (Hall i Hi) as (a & Ha & Hg & Hpath). destruct (symbols_spread evs a n i Hp Hu Hf Hs Hl Ha Hg Hpath) as [H|H]; [contradiction|exact H]. }
  pose proof (follows_run evs n Hne Hp Hu Hw) as H. unfold follows in H. unfold GossipSpec.delivered_by.
  pose proof Hdiv as (D1 & D2 & D3 & D4 & D5).
  assert (HK : 1 <= fe_count F payload).
  { rewrite (fec_count F HF). unfold symbol_size. assert (0 < length payload)%nat by (destruct payload; [congruence|cbn; lia]).
    apply N.div_le_lower_bound; lia. }
  destruct (at_node (run evs) n) as [i|] eqn:Ei.
  - destruct H as [_ [H|[[_ H]|(T & seen & Hrec & Hseen & _)]]].
    + exact H.
    + exfalso. apply (H 0), Hgets. lia.
    + exfalso. destruct Hrec as [_ _ (x & t & H1 & H2 & H3 & H4 & H5 & H6 & H7 & H8 & H9 & H10 & H11 & H12 & H13 & H14)].
      pose proof (Hoff i Ei t (nth_error_In _ _ H2) H6 H8) as Hq. rewrite Hq in H13.
      assert (Hin : forall k, k < fe_count F payload -> In k (map fst (de_packets (tk_decoder t)))).
      { intros k Hk. destruct (H13 k (Hseen k (Hgets k Hk))) as [Hd|[]]. exact Hd. }
      assert (Hne' : de_packets (tk_decoder t) <> []).
      { intros E. specialize (Hin 0). rewrite E in Hin. apply Hin. lia. }
      destruct H11 as [H11|H11]; [contradiction|].
      change (bs_fec (setup i)) with F in *. change (wire (setup i) packed data) with payload in *.
      rewrite (fec_complete F HF payload) in H11; [discriminate|exact D3|exact H10|exact Hne'|].
      intros k Hk. specialize (Hin k Hk). apply in_map_iff in Hin as ([a b] & <- & Hab). now exists b.
  - exfalso. apply (H 0), Hgets. lia.
Qed.
End world.
