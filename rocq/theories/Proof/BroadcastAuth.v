(** Delivered broadcasts are authentic. *)
From stdpp Require Import gmap.
From Coq Require Import NArith Lia ZifyBool ZifyNat ZifyN.
From Verif.Base Require Import Bytes BytesFacts Res.
From Verif.Model Require Import Crypto Tl Scheme ProtoAdnl ProtoRldp ProtoOverlay AdnlNode History PeersSet
  Compression Fec DhtStorage Broadcast.
From Verif.Spec Require Import CryptoSpec DhtSpec OverlaySpec BroadcastSpec.
From Verif.Proof Require Import BroadcastFacts.
Open Scope N_scope.

Lemma happened_more : forall c s0 evs s e more, happened c s0 evs s e -> happened c s0 (evs ++ more) s e.
Proof.
  intros c s0 evs s e more (before & after & -> & ->). exists before, (after ++ more).
  split; [|reflexivity]. now rewrite <- app_assoc.
Qed.
Lemma happened_last : forall c s0 evs e, happened c s0 (evs ++ [e]) (bc_run c s0 evs) e.
Proof. intros. exists evs, []. split; reflexivity. Qed.
Lemma received_more : forall c s0 evs b more, received_packet c s0 evs b -> received_packet c s0 (evs ++ more) b.
Proof.
  intros c s0 evs b more (s & e & peer & raw & H & Ht). exists s, e, peer, raw. split; [now apply happened_more|exact Ht].
Qed.

Lemma bc_run_last : forall c s0 evs e, bc_run c s0 (evs ++ [e]) = bc_step c (bc_run c s0 evs) e.
Proof. intros. unfold bc_run. now rewrite fold_left_app. Qed.

Section auth.
Context (c : bc_setup) (s0 : bstate).
Local Notation P := (bs_prims c).

Definition queued (evs : list bc_event) (id source : bytes) (p : fec_packet) : Prop :=
  exists b key, received_packet c s0 evs b /\ (bf_src b = PkEd25519 key /\ valid_pub P key = true) /\ bf_data_hash b = id
  /\ source = node_id P key /\ p = packet_of key b.
Definition task_ok (evs : list bc_event) (t : fec_task) : Prop :=
  tk_phase t = Running ->
  exists first used, received_packet c s0 evs first /\ bf_data_hash first = tk_id t
  /\ de_params (tk_decoder t) = bf_fec first
  /\ de_packets (tk_decoder t) = map (fun b => (bf_seqno b, bf_data b)) used
  /\ tk_packets t = N.of_nat (length used)
  /\ Forall (fun b => received_packet c s0 evs b /\ genuine_packet P b (tk_id t) (tk_source t)) used
  /\ Forall (queued evs (tk_id t) (tk_source t)) (tk_queue t).
Definition entry_ok (tasks : list fec_task) (id : bytes) (x : incoming) : Prop :=
  exists t, nth_error tasks (ic_task x) = Some t /\ tk_id t = id /\ tk_source t = ic_source x.
Definition justified (evs : list bc_event) (d : delivery) : Prop :=
  from_broadcast c s0 evs d \/ from_packets c s0 evs d.
Record auth (evs : list bc_event) (s : bstate) : Prop := mk_auth
  { au_tasks : forall t, In t (br_tasks s) -> task_ok evs t;
    au_entries : forall id x, br_owned s !! id = Some (Incoming x) -> entry_ok (br_tasks s) id x;
    au_delivered : forall d, In d (br_delivered s) -> justified evs d }.

Lemma queued_more : forall evs more id source p, queued evs id source p -> queued (evs ++ more) id source p.
Proof. intros evs more id source p (b & key & H & H'). exists b, key. split; [now apply received_more|exact H']. Qed.
Lemma task_ok_more : forall evs more t, task_ok evs t -> task_ok (evs ++ more) t.
Proof.
  intros evs more t H Hp. destruct (H Hp) as (first & used & H1 & H2 & H3 & H4 & H5 & H6 & H7).
  exists first, used. split; [now apply received_more|]. repeat (split; [assumption|]). split.
  - eapply Forall_impl; [exact H6|]. intros b [Hb Hg]. split; [now apply received_more|exact Hg].
  - eapply Forall_impl; [exact H7|]. intros p. apply queued_more.
Qed.
Lemma justified_more : forall evs more d, justified evs d -> justified (evs ++ more) d.
Proof.
  intros evs more d [H|H]; [left|right].
  - destruct H as (s & e & peer & raw & b & H & H'). exists s, e, peer, raw, b. split; [now apply happened_more|exact H'].
  - destruct H as (first & used & last & r & H1 & H2 & H3 & H4). exists first, used, last, r.
    split; [now apply received_more|]. split; [exact H2|]. split; [|exact H4].
    eapply Forall_impl; [exact H3|]. intros b [Hb Hg]. split; [now apply received_more|exact Hg].
Qed.
Lemma auth_more : forall evs more s, auth evs s -> auth (evs ++ more) s.
Proof.
  intros evs more s [H1 H2 H3]. split; [|exact H2|].
  - intros t Ht. now apply task_ok_more, H1.
  - intros d Hd. now apply justified_more, H3.
Qed.

(** Only these parts of the state matter. *)
Lemma auth_same : forall evs s s', auth evs s -> br_tasks s' = br_tasks s -> br_delivered s' = br_delivered s ->
  (forall id x, br_owned s' !! id = Some (Incoming x) -> br_owned s !! id = Some (Incoming x)) -> auth evs s'.
Proof.
  intros evs s s' [H1 H2 H3] Ht Hd Ho. split.
  - now rewrite Ht.
  - intros id x Hx. rewrite Ht. now apply H2, Ho.
  - now rewrite Hd.
Qed.

Lemma entry_update : forall tasks i f t0 id x, nth_error tasks i = Some t0 ->
  tk_id (f t0) = tk_id t0 -> tk_source (f t0) = tk_source t0 ->
  entry_ok tasks id x -> entry_ok (update_task tasks i f) id x.
Proof.
  intros tasks i f t0 id x Hn Hi Hs (t & Ht & H1 & H2). unfold entry_ok.
  rewrite (update_task_nth _ _ _ _ (ic_task x) Hn). destruct (Nat.eqb_spec (ic_task x) i) as [E|E].
  - exists (f t0). rewrite E in Ht. rewrite Hn in Ht. injection Ht as ->. rewrite Hi, Hs. auto.
  - now exists t.
Qed.

(** A change of one task. *)
Lemma auth_update : forall evs s i f t0, auth evs s -> nth_error (br_tasks s) i = Some t0 ->
  tk_id (f t0) = tk_id t0 -> tk_source (f t0) = tk_source t0 -> task_ok evs (f t0) ->
  auth evs (set_tasks s (update_task (br_tasks s) i f)).
Proof.
  intros evs s i f t0 [H1 H2 H3] Hn Hi Hs Hok. split; cbn [set_tasks br_tasks br_owned br_delivered].
  - intros t Ht. destruct (update_task_in _ _ _ _ _ Hn Ht) as [->|Hin]; [exact Hok|now apply H1].
  - intros id x Hx. eapply entry_update; eauto.
  - exact H3.
Qed.

(** A changed entry. *)
Lemma auth_entry : forall evs s id t t', auth evs s -> br_owned s !! id = Some (Incoming t) -> same_transfer t t' ->
  auth evs (set_owned s (<[id := Incoming t']> (br_owned s))).
Proof.
  intros evs s id t t' [H1 H2 H3] Hn (Ht & _ & Hs & _). split; cbn [set_owned br_tasks br_owned br_delivered]; auto.
  intros id' x Hx. apply lookup_insert_Some in Hx as [[<- Hx]|[_ Hx]]; [|now apply H2].
  injection Hx as <-. destruct (H2 id t Hn) as (k & Hk & Ha & Hb). exists k. rewrite Ht, Hs. auto.
Qed.

Lemma auth_insert_other : forall evs s s' id, auth evs s -> br_tasks s' = br_tasks s -> br_delivered s' = br_delivered s ->
  br_owned s' = <[id := Other]> (br_owned s) -> auth evs s'.
Proof.
  intros evs s s' id H Ht Hd Ho. eapply auth_same; eauto. intros id' x Hx. rewrite Ho in Hx.
  apply lookup_insert_Some in Hx as [[_ Hx]|[_ Hx]]; [discriminate|exact Hx].
Qed.

Lemma signed_packet : forall key b, bf_src b = PkEd25519 key /\ valid_pub P key = true ->
  verify_full P key (fec_part_to_sign P (bf_data_hash b) (bf_data_size b) (bf_date b) (bf_flags b) (bf_fec b)
     (bf_data b) (bf_seqno b) (if is_any_sender (bf_flags b) then None else Some (short_id P key))) (bf_signature b) = true ->
  genuine_packet P b (bf_data_hash b) (node_id P key).
Proof.
  intros key b [Hs Hval] Hv. split; [reflexivity|]. exists key. split; [exact Hs|]. split; [reflexivity|].
  unfold verify_full in Hv. apply andb_true_iff in Hv as [Hl Hv]. apply Nat.eqb_eq in Hl. split; [exact Hval|]. split; [exact Hl|].
  rewrite <- Hv. f_equal. unfold fec_claim, fec_part_to_sign, put_to_sign, put_hash, source_bytes, source_field.
  rewrite any_sender_odd. change (node_id P key) with (short_id P key). now destruct (anonymous (bf_flags b)).
Qed.

(** What processing a packet tells. *)
Lemma process_cases : forall z F d key b r d',
  bf_src b = PkEd25519 key /\ valid_pub P key = true ->
  process_fec P z F d (packet_of key b) = (r, d') ->
  (r = Err tt)
  \/ (genuine_packet P b (bf_data_hash b) (node_id P key)
      /\ de_params d' = de_params d /\ de_packets d' = de_packets d ++ [(bf_seqno b, bf_data b)]
      /\ (r = Ok None \/ exists data x, r = Ok (Some data)
            /\ fe_decode F (de_params d) (de_packets d ++ [(bf_seqno b, bf_data b)]) = Some x
            /\ N.of_nat (length x) = bf_data_size b
            /\ (data = x \/ decompress z x = Some data)
            /\ sha256 P data = bf_data_hash b)).
Proof.
  intros z F d key b r d' Hs H. unfold process_fec in H.
  cbn [packet_of fp_flags fp_key fp_hash fp_size fp_date fp_fec fp_data fp_seqno fp_signature] in H.
  destruct (verify_full P key _ _) eqn:Ev; cbn [negb] in H; [|injection H as <- <-; now left].
  apply (signed_packet key b Hs) in Ev. unfold decode in H.
  destruct (fe_decode F (de_params d) _) as [x|] eqn:Ed.
  2:{ injection H as <- <-. right. auto 10. }
  destruct (N.eqb_spec (N.of_nat (length x)) (bf_data_size b)) as [El|El]; cbn [negb] in H; [|injection H as <- <-; now left].
  assert (Has : (if bytes_eqb (sha256 P x) (bf_data_hash b)
         then (Ok (Some x), mk_decoder (de_params d) (de_packets d ++ [(bf_seqno b, bf_data b)]) (bf_seqno b))
         else (Err tt, mk_decoder (de_params d) (de_packets d ++ [(bf_seqno b, bf_data b)]) (bf_seqno b))) = (r, d') ->
    r = Err tt \/ (genuine_packet P b (bf_data_hash b) (node_id P key)
      /\ de_params d' = de_params d /\ de_packets d' = de_packets d ++ [(bf_seqno b, bf_data b)]
      /\ (r = Ok None \/ exists data y, r = Ok (Some data)
            /\ Some x = Some y
            /\ N.of_nat (length y) = bf_data_size b
            /\ (data = y \/ decompress z y = Some data)
            /\ sha256 P data = bf_data_hash b))).
  { intros H'. destruct (bytes_eqb (sha256 P x) (bf_data_hash b)) eqn:Eh; injection H' as <- <-; [|now left].
    right. apply bytes_eqb_eq in Eh. split; [exact Ev|]. split; [reflexivity|]. split; [reflexivity|].
    right. exists x, x. auto 10. }
  destruct (decompress z x) as [u|] eqn:Ez; [|now apply Has].
  destruct (bytes_eqb (sha256 P u) (bf_data_hash b)) eqn:Eh; [|now apply Has].
  injection H as <- <-. right. apply bytes_eqb_eq in Eh. split; [exact Ev|]. split; [reflexivity|]. split; [reflexivity|].
  right. exists u, x. auto 10.
Qed.

Lemma auth_task_step : forall evs s i, auth evs s -> auth evs (task_step P (bs_zstd c) (bs_fec c) s i).
Proof.
  intros evs s i H. destruct (task_step_cases P (bs_zstd c) (bs_fec c) s i) as [->|(t & Ht & Hc)]; [exact H|].
  pose proof (au_tasks evs s H t (nth_error_In _ _ Ht)) as Hok.
  destruct Hc as [(Hp & p & rest & r & d & Hq & Hpf & Hc)|[(Hp & Hq & -> & _)|(Hp & m & -> & Hm)]].
  - destruct (Hok Hp) as (first & used & H1 & H2 & H3 & H4 & H5 & H6 & H7). rewrite Hq in H7.
    apply List.Forall_cons_iff in H7 as [(b & key & Hb1 & Hb2 & Hb3 & Hb4 & ->) H7].
    destruct (process_cases _ _ _ _ _ _ _ Hb2 Hpf) as [He|(Hg & Hd1 & Hd2 & Hr)].
    { destruct Hc as [[Hr _]|[(data & Hr & _)|[_ ->]]]; [congruence|congruence|].
      eapply auth_update; [exact H|exact Ht| | |]; try reflexivity. intros Hx. discriminate Hx. }
    assert (Hall : Forall (fun b => received_packet c s0 evs b /\ genuine_packet P b (tk_id t) (tk_source t)) (used ++ [b])).
    { apply List.Forall_app. split; [exact H6|]. constructor; [|constructor]. split; [exact Hb1|].
      rewrite <- Hb3, Hb4. exact Hg. }
    destruct Hc as [[Hrr ->]|[(data & Hrr & ->)|[Hrr ->]]].
    + eapply auth_update; [exact H|exact Ht| | |]; try reflexivity. intros _.
      exists first, (used ++ [b]). cbn [tk_id tk_decoder tk_packets tk_source tk_queue].
      split; [exact H1|]. split; [exact H2|]. split; [congruence|]. split; [rewrite Hd2, H4, map_app; reflexivity|].
      split; [rewrite app_length, H5; cbn [length]; lia|]. split; [exact Hall|exact H7].
    + destruct Hr as [Hr|(data' & x & Hr & Hdec & Hlen & Hdata & Hsha)]; [congruence|].
      rewrite Hr in Hrr. injection Hrr as ->.
      assert (Hu : auth evs (set_tasks s (update_task (br_tasks s) i
           (fun t => mk_fec_task (tk_id t) (tk_source t) rest d (tk_packets t + 1) Marking)))).
      { eapply auth_update; [exact H|exact Ht| | |]; try reflexivity. intros Hx. discriminate Hx. }
      destruct Hu as [U1 U2 U3]. split; [exact U1|exact U2|].
      cbn [deliver_data br_delivered]. intros y Hy. apply in_app_or in Hy as [Hy|[<-|[]]]; [now apply U3|].
      right. exists first, used, b, x. cbn [dl_id dl_from dl_data dl_packets].
      split; [exact H1|]. split; [exact H2|]. split; [exact Hall|].
      split; [rewrite map_app, <- H4, <- H3; exact Hdec|]. split; [exact Hlen|]. split; [exact Hdata|].
      split; [exact (eq_trans Hsha Hb3)|]. rewrite app_length, H5. cbn [length]. lia.
    + destruct Hr as [Hr|(data' & x & Hr & _)]; congruence.
  - eapply auth_update; [exact H|exact Ht| | |]; try reflexivity. intros Hx. discriminate Hx.
  - assert (Hm' : auth evs (set_owned s m)).
    { destruct Hm as [->|(k & Hk & ->)]; [now destruct s|].
      destruct H as [H1 H2 H3]. split; cbn [set_owned br_tasks br_owned br_delivered]; auto.
      intros id' x Hx. apply lookup_insert_Some in Hx as [[<- Hx]|[_ Hx]]; [|now apply H2].
      injection Hx as <-. exact (H2 _ _ Hk). }
    change (br_tasks s) with (br_tasks (set_owned s m)).
    eapply auth_update; [exact Hm'|exact Ht| | |]; try reflexivity. intros Hx. discriminate Hx.
Qed.

Lemma auth_spawn : forall evs s params id source first, auth evs s ->
  received_packet c s0 evs first -> bf_data_hash first = id -> params = bf_fec first ->
  br_owned s !! id = None ->
  auth evs (spawn_fec_receiver (bs_options c) s params id source).
Proof.
  intros evs s params id source first [H1 H2 H3] Hf Hid -> Hn. unfold spawn_fec_receiver.
  split; cbn [set_timers set_tasks set_owned br_tasks br_owned br_delivered].
  - intros t Ht. apply in_app_or in Ht as [Ht|[<-|[]]]; [now apply H1|]. intros _.
    exists first, []. cbn. auto 10.
  - intros id' x Hx. apply lookup_insert_Some in Hx as [[<- Hx]|[_ Hx]].
    + injection Hx as <-. eexists. cbn [ic_task]. rewrite nth_error_app2, Nat.sub_diag by lia. split; [reflexivity|]. cbn. auto.
    + destruct (H2 _ _ Hx) as (t & Ht & Hr). exists t. split; [|exact Hr]. rewrite nth_error_app1; auto.
      apply nth_error_Some. congruence.
  - exact H3.
Qed.

Lemma auth_step : forall evs s e, bc_run c s0 evs = s -> auth evs s -> auth (evs ++ [e]) (bc_step c s e).
Proof.
  intros evs s e Hrun H0. pose proof (auth_more evs [e] s H0) as H.
  destruct e as [ms|e peer raw b|e peer raw b|secret data targets|secret data targets|i|i|i|]; cbn [bc_step].
  - eapply auth_same; eauto.
  - destruct (receive_broadcast_cases P (bs_zstd c) (bs_checks c) (bs_options c) e s peer raw b) as [->|(data & from & Hg & Ht & _ & _ & Hn & ->)]; [exact H|].
    set (id := sha256 P _) in *.
    assert (Ho : auth (evs ++ [EvBroadcast e peer raw b]) (set_owned s (<[id := Other]> (br_owned s)))).
    { eapply auth_insert_other; [exact H| | |]; reflexivity. }
    destruct Ho as [U1 U2 U3]. split; [exact U1|exact U2|]. cbn [accepted_state br_delivered].
    intros y Hy. apply in_app_or in Hy as [Hy|[<-|[]]]; [now apply U3|].
    left. exists s, e, peer, raw, b. split; [rewrite <- Hrun; apply happened_last|].
    split; [exact Hg|]. split; [reflexivity|]. split; [reflexivity|exact Ht].
  - set (evs' := evs ++ [EvFec e peer raw b]) in *.
    destruct (receive_fec_cases P (bs_checks c) (bs_options c) e s peer raw b) as [->|(key & Hk & Hval & _ & Ht & _ & Hc)]; [exact H|].
    assert (Hrec : received_packet c s0 evs' b).
    { exists s, e, peer, raw. split; [rewrite <- Hrun; apply happened_last|exact Ht]. }
    cbv zeta in Hc. set (s1 := with_entry _ _ _ _ _) in *.
    assert (Hs1 : auth evs' s1).
    { unfold s1, with_entry. destruct (br_owned s !! bf_data_hash b) eqn:En; [exact H|]. eapply auth_spawn; eauto. }
    destruct Hc as [[-> _]|(t & t' & Hown & Hsame & Hc)]; [exact Hs1|].
    pose proof (auth_entry evs' s1 _ t t' Hs1 Hown Hsame) as Hent.
    destruct Hc as [[-> _]|(Hsrc & _ & targets & _ & [[_ ->]|(_ & task & Hn & Hph & ->)])]; [exact Hent| |].
    + eapply auth_same; [exact Hent| | |]; auto.
    + set (s2 := set_owned _ _) in *.
      assert (Hu : auth evs' (set_tasks s2 (update_task (br_tasks s2) (ic_task t) (push_packet (packet_of key b))))).
      { eapply auth_update; [exact Hent|exact Hn| | |]; try reflexivity.
        intros Hp. cbn [push_packet tk_phase] in Hp.
        destruct (au_tasks _ _ Hs1 task (nth_error_In _ _ Hn) Hp) as (first & used & H1 & H2 & H3 & H4 & H5 & H6 & H7).
        exists first, used. cbn [push_packet tk_id tk_source tk_queue tk_decoder tk_packets].
        repeat (split; [assumption|]). apply List.Forall_app. split; [exact H7|]. constructor; [|constructor].
        destruct (au_entries _ _ Hs1 _ _ Hown) as (task' & Hn' & Hi & Hs). rewrite Hn in Hn'. injection Hn' as <-.
        exists b, key. split; [exact Hrec|]. split; [now split|]. split; [now symmetry|]. split; [congruence|reflexivity]. }
      eapply auth_same; [exact Hu| | |]; auto.
  - destruct (send_broadcast_cases P (bs_zstd c) (bs_options c) (bs_overlay c) secret s data targets) as [->|(_ & m & ->)]; [exact H|].
    eapply auth_insert_other; [exact H| | |]; reflexivity.
  - destruct (send_fec_cases P (bs_zstd c) (bs_options c) (bs_overlay c) secret s data targets) as [->|(_ & ->)]; [exact H|].
    eapply auth_insert_other; [exact H| | |]; reflexivity.
  - now apply auth_task_step.
  - unfold timer_step. destruct (nth_error _ _) as [t|]; [|exact H]. destruct (_ <? _); [exact H|].
    destruct t; [destruct (match br_owned s !! id with Some _ => _ | None => _ end)|]; (eapply auth_same; [exact H| | |]; auto).
  - unfold push_step. destruct (nth_error _ _); [|exact H]. eapply auth_same; [exact H| | |]; auto.
  - unfold collector_step. destruct (br_collector s).
    + destruct (_ <? _); [|exact H]. eapply auth_same; [exact H| | |]; auto.
    + destruct (br_finished s); (eapply auth_same; [exact H| | |]; auto).
    + eapply auth_same; [exact H| | |]; auto. cbn. intros id' x Hx. now apply lookup_delete_Some in Hx.
    + eapply auth_same; [exact H| | |]; auto.
Qed.

End auth.

Lemma auth_run : forall c clock evs, auth c (bstate_new clock) evs (bc_run c (bstate_new clock) evs).
Proof.
  intros c clock evs. induction evs as [|e evs IH] using rev_ind.
  - split; cbn.
    + intros t [].
    + intros id x Hx. rewrite lookup_empty in Hx. discriminate.
    + intros d [].
  - rewrite bc_run_last. now apply auth_step.
Qed.

Theorem delivered_authentic : forall c clock evs d,
  let s0 := bstate_new clock in
  In d (br_delivered (bc_run c s0 evs)) -> from_broadcast c s0 evs d \/ from_packets c s0 evs d.
Proof. intros c clock evs d s0 Hd. exact (au_delivered _ _ _ _ (auth_run c clock evs) d Hd). Qed.
