(** That the samples of [GossipSample] meet the conditions of [GossipSpec]. *)
From stdpp Require Import gmap.
From Coq Require Import NArith Arith Lia ZifyBool ZifyNat ZifyN.
From Verif.Base Require Import Bytes BytesFacts.
From Verif.Model Require Import Crypto Tl Scheme ProtoAdnl ProtoOverlay PeersSet Compression Fec OverlayPeers Broadcast OverlayNode.
From Verif.Spec Require Import Codec CryptoSpec CompressionSpec FecSpec Sample OverlaySpec PeersSetSpec DhtSample BroadcastSpec OverlayNodeSpec GossipSpec GossipSample.
From Verif.Proof Require BroadcastFacts.
From Verif.Proof Require Import CompressionFacts.
Open Scope N_scope.

Local Notation at_time := (at_time brief toy_zstd true toy_fec g_react t_overlay g_keys).
Local Notation setup := (setup_of brief toy_zstd true toy_fec t_overlay).

Fixpoint distinct (l : list nat) : bool :=
  match l with [] => true | x :: r => negb (existsb (Nat.eqb x) r) && distinct r end.
Definition timely_b (i : instance) : bool :=
  (100 + bo_timeout (in_options i) <? 2 ^ 32) && (now_sec (in_broadcasts i) <=? 100 + bo_timeout (in_options i)).
Definition chooses_b (neighbours : bytes -> list bytes) (n peer : bytes) (picks : list nat) (i : instance) : bool :=
  let set := ov_neighbours (in_peers i) in
  let amount := bo_secondary (in_options i) in
  forallb (fun p => existsb (bytes_eqb p) (ps_members set)) (neighbours n) && (amount + 1 <? 2 ^ 32)
  && distinct picks && forallb (fun j => (j <? ps_len set)%nat) picks
  && (length picks =? Nat.min (N.to_nat (picks_wanted amount (Some peer))) (ps_len set))%nat.
Definition wide_b (i : instance) : bool := N.of_nat (ps_len (ov_neighbours (in_peers i))) <=? bo_secondary (in_options i).
(** A copy of the message that arrives, the broadcast, or something that does not matter. *)
Definition event_b (arrival : bytes -> bytes -> list nat -> instance -> bool) (w : nodes) (e : gossip_event) : bool :=
  match e with
  | Local n (GoMessage _ _ _ _) => false
  | Local n (GoBroadcasts _ (EvSend s d _)) => bytes_eqb n (t_id 1) && bytes_eqb d [1; 2; 3]
  | Local n (GoBroadcasts _ (EvSendFec _ _ _)) => false
  | Local n _ => true
  | Arrives from k to picks =>
    match nth_error (sent_by t_overlay w from) k with
    | Some (targets, raw) => bytes_eqb raw g_message
        && match at_node t_overlay w to with Some i => arrival to from picks i | None => false end
    | None => true
    end
  end.
Definition run_b (arrival : bytes -> bytes -> list nat -> instance -> bool) (evs : list gossip_event) : bool :=
  forallb (fun k => match nth_error evs k with Some e => event_b arrival (g_run (firstn k evs)) e | None => true end) (seq 0 (length evs)).

Lemma checked : forall arrival evs w e, run_b arrival evs = true -> at_time evs w e -> event_b arrival w e = true.
Proof.
  intros arrival evs w e Hb (before & after & -> & ->). unfold run_b in Hb. rewrite forallb_forall in Hb.
  specialize (Hb (length before)). rewrite nth_error_app2, Nat.sub_diag in Hb by lia. cbn [nth_error] in Hb.
  rewrite firstn_app, firstn_all, Nat.sub_diag in Hb. cbn [firstn] in Hb. rewrite app_nil_r in Hb. apply Hb.
  apply in_seq. rewrite app_length. cbn. lia.
Qed.

Lemma arrival_checked : forall arrival evs w e n peer raw picks, run_b arrival evs = true -> at_time evs w e -> receives t_overlay w e n peer raw picks ->
  raw = g_message /\ (exists k, e = Arrives peer k n picks)
  /\ exists i, at_node t_overlay w n = Some i /\ arrival n peer picks i = true.
Proof.
  intros arrival evs w e n peer raw picks Hb Ht Hr. pose proof (checked _ _ _ _ Hb Ht) as H.
  destruct e as [x op|from k to q]; cbn [event_b receives] in *.
  - destruct op; try contradiction. discriminate.
  - destruct Hr as (-> & -> & -> & targets & Hn & _). rewrite Hn in H. apply andb_true_iff in H as [H1 H2]. apply bytes_eqb_eq in H1.
    split; [exact H1|]. split; [now exists k|]. destruct (at_node t_overlay w n) as [i|]; [|discriminate]. now exists i.
Qed.

Lemma message_is : exists b, get_broadcast (skipn 36 g_message) = Some (BBroadcast b, []).
Proof. eexists. vm_compute. reflexivity. Qed.
Lemma sendable_is : forall packed, sendable toy_zstd packed [1; 2; 3].
Proof. intros packed. split; [reflexivity|]. split; [reflexivity|]. destruct packed; vm_compute; reflexivity. Qed.
Lemma unambiguous_is : unambiguous brief toy_zstd false (secret_of 1) [1; 2; 3] 100.
Proof.
  intros other (key & _ & _ & [H|H] & _); [exact H|]. exfalso.
  assert (Hd : decompress toy_zstd [1; 2; 3] = None) by (vm_compute; reflexivity).
  change (ob_data _) with [1; 2; 3] in H. congruence.
Qed.

Lemma punctual_is : forall evs, run_b (fun _ _ _ i => timely_b i) evs = true ->
  punctual brief toy_zstd true toy_fec g_react t_overlay g_keys evs g_message 100.
Proof.
  intros evs Hb w e n peer picks Ht Hr. destruct (arrival_checked _ _ _ _ _ _ _ _ Hb Ht Hr) as (_ & _ & i & Hi & Ha).
  exists i. split; [exact Hi|]. unfold timely_b in Ha. apply andb_true_iff in Ha as [H1 H2]. apply N.ltb_lt in H1. apply N.leb_le in H2.
  split; assumption.
Qed.
Lemma no_fec_is : forall arrival evs, run_b arrival evs = true ->
  no_fec brief toy_zstd true toy_fec g_react t_overlay g_keys evs g_id.
Proof.
  intros arrival evs Hb. split.
  - intros n s d t Hin. exfalso. apply in_split in Hin as (before & after & ->).
    pose proof (checked arrival _ (g_run before) (Local n (GoBroadcasts t_overlay (EvSendFec s d t))) Hb) as H. cbn in H.
    assert (false = true) by (apply H; exists before, after; split; reflexivity). discriminate.
  - intros w e n peer raw picks b rest Ht Hr _ Hg. exfalso. destruct (arrival_checked _ _ _ _ _ _ _ _ Hb Ht Hr) as (-> & _).
    destruct message_is as (b' & Hm). rewrite Hm in Hg. discriminate.
Qed.
Lemma proper_is : forall arrival evs, run_b arrival evs = true -> proper_sends toy_zstd t_overlay evs.
Proof.
  intros arrival evs Hb n s d t packed Hin. apply in_split in Hin as (before & after & ->).
  pose proof (checked arrival _ (g_run before) (Local n (GoBroadcasts t_overlay (EvSend s d t))) Hb) as H. cbn [event_b] in H.
  assert (Hd : bytes_eqb n (t_id 1) && bytes_eqb d [1; 2; 3] = true) by (apply H; exists before, after; split; reflexivity).
  apply andb_true_iff in Hd as [_ Hd]. apply bytes_eqb_eq in Hd. subst d. apply sendable_is.
Qed.
Lemma undisturbed_is : forall arrival evs, run_b arrival evs = true ->
  undisturbed brief toy_zstd true toy_fec g_react t_overlay g_keys evs (t_id 1) g_message g_id.
Proof.
  intros arrival evs Hb. split.
  - intros w e n Ht (s & d & t & i & -> & _). pose proof (checked _ _ _ _ Hb Ht) as H. cbn [event_b] in H.
    apply andb_true_iff in H as [H _]. now apply bytes_eqb_eq.
  - intros w e n peer raw picks b rest Ht Hr _ _ _. destruct (arrival_checked _ _ _ _ _ _ _ _ Hb Ht Hr) as (-> & Hk & _). now split.
Qed.
Lemma distinct_ok : forall l, distinct l = true -> List.NoDup l.
Proof.
  induction l as [|x l IH]; intros H; cbn in H; constructor; apply andb_true_iff in H as [H1 H2]; [|now apply IH].
  intros Hin. apply negb_true_iff in H1. enough (existsb (Nat.eqb x) l = true) by congruence.
  apply existsb_exists. exists x. split; [exact Hin|apply Nat.eqb_refl].
Qed.
Lemma chooses_is : forall neighbours evs, run_b (chooses_b neighbours) evs = true ->
  chooses brief toy_zstd true toy_fec g_react t_overlay g_keys evs g_message neighbours.
Proof.
  intros neighbours evs Hb w e n peer picks i Ht Hr Hi. destruct (arrival_checked _ _ _ _ _ _ _ _ Hb Ht Hr) as (_ & _ & i' & Hi' & Ha).
  rewrite Hi in Hi'. injection Hi' as <-. cbv zeta. unfold chooses_b in Ha.
  apply andb_true_iff in Ha as [Ha H5]. apply andb_true_iff in Ha as [Ha H4]. apply andb_true_iff in Ha as [Ha H3]. apply andb_true_iff in Ha as [H1 H2].
  split; [|split; [now apply N.ltb_lt|split; [now apply distinct_ok|split]]].
  - intros p Hp. rewrite forallb_forall in H1. apply H1 in Hp. apply existsb_exists in Hp as (q & Hq & He). apply bytes_eqb_eq in He. now subst q.
  - intros j Hj. rewrite forallb_forall in H4. apply Nat.ltb_lt. now apply H4.
  - now apply Nat.eqb_eq.
Qed.
Lemma floods_is : forall neighbours evs, run_b (chooses_b neighbours) evs = true -> run_b (fun _ _ _ i => wide_b i) evs = true ->
  floods brief toy_zstd true toy_fec g_react t_overlay g_keys evs g_message neighbours.
Proof.
  intros neighbours evs H1 H2. split; [now apply chooses_is|].
  intros w e n peer picks i Ht Hr Hi. destruct (arrival_checked _ _ _ _ _ _ _ _ H2 Ht Hr) as (_ & _ & i' & Hi' & Ha).
  rewrite Hi in Hi'. injection Hi' as <-. now apply N.leb_le.
Qed.

(** Nothing is lost. *)
Definition members : list bytes := [t_id 1; t_id 2; t_id 3; t_id 4].
Definition whose (e : gossip_event) : bytes := match e with Local n _ => n | Arrives _ _ to _ => to end.
Lemma untouched : forall evs n, forallb (fun e => existsb (bytes_eqb (whose e)) members) evs = true -> ~ In n members ->
  g_run evs n = group_new (g_keys n).
Proof.
  intros evs n H Hn. unfold g_run. induction evs as [|e evs IH] using rev_ind; [reflexivity|].
  rewrite forallb_app in H. apply andb_true_iff in H as [H1 H2]. cbn [forallb] in H2. apply andb_true_iff in H2 as [H2 _].
  specialize (IH H1). unfold gossip_run in *. rewrite fold_left_app. cbn [fold_left]. revert IH.
  set (w := fold_left _ evs _). clearbody w. intros <-.
  assert (Hne : n <> whose e).
  { intros ->. apply Hn. apply existsb_exists in H2 as (x & Hx & He). apply bytes_eqb_eq in He. now rewrite He. }
  destruct e as [x op|from k to picks]; cbn [gossip_step whose] in *.
  - unfold place. destruct (bytes_eqb n x) eqn:E; [apply bytes_eqb_eq in E; contradiction|reflexivity].
  - destruct (nth_error _ k) as [[targets m]|]; [|reflexivity]. destruct (get_u32 m) as [[con r]|]; [|reflexivity]. destruct (existsb _ targets); [|reflexivity].
    unfold place. destruct (bytes_eqb n to) eqn:E; [apply bytes_eqb_eq in E; contradiction|reflexivity].
Qed.

Definition is_arrival (n : bytes) (k : nat) (to : bytes) (e : gossip_event) : bool :=
  match e with Arrives f k' t _ => bytes_eqb f n && (k' =? k)%nat && bytes_eqb t to | _ => false end.
Definition arrives_b (evs : list gossip_event) (n : bytes) (k : nat) (to : bytes) : bool :=
  existsb (fun j => match nth_error evs j with
                    | Some e => is_arrival n k to e && (k <? length (sent_by t_overlay (g_run (firstn j evs)) n))%nat
                    | None => false end) (seq 0 (length evs)).
Definition lost_b (evs : list gossip_event) : bool :=
  forallb (fun e => existsb (bytes_eqb (whose e)) members) evs
  && forallb (fun n => forallb (fun k => match nth_error (sent_by t_overlay (g_run evs) n) k with
                                         | Some (targets, _) => forallb (arrives_b evs n k) targets
                                         | None => true end) (seq 0 (length (sent_by t_overlay (g_run evs) n)))) members.
Lemma nothing_lost_is : forall evs m, lost_b evs = true -> nothing_lost brief toy_zstd true toy_fec g_react t_overlay g_keys evs m.
Proof.
  intros evs m H n k targets to Hk Hto. unfold lost_b in H. apply andb_true_iff in H as [H1 H2].
  fold (g_run evs) in Hk.
  destruct (in_dec (List.list_eq_dec N.eq_dec) n members) as [Hn|Hn].
  - rewrite forallb_forall in H2. specialize (H2 n Hn). rewrite forallb_forall in H2. specialize (H2 k). rewrite Hk in H2.
    assert (Hj : forallb (arrives_b evs n k) targets = true).
    { apply H2. apply in_seq. assert (k < length (sent_by t_overlay (g_run evs) n))%nat by (apply nth_error_Some; congruence). lia. }
    rewrite forallb_forall in Hj. specialize (Hj to Hto). apply existsb_exists in Hj as (j & _ & Hj).
    destruct (nth_error evs j) as [e|] eqn:Ej; [|discriminate]. apply andb_true_iff in Hj as [Ha Hl]. apply Nat.ltb_lt in Hl.
    destruct e as [x op|f k' t picks]; [discriminate|]. cbn [is_arrival] in Ha. apply andb_true_iff in Ha as [Ha Hc]. apply andb_true_iff in Ha as [Ha Hb].
    apply bytes_eqb_eq in Ha, Hc. apply Nat.eqb_eq in Hb. subst f k' t.
    exists (g_run (firstn j evs)), picks. split; [|exact Hl]. exists (firstn j evs), (skipn (S j) evs). split; [|reflexivity].
    exact (BroadcastFacts.nth_error_split' _ _ _ Ej).
  - exfalso. unfold sent_by, at_node in Hk. rewrite (untouched evs n H1 Hn) in Hk. unfold group_new in Hk. cbn [gr_overlays] in Hk.
    rewrite lookup_empty in Hk. destruct k; discriminate Hk.
Qed.

Theorem line_floods :
  punctual brief toy_zstd true toy_fec g_react t_overlay g_keys g_line g_message 100
  /\ no_fec brief toy_zstd true toy_fec g_react t_overlay g_keys g_line g_id
  /\ proper_sends toy_zstd t_overlay g_line
  /\ nothing_lost brief toy_zstd true toy_fec g_react t_overlay g_keys g_line g_message
  /\ undisturbed brief toy_zstd true toy_fec g_react t_overlay g_keys g_line (t_id 1) g_message g_id
  /\ floods brief toy_zstd true toy_fec g_react t_overlay g_keys g_line g_message g_neighbours
  /\ path (way t_overlay (g_run g_line) g_message (t_id 1) g_neighbours) (t_id 1) (t_id 4).
Proof.
  assert (H1 : run_b (fun _ _ _ i => timely_b i) g_line = true) by (vm_compute; reflexivity).
  assert (H2 : run_b (chooses_b g_neighbours) g_line = true) by (vm_compute; reflexivity).
  assert (H3 : run_b (fun _ _ _ i => wide_b i) g_line = true) by (vm_compute; reflexivity).
  assert (H4 : lost_b g_line = true) by (vm_compute; reflexivity).
  split; [now apply punctual_is|]. split; [exact (no_fec_is _ _ H1)|]. split; [exact (proper_is _ _ H1)|].
  split; [now apply nothing_lost_is|]. split; [exact (undisturbed_is _ _ H1)|]. split; [now apply floods_is|].
  assert (E3 : g_neighbours (t_id 3) = [t_id 2; t_id 4]) by (vm_compute; reflexivity).
  assert (E2 : g_neighbours (t_id 2) = [t_id 1; t_id 3]) by (vm_compute; reflexivity).
  assert (N3 : bytes_eqb (t_id 3) (t_id 1) = false) by (vm_compute; reflexivity).
  assert (N2 : bytes_eqb (t_id 2) (t_id 1) = false) by (vm_compute; reflexivity).
  apply path_on with (b := t_id 3).
  2:{ right. split; [intros He; rewrite He, bytes_eqb_refl in N3; discriminate|]. rewrite E3. right. now left. }
  apply path_on with (b := t_id 2).
  2:{ right. split; [intros He; rewrite He, bytes_eqb_refl in N2; discriminate|]. rewrite E2. right. now left. }
  apply path_on with (b := t_id 1); [apply path_here|]. left. split; [reflexivity|].
  assert (Hs : nth_error (sent_by t_overlay (g_run g_line) (t_id 1)) 0 = Some ([t_id 2], g_message)) by (vm_compute; reflexivity).
  exists 0%nat, [t_id 2]. split; [exact Hs|now left].
Qed.

Theorem star_misses :
  punctual brief toy_zstd true toy_fec g_react t_overlay g_keys g_star g_message 100
  /\ no_fec brief toy_zstd true toy_fec g_react t_overlay g_keys g_star g_id
  /\ proper_sends toy_zstd t_overlay g_star
  /\ nothing_lost brief toy_zstd true toy_fec g_react t_overlay g_keys g_star g_message
  /\ undisturbed brief toy_zstd true toy_fec g_react t_overlay g_keys g_star (t_id 1) g_message g_id
  /\ chooses brief toy_zstd true toy_fec g_react t_overlay g_keys g_star g_message g_around
  /\ path (way t_overlay (g_run g_star) g_message (t_id 1) g_around) (t_id 1) (t_id 3)
  /\ t_id 3 <> t_id 1 /\ delivered_by t_overlay (g_run g_star) (t_id 3) = [].
Proof.
  assert (H1 : run_b (fun _ _ _ i => timely_b i) g_star = true) by (vm_compute; reflexivity).
  assert (H2 : run_b (chooses_b g_around) g_star = true) by (vm_compute; reflexivity).
  assert (H4 : lost_b g_star = true) by (vm_compute; reflexivity).
  split; [now apply punctual_is|]. split; [exact (no_fec_is _ _ H1)|]. split; [exact (proper_is _ _ H1)|].
  split; [now apply nothing_lost_is|]. split; [exact (undisturbed_is _ _ H1)|]. split; [now apply chooses_is|].
  assert (E2 : g_around (t_id 2) = [t_id 1; t_id 3; t_id 4]) by (vm_compute; reflexivity).
  assert (N3 : bytes_eqb (t_id 3) (t_id 1) = false) by (vm_compute; reflexivity).
  assert (N2 : bytes_eqb (t_id 2) (t_id 1) = false) by (vm_compute; reflexivity).
  split; [|split].
  - apply path_on with (b := t_id 2).
    2:{ right. split; [intros He; rewrite He, bytes_eqb_refl in N2; discriminate|]. rewrite E2. right. now left. }
    apply path_on with (b := t_id 1); [apply path_here|]. left. split; [reflexivity|].
    assert (Hs : nth_error (sent_by t_overlay (g_run g_star) (t_id 1)) 0 = Some ([t_id 2], g_message)) by (vm_compute; reflexivity).
    exists 0%nat, [t_id 2]. split; [exact Hs|now left].
  - intros He. rewrite He, bytes_eqb_refl in N3. discriminate.
  - vm_compute. reflexivity.
Qed.

Theorem limited : ~ forall P z checks F react overlay keys packed secret data date neighbours evs origin n,
  prims_ok P -> zstd_ok z -> hash_ok overlay -> date < 2 ^ 32 -> sendable z packed data ->
  unambiguous P z packed secret data date ->
  let m := the_message P z overlay packed secret data date in
  let id := the_id P data date in
  let final := gossip_run P z checks F react overlay (gossip_start keys) evs in
  punctual P z checks F react overlay keys evs m date -> no_fec P z checks F react overlay keys evs id ->
  proper_sends z overlay evs -> nothing_lost P z checks F react overlay keys evs m ->
  undisturbed P z checks F react overlay keys evs origin m id ->
  chooses P z checks F react overlay keys evs m neighbours ->
  path (way overlay final m origin neighbours) origin n ->
  n = origin \/ In (mk_delivery id 1 data (node_id P (pub_of P secret))) (delivered_by overlay final n).
Proof.
  intros H. pose proof star_misses as Hs. unfold g_run, g_message, g_id in Hs. destruct Hs as (H1 & H2 & H3 & H4 & H5 & H6 & H7 & H8 & H9).
  specialize (H brief toy_zstd true toy_fec g_react t_overlay g_keys false (secret_of 1) [1; 2; 3] 100 g_around g_star (t_id 1) (t_id 3)
    brief_ok toy_zstd_ok eq_refl eq_refl (sendable_is false) unambiguous_is).
  cbv zeta in H. specialize (H H1 H2 H3 H4 H5 H6 H7). rewrite H9 in H. destruct H as [H|H]; [exact (H8 H)|exact H].
Qed.
