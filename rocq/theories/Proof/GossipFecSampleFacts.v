(** That the sample of [GossipFecSample] meets the conditions of [GossipFecSpec]. *)
From stdpp Require Import gmap.
From Coq Require Import NArith Arith Lia ZifyBool ZifyNat ZifyN.
From Verif.Base Require Import Bytes BytesFacts.
From Verif.Model Require Import Crypto Tl Scheme ProtoAdnl ProtoOverlay PeersSet Compression Fec OverlayPeers Broadcast OverlayNode.
From Verif.Spec Require Import Codec CryptoSpec CompressionSpec FecSpec Sample OverlaySpec PeersSetSpec DhtSample BroadcastSpec OverlayNodeSpec
  GossipSpec GossipSample GossipFecSpec GossipFecSample.
From Verif.Proof Require Import CompressionFacts FecFacts GossipFecFacts GossipSampleFacts.
Open Scope N_scope.

Local Notation at_time := (at_time brief toy_zstd true toy_fec g_react t_overlay g_keys).
Local Notation part := (part_message brief toy_zstd toy_fec t_overlay false (secret_of 1) gf_data).
Local Notation receives_part := (receives_part brief toy_zstd toy_fec t_overlay false (secret_of 1) gf_data).

Definition good_part (raw : bytes) : bool := bytes_eqb raw (gf_part 0) || bytes_eqb raw (gf_part 1).
Definition good_node (n peer : bytes) (picks : list nat) (i : instance) : bool :=
  let set := ov_neighbours (in_peers i) in
  let amount := bo_secondary_fec (in_options i) in
  timely_b i && (br_clock (in_broadcasts i) =? 100000) && (bo_timeout (in_options i) =? 10)
  && forallb (fun p => existsb (bytes_eqb p) (ps_members set)) (g_neighbours n) && (amount + 1 <? 2 ^ 32)
  && distinct picks && forallb (fun j => (j <? ps_len set)%nat) picks
  && (length picks =? Nat.min (N.to_nat (picks_wanted amount (Some peer))) (ps_len set))%nat
  && (N.of_nat (ps_len set) <=? amount).
Definition good_event (w : nodes) (e : gossip_event) : bool :=
  match e with
  | Local n (GoMessage p con raw picks) =>
    bytes_eqb p (t_id 1) && good_part raw && match at_node t_overlay w n with Some i => good_node n p picks i | None => false end
  | Local n (GoBroadcasts _ (EvSend _ _ _)) | Local n (GoBroadcasts _ (EvSendFec _ _ _)) => false
  | Local n _ => true
  | Arrives from k to picks =>
    match nth_error (sent_by t_overlay w from) k with
    | Some (targets, raw) => good_part raw && match at_node t_overlay w to with Some i => good_node to from picks i | None => false end
    | None => true
    end
  end.
Fixpoint good_events (w : nodes) (evs : list gossip_event) : bool :=
  match evs with
  | [] => true
  | e :: r => good_event w e && good_events (gossip_step brief toy_zstd true toy_fec g_react t_overlay w e) r
  end.

Lemma good_later : forall before w e after, good_events w (before ++ e :: after) = true ->
  good_event (gossip_run brief toy_zstd true toy_fec g_react t_overlay w before) e = true.
Proof.
  induction before as [|x before IH]; intros w e after H; cbn [app good_events] in H; apply andb_true_iff in H as [H1 H2]; [exact H1|].
  cbn [gossip_run fold_left]. exact (IH _ _ _ H2).
Qed.
Lemma good_at : forall evs w e, good_events (gossip_start g_keys) evs = true -> at_time evs w e -> good_event w e = true.
Proof. intros evs w e H (before & after & -> & ->). exact (good_later _ _ _ _ H). Qed.

Lemma good_reception : forall evs w e n peer raw picks, good_events (gossip_start g_keys) evs = true -> at_time evs w e ->
  receives t_overlay w e n peer raw picks ->
  (exists esi, esi < 2 /\ raw = part 100 esi) /\ (peer = t_id 1 \/ exists k, e = Arrives peer k n picks)
  /\ exists i, at_node t_overlay w n = Some i /\ good_node n peer picks i = true.
Proof.
  intros evs w e n peer raw picks H Ht Hr. pose proof (good_at _ _ _ H Ht) as Hg.
  assert (Hpart : forall raw, good_part raw = true -> exists esi, esi < 2 /\ raw = part 100 esi).
  { intros r Hp. apply orb_true_iff in Hp as [Hp|Hp]; apply bytes_eqb_eq in Hp; [exists 0|exists 1]; (split; [reflexivity|exact Hp]). }
  destruct e as [x op|from k to q]; cbn [receives good_event] in *.
  - destruct op; try contradiction. destruct Hr as (-> & -> & -> & -> & ->). apply andb_true_iff in Hg as [Hg H3]. apply andb_true_iff in Hg as [H1 H2].
    split; [now apply Hpart|]. split; [left; now apply bytes_eqb_eq|]. destruct (at_node t_overlay w n) as [i|]; [|discriminate]. now exists i.
  - destruct Hr as (-> & -> & -> & targets & Hn & _). rewrite Hn in Hg. apply andb_true_iff in Hg as [H1 H2].
    split; [now apply Hpart|]. split; [right; now exists k|]. destruct (at_node t_overlay w n) as [i|]; [|discriminate]. now exists i.
Qed.

Lemma divisible_is : divisible brief toy_zstd false gf_data.
Proof.
  assert (Hd : decompress toy_zstd gf_data = None) by (vm_compute; reflexivity).
  split; [vm_compute; reflexivity|]. split; [vm_compute; reflexivity|]. split; [vm_compute; reflexivity|].
  split; [intros H; apply (f_equal (fun x : bytes => match x with [] => true | _ => false end)) in H; vm_compute in H; discriminate|].
  intros u Hu. change (parts_of toy_zstd false gf_data) with gf_data in Hu. rewrite Hd in Hu. discriminate Hu.
Qed.
Lemma part_is : forall date esi esi', date < 2 ^ 32 -> esi < 2 ^ 32 -> esi' < 2 -> part date esi = part 100 esi' -> date = 100 /\ esi = esi'.
Proof.
  intros date esi esi' H1 H2 H3. assert (esi' < 2 ^ 32) by lia.
  apply (part_injective brief toy_zstd toy_fec t_overlay false (secret_of 1) gf_data brief_ok toy_fec_ok eq_refl); try assumption. reflexivity.
Qed.

Section good.
Context (evs : list gossip_event) (Hgood : good_events (gossip_start g_keys) evs = true).

Lemma at_part : forall w e n peer date esi picks, at_time evs w e -> receives_part w e n peer date esi picks ->
  date = 100 /\ exists i, at_node t_overlay w n = Some i /\ good_node n peer picks i = true.
Proof.
  intros w e n peer date esi picks Ht (Hd & He & Hr). destruct (good_reception _ _ _ _ _ _ _ Hgood Ht Hr) as ((esi' & He' & Heq) & _ & Hi).
  split; [|exact Hi]. now destruct (part_is _ _ _ Hd He He' Heq).
Qed.
Lemma punctual_gf : parts_punctual brief toy_zstd true toy_fec g_react t_overlay false (secret_of 1) gf_data g_keys evs.
Proof.
  intros w e n peer date esi picks Ht Hr. destruct (at_part _ _ _ _ _ _ _ Ht Hr) as (-> & i & Hi & Hg). exists i. split; [exact Hi|].
  unfold good_node in Hg. rewrite !andb_true_iff in Hg. destruct Hg as ((((((((Hg & _) & _) & _) & _) & _) & _) & _) & _).
  unfold timely_b in Hg. apply andb_true_iff in Hg as [H1 H2]. apply N.ltb_lt in H1. apply N.leb_le in H2. split; assumption.
Qed.
Lemma flood_gf : parts_flood brief toy_zstd true toy_fec g_react t_overlay false (secret_of 1) gf_data g_keys evs g_neighbours.
Proof.
  intros w e n peer date esi picks i Ht Hr Hi. destruct (at_part _ _ _ _ _ _ _ Ht Hr) as (-> & i' & Hi' & Hg). rewrite Hi in Hi'. injection Hi' as <-.
  unfold good_node in Hg. rewrite !andb_true_iff in Hg. destruct Hg as ((((((_ & H1) & H2) & H3) & H4) & H5) & H6). cbv zeta.
  split; [|split; [now apply N.ltb_lt|split; [split; [now apply distinct_ok|split]|now apply N.leb_le]]].
  - intros p Hp. rewrite forallb_forall in H1. apply H1 in Hp. apply existsb_exists in Hp as (q & Hq & Heq). apply bytes_eqb_eq in Heq. now subst q.
  - intros j Hj. rewrite forallb_forall in H4. apply Nat.ltb_lt. now apply H4.
  - now apply Nat.eqb_eq.
Qed.
Lemma undisturbed_gf : parts_undisturbed brief toy_zstd true toy_fec g_react t_overlay false (secret_of 1) gf_data g_keys evs (t_id 1).
Proof.
  split; [|split; [|split]].
  - intros w e n peer raw picks b rest Ht Hr _ _ _. destruct (good_reception _ _ _ _ _ _ _ Hgood Ht Hr) as ((esi & He & ->) & Hp & _).
    exists 100, esi. split; [reflexivity|]. split; [lia|]. split; [reflexivity|exact Hp].
  - intros w e n peer raw picks b rest Ht Hr _ Hb. exfalso. destruct (good_reception _ _ _ _ _ _ _ Hgood Ht Hr) as ((esi & He & ->) & _).
    rewrite (part_reads brief toy_zstd toy_fec t_overlay false (secret_of 1) gf_data brief_ok toy_fec_ok eq_refl) in Hb; [discriminate|reflexivity|lia].
  - intros w e n Ht (s & d & t & i & -> & _). pose proof (good_at _ _ _ Hgood Ht) as H. discriminate.
  - intros n s d t Hin. exfalso. apply in_split in Hin as (before & after & E). rewrite E in Hgood.
    pose proof (good_later _ _ _ _ Hgood) as H. discriminate.
Qed.
Lemma proper_gf : proper_sends toy_zstd t_overlay evs.
Proof.
  intros n s d t packed Hin. exfalso. apply in_split in Hin as (before & after & E). rewrite E in Hgood.
  pose proof (good_later _ _ _ _ Hgood) as H. discriminate.
Qed.
Lemma within_gf : forall n i', at_node t_overlay (g_run evs) n = Some i' -> br_clock (in_broadcasts i') = 100000 ->
  within_timeout brief toy_zstd true toy_fec g_react t_overlay false (secret_of 1) gf_data g_keys evs n.
Proof.
  intros n i2 H2 Hc w e peer date esi picks i i' Ht Hr Hi Hi'. destruct (at_part _ _ _ _ _ _ _ Ht Hr) as (-> & i0 & H0 & Hg).
  rewrite Hi in H0. injection H0 as <-. fold (g_run evs) in Hi'. rewrite H2 in Hi'. injection Hi' as <-. rewrite Hc.
  unfold good_node in Hg. rewrite !andb_true_iff in Hg. destruct Hg as ((((((((_ & H3) & H4) & _) & _) & _) & _) & _) & _).
  apply N.eqb_eq in H3, H4. rewrite H3, H4. reflexivity.
Qed.
End good.

Definition idle_node (n : bytes) (w : nodes) : bool :=
  match at_node t_overlay w n with
  | Some i => (br_clock (in_broadcasts i) =? 100000) && forallb (fun t => match tk_queue t with [] => true | _ => false end) (br_tasks (in_broadcasts i))
  | None => false
  end.
Lemma idle_is : forall evs n, good_events (gossip_start g_keys) evs = true -> idle_node n (g_run evs) = true ->
  within_timeout brief toy_zstd true toy_fec g_react t_overlay false (secret_of 1) gf_data g_keys evs n
  /\ worked_off brief toy_zstd true toy_fec g_react t_overlay gf_data g_keys evs n.
Proof.
  intros evs n Hgood H. unfold idle_node in H. destruct (at_node t_overlay (g_run evs) n) as [i|] eqn:E; [|discriminate].
  apply andb_true_iff in H as [H1 H2]. apply N.eqb_eq in H1. split; [exact (within_gf evs Hgood n i E H1)|].
  intros i' Hi' t Ht _ _. fold (g_run evs) in Hi'. rewrite E in Hi'. injection Hi' as <-. rewrite forallb_forall in H2. specialize (H2 t Ht).
  now destruct (tk_queue t).
Qed.

Theorem gf_floods :
  parts_punctual brief toy_zstd true toy_fec g_react t_overlay false (secret_of 1) gf_data g_keys gf_line
  /\ parts_undisturbed brief toy_zstd true toy_fec g_react t_overlay false (secret_of 1) gf_data g_keys gf_line (t_id 1)
  /\ parts_flood brief toy_zstd true toy_fec g_react t_overlay false (secret_of 1) gf_data g_keys gf_line g_neighbours
  /\ proper_sends toy_zstd t_overlay gf_line
  /\ no_part_lost brief toy_zstd true toy_fec g_react t_overlay false (secret_of 1) gf_data g_keys gf_line
  /\ t_id 4 <> t_id 1
  /\ within_timeout brief toy_zstd true toy_fec g_react t_overlay false (secret_of 1) gf_data g_keys gf_line (t_id 4)
  /\ worked_off brief toy_zstd true toy_fec g_react t_overlay gf_data g_keys gf_line (t_id 4)
  /\ (forall i, i < fe_count toy_fec (parts_of toy_zstd false gf_data) ->
      exists a, a <> t_id 1 /\ gets_part brief toy_zstd true toy_fec g_react t_overlay false (secret_of 1) gf_data g_keys gf_line a i
      /\ path (beyond (t_id 1) g_neighbours) a (t_id 4)).
Proof.
  assert (Hgood : good_events (gossip_start g_keys) gf_line = true) by (vm_compute; reflexivity).
  assert (Hlost : lost_b gf_line = true) by (vm_compute; reflexivity).
  assert (Hidle : idle_node (t_id 4) (g_run gf_line) = true) by (vm_compute; reflexivity).
  destruct (idle_is gf_line (t_id 4) Hgood Hidle) as [Hw Ho].
  assert (E3 : g_neighbours (t_id 3) = [t_id 2; t_id 4]) by (vm_compute; reflexivity).
  assert (E2 : g_neighbours (t_id 2) = [t_id 1; t_id 3]) by (vm_compute; reflexivity).
  assert (N4 : t_id 4 <> t_id 1) by (intros He; apply (f_equal (fun x => bytes_eqb x (t_id 1))) in He; vm_compute in He; discriminate).
  assert (N3 : t_id 3 <> t_id 1) by (intros He; apply (f_equal (fun x => bytes_eqb x (t_id 1))) in He; vm_compute in He; discriminate).
  assert (N2 : t_id 2 <> t_id 1) by (intros He; apply (f_equal (fun x => bytes_eqb x (t_id 1))) in He; vm_compute in He; discriminate).
  split; [now apply punctual_gf|]. split; [now apply undisturbed_gf|]. split; [now apply flood_gf|]. split; [now apply proper_gf|].
  split; [intros date esi _ _; now apply nothing_lost_is|]. split; [exact N4|]. split; [exact Hw|]. split; [exact Ho|].
  intros i Hi. exists (t_id 2). split; [exact N2|].
  assert (Hcount : fe_count toy_fec (parts_of toy_zstd false gf_data) = 2) by (vm_compute; reflexivity). rewrite Hcount in Hi. clear Hcount.
  split.
  - set (before := firstn (3 + N.to_nat i) gf_line). exists (g_run before), (gf_get i), (t_id 1), 100, [1; 0]%nat. split.
    + exists before, (skipn (4 + N.to_nat i) gf_line). split; [|reflexivity]. unfold before.
      assert (Hi' : i = 0 \/ i = 1) by lia. destruct Hi' as [->| ->]; reflexivity.
    + split; [reflexivity|]. split; [lia|]. unfold gf_get, gf_part. cbn [receives].
      split; [reflexivity|]. split; [reflexivity|]. split; [reflexivity|]. split; reflexivity.
  - apply path_on with (b := t_id 3).
    2:{ split; [exact N3|]. rewrite E3. right. now left. }
    apply path_on with (b := t_id 2); [apply path_here|]. split; [exact N2|]. rewrite E2. right. now left.
Qed.
