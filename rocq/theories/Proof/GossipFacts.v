From stdpp Require Import gmap.
From Coq Require Import NArith Lia ZifyBool ZifyNat ZifyN.
From Verif.Base Require Import Bytes BytesFacts Res.
From Verif.Model Require Import Crypto Tl Scheme ProtoAdnl ProtoOverlay AdnlNode PeersSet DhtStorage Compression Fec OverlayPeers Broadcast OverlayNode.
From Verif.Spec Require Import Codec CryptoSpec CompressionSpec FecSpec DhtSpec OverlaySpec PeersSetSpec BroadcastSpec OverlayNodeSpec GossipSpec.
From Verif.Proof Require Import TlFacts ProtoFacts BroadcastFacts BroadcastLog OverlayNodeFacts BroadcastForward.
From Verif.Proof Require BroadcastLive PeersSetLists.
Open Scope N_scope.

(** ** One node *)
Section node.
Context (P : prims) (z : zstd) (checks : bool) (F : fec) (react : consumers) (overlay : bytes).
Local Notation step := (group_step P z checks F react).
Local Notation setup := (setup_of P z checks F overlay).

(** The operation makes the overlay handle the event. *)
Definition caused (i : instance) (op : group_op) (e : bc_event) : Prop :=
  match op with
  | GoMessage peer constructor data picks =>
    constructor = id_overlay_message /\ named data = overlay
    /\ exists b rest, get_broadcast (skipn 36 data) = Some (b, rest)
       /\ match b with
          | BBroadcast b => e = EvBroadcast (mk_bc_env (ov_neighbours (in_peers i)) picks) peer data b
          | BBroadcastFec b => e = EvFec (mk_bc_env (ov_neighbours (in_peers i)) picks) peer data b
          | _ => False
          end
  | GoBroadcasts id e' => id = overlay /\ e' = e /\ is_reception e = false
  | _ => False
  end.

Definition moves (o o' : option instance) (op : group_op) : Prop :=
  o' = o
  \/ (o = None /\ exists i clock, o' = Some i /\ in_broadcasts i = bstate_new clock)
  \/ (exists i p, o = Some i /\ o' = Some (mk_instance p (in_options i) (in_broadcasts i)))
  \/ (exists i e, o = Some i /\ o' = Some (mk_instance (in_peers i) (in_options i) (bc_step (setup i) (in_broadcasts i) e))
      /\ caused i op e).

Lemma instance_step : forall g op, moves (gr_overlays g !! overlay) (gr_overlays (step g op) !! overlay) op.
Proof.
  intros g op.
  assert (Hm : moves (gr_overlays g !! overlay) (gr_overlays g !! overlay) op) by now left.
  assert (Hs : forall id' x, (id' = overlay -> moves (gr_overlays g !! overlay) (Some x) op) ->
            moves (gr_overlays g !! overlay) (gr_overlays (set_instance g id' x) !! overlay) op).
  { intros id' x Hx. cbn. destruct (decide (id' = overlay)) as [->|Hne].
    - rewrite lookup_insert. now apply Hx.
    - now rewrite lookup_insert_ne. }
  destruct op as [i0 n o clock|i0 key peers n o clock picks|i0 c|peer con data picks|con query now picks|i0 op|i0 e]; cbn [group_step].
  - unfold add_public_overlay, add_overlay. destruct (gr_overlays g !! i0) eqn:E0; cbn [snd]; [exact Hm|]. apply Hs. intros ->. right. left. split; [exact E0|]. eexists. exists clock. split; reflexivity.
  - unfold add_private_overlay, add_overlay. destruct (gr_overlays g !! i0) eqn:E0; cbn [snd]; [exact Hm|]. apply Hs. intros ->. right. left. split; [exact E0|]. eexists. exists clock. split; reflexivity.
  - unfold add_overlay_subscriber. destruct (gr_subscribers g !! i0); exact Hm.
  - unfold on_message. destruct (con =? id_overlay_message) eqn:Ec; cbn [negb]; [|exact Hm]. apply N.eqb_eq in Ec. subst con.
    destruct (get_hash _) as [[i1 r]|] eqn:Eh; [|exact Hm]. destruct (get_broadcast r) as [[b r']|] eqn:Eb; [|exact Hm].
    destruct (gr_overlays g !! i1) as [x|] eqn:Ex; [|exact Hm].
    rewrite (rest_of_named _ _ _ Eh) in Eb.
    destruct b; try exact Hm.
    + pose proof (Hs i1 (mk_instance (in_peers x) (in_options x) (bc_step (setup x) (in_broadcasts x) (EvBroadcast (mk_bc_env (ov_neighbours (in_peers x)) picks) peer data b)))) as H.
      cbn [bc_step setup_of bs_prims bs_zstd bs_checks bs_options] in H.
      destruct (receive_broadcast _ _ _ _ _ _ _ _ _) as [y s] eqn:Er. cbn [snd] in *. apply H. intros ->. right. right. right.
      exists x, (EvBroadcast (mk_bc_env (ov_neighbours (in_peers x)) picks) peer data b).
      cbn [bc_step setup_of bs_prims bs_zstd bs_checks bs_options]. rewrite Er. cbn [snd]. split; [exact Ex|]. split; [reflexivity|].
      split; [reflexivity|]. split; [exact (named_hash _ _ _ Eh)|]. exists (BBroadcast b), r'. auto.
    + pose proof (Hs i1 (mk_instance (in_peers x) (in_options x) (bc_step (setup x) (in_broadcasts x) (EvFec (mk_bc_env (ov_neighbours (in_peers x)) picks) peer data b)))) as H.
      cbn [bc_step setup_of bs_prims bs_zstd bs_checks bs_options] in H.
      destruct (receive_fec _ _ _ _ _ _ _ _) as [y s] eqn:Er. cbn [snd] in *. apply H. intros ->. right. right. right.
      exists x, (EvFec (mk_bc_env (ov_neighbours (in_peers x)) picks) peer data b).
      cbn [bc_step setup_of bs_prims bs_zstd bs_checks bs_options]. rewrite Er. cbn [snd]. split; [exact Ex|]. split; [reflexivity|].
      split; [reflexivity|]. split; [exact (named_hash _ _ _ Eh)|]. exists (BBroadcastFec b), r'. auto.
  - unfold on_query. destruct (negb _); [exact Hm|]. destruct (get_hash _) as [[i1 r]|]; [|exact Hm].
    destruct (get_u32 r) as [[inner r']|]; [|exact Hm]. destruct (inner =? _).
    + destruct (get_get_random_peers r) as [[nodes r'']|]; [|exact Hm]. destruct (gr_overlays g !! i1) as [x|] eqn:Ex; [|exact Hm].
      destruct (process_get_random_peers _ _ _ _ _) as [a o]. cbn [snd]. apply Hs. intros ->. right. right. left. exists x, o. auto.
    + destruct (gr_subscribers g !! i1); exact Hm.
  - unfold on_instance. destruct (gr_overlays g !! i0) as [x|] eqn:Ex; [|exact Hm]. apply Hs. intros ->. right. right. left. exists x. eexists. split; [exact Ex|reflexivity].
  - destruct (is_reception e) eqn:Er; [exact Hm|]. unfold on_instance. destruct (gr_overlays g !! i0) as [x|] eqn:Ex; [|exact Hm].
    apply Hs. intros ->. right. right. right. exists x, e. split; [exact Ex|]. split; [reflexivity|]. split; [reflexivity|]. split; [reflexivity|exact Er].
Qed.

(** A broadcast message for the overlay is handled by it. *)
Lemma handled : forall g i peer b picks, hash_ok overlay -> broadcast_ok (BBroadcast b) -> gr_overlays g !! overlay = Some i ->
  let m := overlay_message overlay (BBroadcast b) in
  gr_overlays (step g (GoMessage peer id_overlay_message m picks)) !! overlay
  = Some (mk_instance (in_peers i) (in_options i)
      (bc_step (setup i) (in_broadcasts i) (EvBroadcast (mk_bc_env (ov_neighbours (in_peers i)) picks) peer m b))).
Proof.
  intros g i peer b picks Hid Hok Hi m. cbn [group_step]. unfold on_message. rewrite N.eqb_refl. cbn [negb].
  unfold m at 1, overlay_message. rewrite message_named by exact Hid.
  pose proof (broadcast_reads (BBroadcast b) [] Hok) as Hr. rewrite app_nil_r in Hr. rewrite Hr, Hi.
  cbn [bc_step setup_of bs_prims bs_zstd bs_checks bs_options].
  destruct (receive_broadcast _ _ _ _ _ _ _ _ _) as [y s]. cbn. now rewrite lookup_insert.
Qed.
End node.

(** ** What an event does to a broadcast *)
Section one.
Context (c : bc_setup) (id : bytes).
Local Notation P := (bs_prims c).
Local Notation z := (bs_zstd c).

Definition no_task (s : bstate) : Prop := forall t, In t (br_tasks s) -> tk_id t <> id.
Lemma no_task_step : forall s e, (forall ee peer raw b, e = EvFec ee peer raw b -> bf_data_hash b <> id) ->
  no_task s -> no_task (bc_step c s e).
Proof.
  intros s e Hf H2 t.
    destruct e as [ms|e peer raw b|e peer raw b|sec dat targets|sec dat targets|i|i|i|]; cbn [bc_step].
    + apply H2.
    + destruct (receive_broadcast_cases P z (bs_checks c) (bs_options c) e s peer raw b) as [->|(dat & from & _ & _ & _ & _ & Hn & ->)]; apply H2.
    + assert (Hb : bf_data_hash b <> id) by (eapply Hf; reflexivity).
      destruct (receive_fec_cases P (bs_checks c) (bs_options c) e s peer raw b) as [->|(k & _ & _ & _ & _ & _ & Hc)]; [apply H2|].
      cbv zeta in Hc.
      assert (Hs1 : forall t, In t (br_tasks (with_entry (bs_options c) s (bf_fec b) (bf_data_hash b) (node_id P k))) -> tk_id t <> id).
      { unfold with_entry. destruct (br_owned s !! bf_data_hash b); [exact H2|]. cbn. intros t' Ht'. apply in_app_or in Ht' as [Ht'|[<-|[]]]; [now apply H2|exact Hb]. }
      destruct Hc as [[-> _]|(x & x' & Hown & _ & Hc)]; [apply Hs1|].
      destruct Hc as [[-> _]|(_ & _ & targets & _ & [[_ ->]|(_ & task & Hn & _ & ->)])]; [apply Hs1|apply Hs1|].
      cbn [distribute set_tasks set_owned br_tasks]. intros Ht. destruct (update_task_in _ _ _ _ _ Hn Ht) as [->|Hin]; [|now apply Hs1].
      cbn [push_packet tk_id]. apply Hs1. eapply nth_error_In, Hn.
    + destruct (send_broadcast_cases P z (bs_options c) (bs_overlay c) sec s dat targets) as [->|(Hn & m & ->)]; apply H2.
    + destruct (send_fec_cases P z (bs_options c) (bs_overlay c) sec s dat targets) as [->|(Hn & ->)]; apply H2.
    + destruct (task_step_cases P z (bs_fec c) s i) as [->|(t0 & Ht & Hc)]; [apply H2|].
      destruct Hc as [(Hp & p & rest & r & de & Hq & Hpf & [[_ ->]|[(dat & _ & ->)|[_ ->]]])|[(Hp & Hq & -> & _)|(Hp & m & -> & Hm)]];
      cbn [deliver_data set_tasks set_owned br_tasks]; intros Hin; destruct (update_task_in _ _ _ _ _ Ht Hin) as [->|Hin']; try (now apply H2); cbn [tk_id]; apply H2; eapply nth_error_In, Ht.
    + unfold timer_step. destruct (nth_error _ _) as [t0|] eqn:Ht; [|apply H2]. destruct (_ <? _); [apply H2|].
      destruct t0 as [i' due|i' due]; [destruct (match br_owned s !! i' with Some _ => _ | None => _ end)|]; apply H2.
    + unfold push_step. now destruct (nth_error _ _); apply H2.
    + unfold collector_step. destruct (br_collector s); [destruct (_ <? _)|destruct (br_finished s)| |]; apply H2.
Qed.

(** A delivery of [id] that is not from a task. *)
Lemma delivered_new : forall s e d, no_task s -> dl_id d = id -> In d (br_delivered (bc_step c s e)) ->
  In d (br_delivered s)
  \/ exists env peer raw b data from, e = EvBroadcast env peer raw b
     /\ In id (broadcast_ids P z b) /\ d = mk_delivery id 1 data from /\ genuine_broadcast P z b data from
     /\ id = sha256 P (broadcast_claim P (ob_flags b) from data (ob_date b))
     /\ bc_step c s e = accepted_state (bs_options c) env s peer raw id data from.
Proof.
  intros s e d Hnt Hid Hd. revert Hd.
  destruct e as [ms|e peer raw b|e peer raw b|sec dat targets|sec dat targets|i|i|i|]; cbn [bc_step].
  - now left.
  - destruct (receive_broadcast_cases P z (bs_checks c) (bs_options c) e s peer raw b) as [->|(dat & from & Hg & _ & _ & Hin & Hn & He)]; [now left|].
    rewrite He. cbn [accepted_state br_delivered]. intros Hd. apply in_app_or in Hd as [Hd|[Hd|[]]]; [now left|right].
    assert (Hx : id = sha256 P (broadcast_claim P (ob_flags b) from dat (ob_date b))) by (rewrite <- Hid, <- Hd; reflexivity).
    exists e, peer, raw, b, dat, from. split; [reflexivity|]. rewrite <- Hx in *. split; [exact Hin|]. split; [now symmetry|]. split; [exact Hg|]. split; reflexivity.
  - destruct (receive_fec_cases P (bs_checks c) (bs_options c) e s peer raw b) as [->|(k & _ & _ & _ & _ & _ & Hc)]; [now left|].
    cbv zeta in Hc.
    assert (Hs1 : br_delivered (with_entry (bs_options c) s (bf_fec b) (bf_data_hash b) (node_id P k)) = br_delivered s).
    { unfold with_entry. now destruct (br_owned s !! _). }
    set (s1 := with_entry _ _ _ _ _) in *.
    destruct Hc as [[-> _]|(t & t' & Hown & _ & Hc)]; [rewrite Hs1; now left|].
    destruct Hc as [[-> _]|(_ & _ & targets & _ & [[_ ->]|(_ & task & _ & _ & ->)])]; cbn; rewrite Hs1; now left.
  - destruct (send_broadcast_cases P z (bs_options c) (bs_overlay c) sec s dat targets) as [->|(Hn & m & ->)]; now left.
  - destruct (send_fec_cases P z (bs_options c) (bs_overlay c) sec s dat targets) as [->|(Hn & ->)]; now left.
  - destruct (task_step_cases P z (bs_fec c) s i) as [->|(t & Ht & Hc)]; [now left|].
    destruct Hc as [(Hp & p & rest & r & de & Hq & Hpf & [[_ ->]|[(dat & _ & ->)|[_ ->]]])|[(Hp & Hq & -> & _)|(Hp & m & -> & Hm)]]; try (now left).
    cbn. intros Hd. apply in_app_or in Hd as [Hd|[Hd|[]]]; [now left|exfalso].
    apply (Hnt t); [eapply nth_error_In, Ht|]. rewrite <- Hid, <- Hd. reflexivity.
  - unfold timer_step. destruct (nth_error _ _) as [t|] eqn:Ht; [|now left]. destruct (_ <? _); [now left|].
    destruct t as [i' due|i' due]; [destruct (match br_owned s !! i' with Some _ => _ | None => _ end)|]; now left.
  - unfold push_step. destruct (nth_error _ _); now left.
  - unfold collector_step. destruct (br_collector s); [destruct (_ <? _)|destruct (br_finished s)| |]; now left.
Qed.

(** An entry for [id] that was not there. *)
Lemma owned_new : forall s e, br_owned s !! id = None -> is_Some (br_owned (bc_step c s e) !! id) ->
  match e with
  | EvBroadcast _ _ _ _ => exists d, In d (br_delivered (bc_step c s e)) /\ dl_id d = id
  | EvFec _ _ _ b => bf_data_hash b = id
  | EvSend _ data _ => sha256 P (broadcast_claim P 1 [] data (now_sec s)) = id
  | EvSendFec _ data _ => sha256 P data = id
  | _ => False
  end.
Proof.
  intros s e Hn Hs.
  destruct e as [ms|e peer raw b|e peer raw b|secret data targets|secret data targets|i|i|i|].
  2:{ cbn [bc_step] in *. destruct (receive_broadcast_cases P z (bs_checks c) (bs_options c) e s peer raw b) as [He|(data & from & _ & _ & _ & _ & _ & He)]; rewrite He in *.
      - rewrite Hn in Hs. now destruct Hs.
      - cbn [accepted_state br_owned br_delivered] in *. apply insert_dom in Hs as [He'|Hs]; [|rewrite Hn in Hs; now destruct Hs].
        eexists. split; [apply in_or_app; right; now left|]. cbn. now symmetry. }
  all: try (exfalso; rewrite (fresh_step c id s) in Hs; [now destruct Hs|intros now Ha; exact Ha|exact Hn]).
  - destruct (bytes_eqb (bf_data_hash b) id) eqn:E; [now apply bytes_eqb_eq|exfalso].
    rewrite (fresh_step c id s) in Hs; [now destruct Hs| |exact Hn]. intros now Ha. cbn in Ha. rewrite Ha, bytes_eqb_refl in E. discriminate.
  - cbn [bc_step] in Hs. destruct (send_broadcast_cases P z (bs_options c) (bs_overlay c) secret s data targets) as [He|(_ & m & He)]; rewrite He in Hs.
    + rewrite Hn in Hs. now destruct Hs.
    + cbn [br_owned] in Hs. apply insert_dom in Hs as [Hs|Hs]; [now symmetry|rewrite Hn in Hs; now destruct Hs].
  - cbn [bc_step] in Hs. destruct (send_fec_cases P z (bs_options c) (bs_overlay c) secret s data targets) as [He|(_ & He)]; rewrite He in Hs.
    + rewrite Hn in Hs. now destruct Hs.
    + cbn [br_owned] in Hs. apply insert_dom in Hs as [Hs|Hs]; [now symmetry|rewrite Hn in Hs; now destruct Hs].
Qed.
End one.

(** Everybody but one is chosen when enough are asked for. *)
Lemma all_chosen : forall set amount peer picks p,
  N.of_nat (ps_len set) <= amount -> amount + 1 < 2 ^ 32 ->
  sample_of (ps_len set) (N.to_nat (picks_wanted amount (Some peer))) picks ->
  In p (ps_members set) -> p = peer \/ In p (get_random_peers set amount (Some peer) picks).
Proof.
  intros set amount peer picks p Hl Ha (Hnd & Hlt & Hlen) Hp.
  destruct (bytes_eqb p peer) eqn:E; [left; now apply bytes_eqb_eq|right].
  unfold picks_wanted in Hlen. rewrite N.mod_small in Hlen by exact Ha.
  assert (Hlen' : length picks = ps_len set) by lia. clear Hlen.
  unfold get_random_peers.
  assert (Hin : In p (choose (ps_index set) picks)).
  { unfold ps_members in Hp. apply In_nth_error in Hp as (i & Hi). apply PeersSetLists.choose_In. exists i. split; [|exact Hi].
    assert (Hincl : incl (seq 0 (ps_len set)) picks).
    { apply NoDup_length_incl; [exact Hnd|rewrite seq_length; lia|]. intros x Hx. apply in_seq. specialize (Hlt x Hx). lia. }
    apply Hincl, in_seq. assert (i < length (ps_index set))%nat by (apply nth_error_Some; congruence). unfold ps_len. lia. }
  rewrite firstn_all2.
  - apply filter_In. split; [exact Hin|]. now rewrite E.
  - assert (forall l k, (length (choose l k) <= length k)%nat).
    { intros l. induction k as [|j k IH]; cbn [choose flat_map length]; [lia|]. rewrite app_length. unfold choose in IH. destruct (nth_error l j); cbn [length]; lia. }
    assert (forall (f : bytes -> bool) l, (length (List.filter f l) <= length l)%nat).
    { intros f. induction l as [|a l IH]; cbn; [lia|]. destruct (f a); cbn; lia. }
    pose proof (H (ps_index set) picks) as H1. pose proof (H0 (fun x => negb (bytes_eqb x peer)) (choose (ps_index set) picks)) as H2. lia.
Qed.

(** ** The overlay *)
Section world.
Context (P : prims) (z : zstd) (checks : bool) (F : fec) (react : consumers) (overlay : bytes) (keys : bytes -> bytes).
Local Notation setup := (setup_of P z checks F overlay).
Local Notation at_node := (at_node overlay).
Local Notation sent_by := (sent_by overlay).
Local Notation delivered_by := (delivered_by overlay).
Local Notation step := (gossip_step P z checks F react overlay).
Local Notation start := (gossip_start keys).
Local Notation run := (gossip_run P z checks F react overlay start).
Local Notation at_time := (at_time P z checks F react overlay keys).
Local Notation receives := (receives overlay).
Local Notation has := (has P z checks F react overlay keys).

Lemma place_same : forall w n g, place w n g n = g.
Proof. intros. unfold place. now rewrite bytes_eqb_refl. Qed.
Lemma place_other : forall w n g x, x <> n -> place w n g x = w x.
Proof. intros w n g x H. unfold place. destruct (bytes_eqb x n) eqn:E; [|reflexivity]. apply bytes_eqb_eq in E. contradiction. Qed.

(** What a node handles. *)
Definition occurs (w : nodes) (ev : gossip_event) (n : bytes) (i : instance) (e : bc_event) : Prop :=
  match e with
  | EvBroadcast env peer raw b => exists picks rest, env = mk_bc_env (ov_neighbours (in_peers i)) picks
      /\ receives w ev n peer raw picks /\ named raw = overlay /\ get_broadcast (skipn 36 raw) = Some (BBroadcast b, rest)
  | EvFec env peer raw b => exists picks rest, env = mk_bc_env (ov_neighbours (in_peers i)) picks
      /\ receives w ev n peer raw picks /\ named raw = overlay /\ get_broadcast (skipn 36 raw) = Some (BBroadcastFec b, rest)
  | _ => ev = Local n (GoBroadcasts overlay e)
  end.

Definition goes (w : nodes) (ev : gossip_event) (n : bytes) (o o' : option instance) : Prop :=
  o' = o
  \/ (o = None /\ exists i clock, o' = Some i /\ in_broadcasts i = bstate_new clock)
  \/ (exists i p, o = Some i /\ o' = Some (mk_instance p (in_options i) (in_broadcasts i)))
  \/ (exists i e, o = Some i /\ o' = Some (mk_instance (in_peers i) (in_options i) (bc_step (setup i) (in_broadcasts i) e))
      /\ occurs w ev n i e).

Lemma moves_goes : forall w ev n op, 
  (ev = Local n op \/ exists peer con raw picks, op = GoMessage peer con raw picks /\ receives w ev n peer raw picks) ->
  goes w ev n (gr_overlays (w n) !! overlay) (gr_overlays (group_step P z checks F react (w n) op) !! overlay).
Proof.
  intros w ev n op Hop. destruct (instance_step P z checks F react overlay (w n) op) as [H|[H|[H|(i & e & H1 & H2 & Hc)]]].
  - now left.
  - right. now left.
  - right. right. now left.
  - right. right. right. exists i, e. split; [exact H1|]. split; [exact H2|].
    destruct op as [i0 k o clock|i0 key peers k o clock picks|i0 k|peer con raw picks|con query now picks|i0 op|i0 e0]; try contradiction.
    + destruct Hc as (Hcon & Hn & b & rest & Hb & He).
      assert (Hr : receives w ev n peer raw picks).
      { destruct Hop as [->|(p & k & r & q & Ho & Hr)]; [cbn; auto 6|]. injection Ho as -> -> -> ->. exact Hr. }
      destruct b; try contradiction; subst e; exists picks, rest; auto.
    + destruct Hc as (-> & -> & Hr). destruct Hop as [->|(p & k & r & q & Ho & _)]; [|discriminate]. now destruct e.
Qed.

Lemma world_step : forall w ev n, goes w ev n (at_node w n) (at_node (step w ev) n).
Proof.
  intros w ev n. unfold GossipSpec.at_node. destruct ev as [x op|from k to picks]; cbn [gossip_step].
  - destruct (bytes_eqb n x) eqn:E.
    + apply bytes_eqb_eq in E. subst x. rewrite place_same. apply moves_goes. now left.
    + left. rewrite place_other; [reflexivity|]. intros ->. rewrite bytes_eqb_refl in E. discriminate.
  - destruct (nth_error (sent_by w from) k) as [[targets m]|] eqn:En; [|now left].
    destruct (get_u32 m) as [[con r]|]; [|now left]. destruct (existsb (bytes_eqb to) targets) eqn:Ex; [|now left].
    destruct (bytes_eqb n to) eqn:E.
    + apply bytes_eqb_eq in E. subst to. rewrite place_same. apply moves_goes. right. exists from, con, m, picks. split; [reflexivity|].
      cbn. split; [reflexivity|]. split; [reflexivity|]. split; [reflexivity|]. exists targets. split; [exact En|].
      apply existsb_exists in Ex as (y & Hy & Heq). apply bytes_eqb_eq in Heq. now subst y.
    + left. rewrite place_other; [reflexivity|]. intros ->. rewrite bytes_eqb_refl in E. discriminate.
Qed.

Lemma delivered_more : forall w ev n d, In d (delivered_by w n) -> In d (delivered_by (step w ev) n).
Proof.
  intros w ev n d. unfold GossipSpec.delivered_by.
  destruct (world_step w ev n) as [->|[[-> _]|[(i & p & -> & ->)|(i & e & -> & -> & _)]]]; try (intros H; exact H).
  - intros [].
  - cbn [in_broadcasts]. apply BroadcastLive.delivered_step.
Qed.
Lemma sent_more : forall w ev n, exists l, sent_by (step w ev) n = sent_by w n ++ l.
Proof.
  intros w ev n. unfold GossipSpec.sent_by.
  destruct (world_step w ev n) as [->|[[-> (i & clock & -> & ->)]|[(i & p & -> & ->)|(i & e & -> & -> & _)]]].
  - exists []. now rewrite app_nil_r.
  - now exists [].
  - exists []. now rewrite app_nil_r.
  - cbn [in_broadcasts]. destruct (sent_cases (setup i) (in_broadcasts i) e) as [->|H]; [exists []; now rewrite app_nil_r|].
    destruct e; try contradiction; rewrite H; eexists; reflexivity.
Qed.

Lemma run_last : forall evs e, run (evs ++ [e]) = step (run evs) e.
Proof. intros. unfold gossip_run. now rewrite fold_left_app. Qed.
Lemma sent_run : forall before after n, exists l, sent_by (run (before ++ after)) n = sent_by (run before) n ++ l.
Proof.
  intros before after n. induction after as [|e after IH] using rev_ind.
  - exists []. now rewrite !app_nil_r.
  - destruct IH as (l & IH). rewrite app_assoc, run_last. destruct (sent_more (run (before ++ after)) e n) as (l' & ->). rewrite IH, <- app_assoc. now exists (l ++ l').
Qed.
Lemma delivered_run : forall before after n d, In d (delivered_by (run before) n) -> In d (delivered_by (run (before ++ after)) n).
Proof.
  intros before after n d H. induction after as [|e after IH] using rev_ind; [now rewrite app_nil_r|].
  rewrite app_assoc, run_last. now apply delivered_more.
Qed.
Lemma at_time_more : forall evs more w e, at_time evs w e -> at_time (evs ++ more) w e.
Proof. intros evs more w e (b & a & -> & ->). exists b, (a ++ more). split; [now rewrite <- app_assoc|reflexivity]. Qed.
Lemma at_time_last : forall evs e, at_time (evs ++ [e]) (run evs) e.
Proof. intros. exists evs, []. auto. Qed.
Lemma has_more : forall evs more n id, has evs n id -> has (evs ++ more) n id.
Proof.
  intros evs more n id [(d & Hd & Hi)|(w & e & Ht & Ha)].
  - left. exists d. split; [now apply delivered_run|exact Hi].
  - right. exists w, e. split; [now apply at_time_more|exact Ha].
Qed.

Context (packed : bool) (secret data : bytes) (date : N).
Local Notation b0 := (the_broadcast P z packed secret data date).
Local Notation m := (the_message P z overlay packed secret data date).
Local Notation id := (the_id P data date).
Context (HP : prims_ok P) (Hz : zstd_ok z) (Hov : hash_ok overlay) (Hdate : date < 2 ^ 32)
        (Hfit : sendable z packed data) (Huniq : unambiguous P z packed secret data date).

Lemma own_ok : forall o sec dat now, now < 2 ^ 32 -> sendable z (bo_compress o) dat ->
  broadcast_ok (BBroadcast (own_broadcast P z o sec dat now)).
Proof.
  intros o sec dat now Hn (_ & _ & Hw). cbn [broadcast_ok]. unfold ov_broadcast_ok, own_broadcast. cbn [ob_src ob_certificate ob_flags ob_data ob_date ob_signature].
  split; [exact (pub_len P HP sec)|]. split; [exact I|]. split; [reflexivity|]. split; [exact Hw|]. split.
  - exact Hn.
  - unfold blob_ok. rewrite (sign_len P HP). reflexivity.
Qed.
Lemma message_rest : forall b, skipn 36 (overlay_message overlay b) = put_broadcast b.
Proof.
  intros b. rewrite <- (rest_of_named (overlay_message overlay b) overlay (put_broadcast b)); [reflexivity|].
  unfold overlay_message. now apply message_named.
Qed.
Lemma b0_ok : broadcast_ok (BBroadcast b0).
Proof. apply own_ok; [exact Hdate|exact Hfit]. Qed.
Lemma m_reads : get_broadcast (skipn 36 m) = Some (BBroadcast b0, []).
Proof.
  unfold the_message. rewrite message_rest. pose proof (broadcast_reads (BBroadcast b0) [] b0_ok) as H. now rewrite app_nil_r in H.
Qed.

Lemma b0_genuine : forall other from, genuine_broadcast P z b0 other from -> other = data /\ from = node_id P (pub_of P secret).
Proof.
  intros other from Hg. pose proof Hg as (key & Hk & Hf & _). cbn in Hk. injection Hk as <-. split; [|exact Hf].
  apply Huniq. rewrite <- Hf. exact Hg.
Qed.

(** Who sends the same message sends the same broadcast. *)
Lemma same_message : forall o sec dat s, sendable z (bo_compress o) dat ->
  overlay_message overlay (BBroadcast (own_broadcast P z o sec dat (now_sec s))) = m -> the_id P dat (now_sec s) = id.
Proof.
  intros o sec dat s Hf He.
  assert (Hn : now_sec s < 2 ^ 32) by (unfold now_sec; apply N.mod_lt; discriminate).
  pose proof (own_ok o sec dat (now_sec s) Hn Hf) as Hok.
  pose proof (broadcast_reads (BBroadcast (own_broadcast P z o sec dat (now_sec s))) [] Hok) as Hr. rewrite app_nil_r in Hr.
  pose proof m_reads as Hm. rewrite <- He, message_rest, Hr in Hm. injection Hm as Hpub Hwire Hnow Hsig.
  change (bo_compress (mk_bc_options 0 0 0 0 0 packed)) with packed in Hwire.
  rewrite Hnow in *. f_equal. enough (dat = data) as -> by reflexivity. 
  apply Huniq. exists (pub_of P secret). split; [reflexivity|]. split; [reflexivity|].
  cbn [the_broadcast own_broadcast ob_data ob_flags ob_date ob_signature]. change (bo_compress (mk_bc_options 0 0 0 0 0 packed)) with packed.
  split.
  - rewrite <- Hwire. destruct (bo_compress o); [|now left]. destruct Hf as (Hb & Hl & _).
    pose proof (BroadcastLive.wire_opens (mk_bc_setup P z F checks o overlay) dat true Hz Hb Hl) as [Hw|Hw]; cbn in Hw; [left; now symmetry|now right].
  - rewrite <- Hsig, <- Hpub. split; [apply (pub_valid P HP)|]. split; [apply (sign_len P HP)|]. apply (sign_verifies P HP).
Qed.

(** A copy of the message that reaches a node. *)
Lemma gets : forall w ev n i peer picks, receives w ev n peer m picks -> at_node w n = Some i ->
  at_node (step w ev) n = Some (mk_instance (in_peers i) (in_options i)
    (bc_step (setup i) (in_broadcasts i) (EvBroadcast (mk_bc_env (ov_neighbours (in_peers i)) picks) peer m b0))).
Proof.
  intros w ev n i peer picks Hr Hi. unfold GossipSpec.at_node in *.
  pose proof (handled P z checks F react overlay (w n) i peer b0 picks Hov b0_ok Hi) as Hh. cbv zeta in Hh.
  change (overlay_message overlay (BBroadcast b0)) with m in Hh.
  destruct ev as [x op|from k to q]; cbn [GossipSpec.receives gossip_step] in *.
  - destruct op; try contradiction. destruct Hr as (-> & -> & -> & -> & ->). rewrite place_same. exact Hh.
  - destruct Hr as (-> & -> & -> & targets & Hs & Hin). rewrite Hs.
    assert (Hu : exists r, get_u32 m = Some (id_overlay_message, r)).
    { unfold the_message, overlay_message, put_overlay_message. rewrite <- !app_assoc. eexists. apply u32_reads. reflexivity. }
    destruct Hu as (r & ->).
    assert (existsb (bytes_eqb n) targets = true) as -> by (apply existsb_exists; exists n; split; [exact Hin|apply bytes_eqb_refl]).
    rewrite place_same. exact Hh.
Qed.

Lemma gets_first : forall w ev n i peer picks, receives w ev n peer m picks -> at_node w n = Some i ->
  timely (setup i) (in_broadcasts i) date -> br_owned (in_broadcasts i) !! id = None ->
  In (mk_delivery id 1 data (node_id P (pub_of P secret))) (delivered_by (step w ev) n).
Proof.
  intros w ev n i peer picks Hr Hi Ht Hn. unfold GossipSpec.delivered_by. rewrite (gets w ev n i peer picks Hr Hi). cbn [in_broadcasts].
  destruct Hfit as (Hb & Hl & _).
  pose proof (BroadcastLive.honest_ordinary_arrives (setup i) (in_broadcasts i) secret data packed date
    (mk_bc_env (ov_neighbours (in_peers i)) picks) peer m) as H.
  cbv zeta in H. cbn [bs_prims bs_zstd setup_of bs_options] in H.
  change (own_broadcast P z (mk_bc_options (bo_timeout (in_options i)) 0 0 0 0 packed) secret data date) with b0 in H.
  destruct H as (H & _ & _); try assumption.
  - intros u Hu Hne Hs. apply Hne, Huniq. exists (pub_of P secret). split; [reflexivity|]. split; [reflexivity|]. split; [right; exact Hu|].
    exact Hs.
  - rewrite H. apply in_or_app. right. now left.
Qed.

Record good (evs : list gossip_event) : Prop := mk_good
  { go_owned : forall n i, at_node (run evs) n = Some i -> is_Some (br_owned (in_broadcasts i) !! id) -> has evs n id;
    go_sent : forall n targets, In (targets, m) (sent_by (run evs) n) -> has evs n id;
    go_task : forall n i, at_node (run evs) n = Some i -> no_task id (in_broadcasts i) }.

Local Notation punctual := (punctual P z checks F react overlay keys).
Local Notation no_fec := (no_fec P z checks F react overlay keys).

Lemma punctual_less : forall evs more, punctual (evs ++ more) m date -> punctual evs m date.
Proof. intros evs more H w e n peer picks Ht. apply H. now apply at_time_more. Qed.
Lemma no_fec_less : forall evs more, no_fec (evs ++ more) id -> no_fec evs id.
Proof.
  intros evs more [H1 H2]. split.
  - intros n s d t Hin. eapply (H1 n s d t). apply in_or_app. now left.
  - intros w e n peer raw picks b rest Ht. apply (H2 w e n peer raw picks b rest). now apply at_time_more.
Qed.
Lemma proper_less : forall evs more, proper_sends z overlay (evs ++ more) -> proper_sends z overlay evs.
Proof. intros evs more H n s d t p Hin. apply (H n s d t p). apply in_or_app. now left. Qed.

Lemma receipt : forall evs ev n peer picks, good evs -> punctual (evs ++ [ev]) m date ->
  receives (run evs) ev n peer m picks -> has (evs ++ [ev]) n id.
Proof.
  intros evs ev n peer picks Hg Hp Hr. destruct (Hp _ _ _ _ _ (at_time_last evs ev) Hr) as (i & Hi & Ht).
  destruct (br_owned (in_broadcasts i) !! id) as [x|] eqn:E.
  - apply has_more, (go_owned _ Hg n i Hi). rewrite E. eauto.
  - left. eexists. split; [rewrite run_last; eapply gets_first; eassumption|reflexivity].
Qed.

Lemma good_run : forall evs, punctual evs m date -> no_fec evs id -> proper_sends z overlay evs -> good evs.
Proof.
  induction evs as [|ev evs IH] using rev_ind; intros Hp Hf Hs.
  - split.
    + intros n i Hi. cbn in Hi. unfold GossipSpec.at_node in Hi. cbn in Hi. rewrite lookup_empty in Hi. discriminate.
    + intros n targets H. unfold GossipSpec.sent_by, GossipSpec.at_node in H. cbn in H. rewrite lookup_empty in H. destruct H.
    + intros n i Hi. cbn in Hi. unfold GossipSpec.at_node in Hi. cbn in Hi. rewrite lookup_empty in Hi. discriminate.
  - specialize (IH (punctual_less _ _ Hp) (no_fec_less _ _ Hf) (proper_less _ _ Hs)). pose proof (at_time_last evs ev) as Hat.
    assert (Hlast : In ev (evs ++ [ev])) by (apply in_or_app; right; now left).
    assert (Hnf : forall n i e, occurs (run evs) ev n i e -> forall ee peer raw b, e = EvFec ee peer raw b -> bf_data_hash b <> id).
    { intros n i e Ho ee peer raw b ->. destruct Ho as (picks & rest & _ & Hr & Hnm & Hb). exact (proj2 Hf _ _ _ _ _ _ _ _ Hat Hr Hnm Hb). }
    split.
    + intros n i'. rewrite run_last. intros Hi' Hown.
      destruct (world_step (run evs) ev n) as [H|[[H (i & clock & H' & Hb)]|[(i & p & H & H')|(i & e & H & H' & Ho)]]]; rewrite ?H, Hi' in *.
      * apply has_more, (go_owned _ IH n i'); [now symmetry|exact Hown].
      * injection H' as ->. rewrite Hb in Hown. cbn in Hown. rewrite lookup_empty in Hown. now destruct Hown.
      * injection H' as ->. cbn in Hown. now apply has_more, (go_owned _ IH n i).
      * injection H' as ->. cbn [in_broadcasts] in Hown. destruct (br_owned (in_broadcasts i) !! id) as [x|] eqn:E.
        { apply has_more, (go_owned _ IH n i H). rewrite E. eauto. }
        pose proof (owned_new (setup i) id (in_broadcasts i) e E Hown) as Hnew.
        destruct e as [ms|e peer raw b|e peer raw b|sec dat targets|sec dat targets|j|j|j|]; try contradiction.
        { destruct Hnew as (d & Hd & Hid). left. exists d. split; [|exact Hid]. unfold GossipSpec.delivered_by. rewrite run_last, Hi'. exact Hd. }
        { exfalso. exact (Hnf n i _ Ho _ _ _ _ eq_refl Hnew). }
        { right. exists (run evs), ev. split; [exact Hat|]. exists sec, dat, targets, i. split; [exact Ho|]. split; [exact H|exact Hnew]. }
        { exfalso. cbn in Ho. subst ev. exact (proj1 Hf _ _ _ _ Hlast Hnew). }
    + intros n targets. rewrite run_last. unfold GossipSpec.sent_by at 1.
      destruct (world_step (run evs) ev n) as [H|[[H (i & clock & H' & Hb)]|[(i & p & H & H')|(i & e & H & H' & Ho)]]]; rewrite ?H, ?H'.
      * intros Hin. apply has_more, (go_sent _ IH n targets). exact Hin.
      * rewrite Hb. intros [].
      * cbn [in_broadcasts]. intros Hin. apply has_more, (go_sent _ IH n targets). unfold GossipSpec.sent_by. now rewrite H.
      * cbn [in_broadcasts]. intros Hin.
        assert (Hold : In (targets, m) (br_sent (in_broadcasts i)) -> has (evs ++ [ev]) n id).
        { intros Hx. apply has_more, (go_sent _ IH n targets). unfold GossipSpec.sent_by. now rewrite H. }
        destruct (sent_cases (setup i) (in_broadcasts i) e) as [He|He]; [rewrite He in Hin; auto|].
        destruct e as [ms|e peer raw b|e peer raw b|sec dat tgts|sec dat tgts|j|j|j|]; try contradiction;
          rewrite He in Hin; apply in_app_or in Hin as [Hin|[Hin|[]]]; auto; apply (f_equal snd) in Hin; cbn [snd] in Hin; rename Hin into Hraw.
        { destruct Ho as (picks & rest & _ & Hr & _). rewrite Hraw in Hr. now apply (receipt evs ev n peer picks). }
        { exfalso. destruct Ho as (picks & rest & _ & _ & _ & Hb). rewrite Hraw, m_reads in Hb. discriminate. }
        { cbn in Ho. subst ev. right. exists (run evs), (Local n (GoBroadcasts overlay (EvSend sec dat tgts))). split; [exact Hat|].
          exists sec, dat, tgts, i. split; [reflexivity|]. split; [exact H|].
          apply (same_message (in_options i) sec dat (in_broadcasts i)); [exact (Hs _ _ _ _ _ Hlast)|exact Hraw]. }
    + intros n i'. rewrite run_last. intros Hi'.
      destruct (world_step (run evs) ev n) as [H|[[H (i & clock & H' & Hb)]|[(i & p & H & H')|(i & e & H & H' & Ho)]]]; rewrite ?H, Hi' in *.
      * apply (go_task _ IH n). now symmetry.
      * injection H' as ->. rewrite Hb. intros t [].
      * injection H' as ->. cbn. now apply (go_task _ IH n i).
      * injection H' as ->. cbn [in_broadcasts]. apply no_task_step; [exact (Hnf n i e Ho)|now apply (go_task _ IH n i)].
Qed.

Lemma arrives : forall evs w e n peer picks, punctual evs m date -> no_fec evs id -> proper_sends z overlay evs ->
  at_time evs w e -> receives w e n peer m picks -> has evs n id.
Proof.
  intros evs w e n peer picks Hp Hf Hs (before & after & -> & ->) Hr.
  change (before ++ e :: after) with (before ++ [e] ++ after) in *. rewrite app_assoc in *.
  apply has_more. eapply receipt; [|eapply punctual_less, Hp|exact Hr].
  rewrite <- app_assoc in *. apply good_run; [eapply punctual_less, Hp|eapply no_fec_less, Hf|eapply proper_less, Hs].
Qed.

Lemma passed_arrives : forall evs a b, punctual evs m date -> no_fec evs id -> proper_sends z overlay evs ->
  nothing_lost P z checks F react overlay keys evs m -> passed overlay (run evs) m a b -> has evs b id.
Proof.
  intros evs a b Hp Hf Hs Hl (k & targets & Hk & Hb). destruct (Hl a k targets b Hk Hb) as (w & picks & Ht & Hlt).
  eapply arrives; [exact Hp|exact Hf|exact Hs|exact Ht|]. cbn. split; [reflexivity|]. split; [reflexivity|]. split; [reflexivity|].
  exists targets. split; [|exact Hb]. destruct Ht as (before & after & -> & ->).
  destruct (sent_run before (Arrives a k b picks :: after) a) as (l & He). rewrite He in Hk. now rewrite nth_error_app1 in Hk.
Qed.

Theorem spreads : forall evs origin n, punctual evs m date -> no_fec evs id -> proper_sends z overlay evs ->
  nothing_lost P z checks F react overlay keys evs m -> has evs origin id -> path (passed overlay (run evs) m) origin n -> has evs n id.
Proof. intros evs origin n Hp Hf Hs Hl Ho. induction 1 as [|b c Hb IH Hc]; [exact Ho|]. eapply passed_arrives; eassumption. Qed.

(** ** Flooding *)
Context (neighbours : bytes -> list bytes).
Definition flooded (evs : list gossip_event) : Prop :=
  forall n d, In d (delivered_by (run evs) n) -> dl_id d = id ->
  d = mk_delivery id 1 data (node_id P (pub_of P secret))
  /\ exists p targets, In (targets, m) (sent_by (run evs) n)
     /\ (forall x, In x (neighbours n) -> x = p \/ In x targets) /\ has evs p id.

Lemma flooded_run : forall evs origin, punctual evs m date -> no_fec evs id -> proper_sends z overlay evs ->
  undisturbed P z checks F react overlay keys evs origin m id -> floods P z checks F react overlay keys evs m neighbours -> flooded evs.
Proof.
  intros evs origin. induction evs as [|ev evs IH] using rev_ind; intros Hp Hf Hs Hu Hfl.
  - intros n d H. unfold GossipSpec.delivered_by, GossipSpec.at_node in H. cbn in H. rewrite lookup_empty in H. destruct H.
  - pose proof (punctual_less _ _ Hp) as Hp'. pose proof (no_fec_less _ _ Hf) as Hf'. pose proof (proper_less _ _ Hs) as Hs'.
    assert (IH' : flooded evs).
    { apply IH; try assumption.
      - destruct Hu as [H1 H2]. split.
        + intros w e n Ht. apply H1 with (w := w) (e := e). now apply at_time_more.
        + intros w e n peer raw picks b rest Ht. apply H2. now apply at_time_more.
      - destruct Hfl as [Hfl1 Hfl2]. split; intros w e n peer picks i Ht; [apply (Hfl1 w e n peer picks i)|apply (Hfl2 w e n peer picks i)]; now apply at_time_more. }
    clear IH. pose proof (at_time_last evs ev) as Hat. pose proof (good_run evs Hp' Hf' Hs') as Hg.
    assert (Hold : forall n d, In d (delivered_by (run evs) n) -> dl_id d = id ->
       d = mk_delivery id 1 data (node_id P (pub_of P secret))
       /\ exists p targets, In (targets, m) (sent_by (run (evs ++ [ev])) n)
         /\ (forall x, In x (neighbours n) -> x = p \/ In x targets) /\ has (evs ++ [ev]) p id).
    { intros n d Hd Hid. destruct (IH' n d Hd Hid) as (-> & p & targets & H1 & H2 & H3). split; [reflexivity|].
      exists p, targets. split; [|split; [exact H2|now apply has_more]]. destruct (sent_run evs [ev] n) as (l & ->). apply in_or_app. now left. }
    intros n d. rewrite run_last at 1. unfold GossipSpec.delivered_by at 1.
    destruct (world_step (run evs) ev n) as [H|[[H (i & clock & H' & Hb)]|[(i & p & H & H')|(i & e & H & H' & Ho)]]]; rewrite ?H, ?H'.
    + intros Hd. apply Hold. exact Hd.
    + rewrite Hb. intros [].
    + cbn [in_broadcasts]. intros Hd. apply Hold. unfold GossipSpec.delivered_by. now rewrite H.
    + cbn [in_broadcasts]. intros Hd Hid.
      destruct (delivered_new (setup i) id (in_broadcasts i) e d (go_task _ Hg n i H) Hid Hd) as [Hd'|(env & peer & raw & b & dat & from & -> & Hin & -> & Hgen & Hx & Hst)].
      { apply Hold; [|exact Hid]. unfold GossipSpec.delivered_by. now rewrite H. }
      destruct Ho as (picks & rest & -> & Hr & Hnm & Hrd). destruct (proj2 Hu _ _ _ _ _ _ _ _ Hat Hr Hnm Hrd Hin) as (-> & k & ->).
      rewrite m_reads in Hrd. injection Hrd as <- <-. destruct (b0_genuine _ _ Hgen) as [-> ->]. split; [reflexivity|].
      exists peer. eexists. split; [|split].
      * rewrite run_last. unfold GossipSpec.sent_by. rewrite H', Hst. cbn [in_broadcasts accepted_state br_sent]. apply in_or_app. right. left. reflexivity.
      * intros x Hnb. destruct (proj1 Hfl _ _ _ _ _ i Hat Hr H) as (F1 & F3 & F4). pose proof (proj2 Hfl _ _ _ _ _ i Hat Hr H) as F2. apply all_chosen; auto.
      * apply has_more. destruct Hr as (_ & _ & _ & targets & Hk & _). apply (go_sent _ Hg peer targets). eapply nth_error_In, Hk.
Qed.

Theorem flood : forall evs origin n, punctual evs m date -> no_fec evs id -> proper_sends z overlay evs ->
  nothing_lost P z checks F react overlay keys evs m ->
  undisturbed P z checks F react overlay keys evs origin m id -> floods P z checks F react overlay keys evs m neighbours ->
  path (way overlay (run evs) m origin neighbours) origin n ->
  n = origin \/ In (mk_delivery id 1 data (node_id P (pub_of P secret))) (delivered_by (run evs) n).
Proof.
  intros evs origin n Hp Hf Hs Hl Hu Hfl. pose proof (flooded_run evs origin Hp Hf Hs Hu Hfl) as Hfd.
  assert (Hhas : forall x, has evs x id -> x = origin \/ In (mk_delivery id 1 data (node_id P (pub_of P secret))) (delivered_by (run evs) x)).
  { intros x [(d & Hd & Hid)|(w & e & Ht & Ha)].
    - right. destruct (Hfd x d Hd Hid) as [-> _]. exact Hd.
    - left. exact (proj1 Hu w e x Ht Ha). }
  induction 1 as [|b c Hb IH Hc]; [now left|]. destruct Hc as [[-> Hc]|[Hne Hc]].
  - apply Hhas. eapply passed_arrives; eassumption.
  - destruct IH as [IH|IH]; [contradiction|]. destruct (Hfd b _ IH eq_refl) as (_ & p & targets & H1 & H2 & H3).
    apply Hhas. destruct (H2 c Hc) as [->|Hin]; [exact H3|]. apply In_nth_error in H1 as (k & Hk).
    apply (passed_arrives evs b c Hp Hf Hs Hl). exists k, targets. auto.
Qed.
End world.

Theorem spreading : forall P z checks F react overlay keys packed secret data date evs,
  prims_ok P -> zstd_ok z -> hash_ok overlay -> date < 2 ^ 32 -> sendable z packed data ->
  unambiguous P z packed secret data date ->
  let m := the_message P z overlay packed secret data date in
  let id := the_id P data date in
  let at_time := at_time P z checks F react overlay keys evs in
  let has n := has P z checks F react overlay keys evs n id in
  let final := gossip_run P z checks F react overlay (gossip_start keys) evs in
  punctual P z checks F react overlay keys evs m date -> no_fec P z checks F react overlay keys evs id ->
  proper_sends z overlay evs ->
  (forall w e n peer picks, at_time w e -> receives overlay w e n peer m picks -> has n)
  /\ (forall n targets, In (targets, m) (sent_by overlay final n) -> has n)
  /\ (nothing_lost P z checks F react overlay keys evs m ->
      forall origin n, has origin -> path (passed overlay final m) origin n -> has n).
Proof.
  intros P z checks F react overlay keys packed secret data date evs HP Hz Hov Hd Hfit Hu m id attime has0 final Hp Hf Hs.
  split; [|split].
  - intros w e n peer picks Ht Hr. exact (arrives P z checks F react overlay keys packed secret data date HP Hz Hov Hd Hfit Hu evs w e n peer picks Hp Hf Hs Ht Hr).
  - intros n targets Hin. pose proof (good_run P z checks F react overlay keys packed secret data date HP Hz Hov Hd Hfit Hu evs Hp Hf Hs) as Hg.
    exact (go_sent _ _ _ _ _ _ _ _ _ _ _ _ Hg n targets Hin).
  - intros Hl origin n Ho Hpath.
    exact (spreads P z checks F react overlay keys packed secret data date HP Hz Hov Hd Hfit Hu evs origin n Hp Hf Hs Hl Ho Hpath).
Qed.

Theorem flooding : forall P z checks F react overlay keys packed secret data date neighbours evs origin n,
  prims_ok P -> zstd_ok z -> hash_ok overlay -> date < 2 ^ 32 -> sendable z packed data ->
  unambiguous P z packed secret data date ->
  let m := the_message P z overlay packed secret data date in
  let id := the_id P data date in
  let final := gossip_run P z checks F react overlay (gossip_start keys) evs in
  punctual P z checks F react overlay keys evs m date -> no_fec P z checks F react overlay keys evs id ->
  proper_sends z overlay evs -> nothing_lost P z checks F react overlay keys evs m ->
  undisturbed P z checks F react overlay keys evs origin m id ->
  floods P z checks F react overlay keys evs m neighbours ->
  path (way overlay final m origin neighbours) origin n ->
  n = origin \/ In (mk_delivery id 1 data (node_id P (pub_of P secret))) (delivered_by overlay final n).
Proof.
  intros P z checks F react overlay keys packed secret data date neighbours evs origin n HP Hz Hov Hd Hfit Hu m id final Hp Hf Hs Hl Hun Hfl Hpath.
  exact (flood P z checks F react overlay keys packed secret data date HP Hz Hov Hd Hfit Hu neighbours evs origin n Hp Hf Hs Hl Hun Hfl Hpath).
Qed.
