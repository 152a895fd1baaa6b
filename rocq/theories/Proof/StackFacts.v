(** RLDP over ADNL: messages attributed to the other one were sent by it. *)
From stdpp Require Import gmap.
From Coq Require Import NArith Lia.
From Verif.Base Require Import Bytes BytesFacts Res.
From Verif.Model Require Import Crypto Tl ProtoAdnl ProtoRldp Channel Peer AdnlNode Fec Compression Subscribers RldpTransfer RldpQuery RldpNode.
From Verif.Spec Require Import Codec CryptoSpec CompressionSpec FecSpec NodeSpec BystanderSpec RldpSpec RldpPairSpec PairSpec StackSpec.
From Verif.Proof Require Import ProtoFacts NodeAuth BystanderFacts PairFacts RldpPairFacts RldpOnceFacts.
Open Scope N_scope.

Lemma reads_back : forall m, message_part_ok m -> rldp_reads (put_message_part m) = Some m.
Proof.
  intros m H. unfold rldp_reads, deserialize. pose proof (message_part_reads m [] H) as E. rewrite app_nil_r in E.
  now rewrite E.
Qed.

Lemma exists_last_or_nil : forall A (l : list A), l = [] \/ exists l' z, l = l' ++ [z].
Proof. intros A l. destruct l as [|x l] using rev_ind; [now left|right; eauto]. Qed.

Section facts.
Context {E : Type} (P : prims) (fuel : nat) (a b : party) (w : rldp_world).
Variable HP : prims_ok P.
Variable Hab : parties_ok P a b.
Local Notation idw := (id_of_who P a b).
Local Notation stack := (stack (E:=E)).

(** A message for RLDP under way was sent by RLDP. *)
Definition letter_known (r : rldp_pair) (l : letter) : Prop :=
  forall d m, lt_message l = MCustom d -> rldp_reads d = Some m -> In (idw (other (lt_from l)), m) (sent_by r (lt_from l)).
Definition heard_known (r : rldp_pair) (h : who * bytes * message_part) : Prop :=
  snd (fst h) = idw (other (fst (fst h))) -> In (idw (fst (fst h)), snd h) (sent_by r (other (fst (fst h)))).

Lemma sent_step : forall r x (ev : rldp_event E), sent_by (pair_step w r (at_who x ev)) x = sent_by r x ++ sends w r x ev
  /\ sent_by (pair_step w r (at_who x ev)) (other x) = sent_by r (other x).
Proof.
  intros r x ev. unfold sends. destruct x; cbn [at_who pair_step];
    destruct (rldp_step _ _ _ _ _ _ ev) as [n out]; cbn [sent_by pick_who rp_from_alice rp_from_bob other];
    rewrite drop_app; split; reflexivity.
Qed.
Lemma sent_grows : forall r x y (ev : rldp_event E) m, In m (sent_by r y) -> In m (sent_by (pair_step w r (at_who x ev)) y).
Proof.
  intros r x y ev m H. destruct (sent_step r x ev) as [H1 H2]. destruct (who_cases y x) as [-> | ->].
  - rewrite H1. apply in_or_app. now left.
  - rewrite H2. exact H.
Qed.

Lemma says_letter : forall s x now m pr r, exchange P fuel a b s -> may_say P a b s x now m pr r ->
  exists l, pr_letters (says P a b s x now m pr r) = pr_letters s ++ [l] /\ lt_from l = x /\ lt_message l = m.
Proof.
  intros s x now m pr r Hs Hm. destruct (exchange_inv P fuel a b HP Hab s Hs) as (pp & tags & HI).
  destruct (inv_says P fuel a b HP Hab s pp tags x now m pr r HI Hm) as (pp' & tags' & l & k & q & c & n & _ & H1 & H2 & _ & H3 & _).
  exists l. auto.
Qed.

Lemma post_ok : forall x how out s r, exchange P fuel a b s -> may_post P fuel a b s x out how ->
  Forall (letter_known r) (pr_letters s) ->
  (forall y m, In (y, m) out -> In (y, m) (sent_by r x)) ->
  exchange P fuel a b (post P fuel a b s x out how) /\ Forall (letter_known r) (pr_letters (post P fuel a b s x out how)).
Proof.
  intros x how out. induction out as [|[to m] out IH]; intros s r Hs Hm Hl Ho; cbn [post may_post] in *; [auto|].
  destruct Hm as [[Hok Hm] Hrest]. unfold post_one in *. destruct (bytes_eqb to (idw (other x))) eqn:Eb.
  - apply bytes_eqb_eq in Eb. subst to. apply IH; [now apply ex_says|exact Hrest| |].
    + destruct (says_letter s x _ _ _ _ Hs Hm) as (l & -> & Hf & Hme). apply Forall_app. split; [exact Hl|].
      constructor; [|constructor]. intros d m' Hd Hr. rewrite Hme in Hd. unfold as_custom in Hd. injection Hd as <-.
      rewrite reads_back in Hr by exact Hok. injection Hr as <-. rewrite Hf. apply Ho. now left.
    + intros y m' H. apply Ho. now right.
  - apply IH; [now apply ex_else|exact Hrest|exact Hl|]. intros y m' H. apply Ho. now right.
Qed.

Lemma others_deliver : forall n x o d, ~ concerns P n o (idw x) (idw (other x)) -> In d (handed P fuel n o) ->
  forall h, In h (for_rldp x d) -> snd (fst h) <> idw (other x).
Proof.
  intros n x o d Hc Hd h Hh. destruct o as [| | |now data f rs| |]; cbn [handed] in Hd; try (now destruct Hd).
  destruct (handle_received_data P fuel n now data f rs) as [[o ds] n'] eqn:Eh. cbn [fst snd] in Hd.
  destruct (deliveries_attributed P fuel n now data f rs o ds n' d Eh Hd) as (l & i & ct & pk & [m Hm] & Hp & Hfrom).
  destruct m; cbn [delivered_as] in Hm; try discriminate Hm; injection Hm as <-; cbn [for_rldp] in Hh; try (now destruct Hh).
  destruct (rldp_reads data0) as [m'|]; [|now destruct Hh]. destruct Hh as [<-|[]]. cbn [fst snd].
  intros ->. apply Hc. cbn [concerns]. destruct Hfrom as [(H1 & _)|(H1 & H2)].
  - right. eauto.
  - left. exists l, ct, pk. split; [exact H1|]. split; [exact Hp|]. unfold names.
    destruct (ip_from pk) as [k|].
    + destruct H2 as (key & -> & Hi & Hsig). split; [exists key; auto|]. intros k' Hk. injection Hk as <-. exact Hsig.
    + split; [exact H2|]. intros k' Hk. discriminate Hk.
Qed.

Record good_stack (s : stack) : Prop := {
  gs_rldp : sk_rldp s = pair_run w rldp_pair_new (sk_events s);
  gs_net : exchange P fuel a b (sk_net s);
  gs_letters : Forall (letter_known (sk_rldp s)) (pr_letters (sk_net s));
  gs_heard : Forall (heard_known (sk_rldp s)) (sk_heard s);
  gs_events : forall x m pre post, sk_events s = pre ++ at_who x (NMessage (idw (other x)) m) :: post ->
    In (idw x, m) (sent_by (pair_run w rldp_pair_new pre) (other x)) }.

Lemma run_snoc : forall s (evs : list (pair_event E)) ev, pair_run w s (evs ++ [ev]) = pair_step w (pair_run w s evs) ev.
Proof. intros s evs ev. unfold pair_run. now rewrite fold_left_app. Qed.

Lemma letter_step : forall r x (ev : rldp_event E) l, letter_known r l -> letter_known (pair_step w r (at_who x ev)) l.
Proof. intros r x ev l H d m H1 H2. apply sent_grows. exact (H d m H1 H2). Qed.
Lemma heard_step : forall r x (ev : rldp_event E) h, heard_known r h -> heard_known (pair_step w r (at_who x ev)) h.
Proof. intros r x ev h H H1. apply sent_grows. exact (H H1). Qed.

Lemma does_good : forall s x ev how heard, good_stack s -> may_post P fuel a b (sk_net s) x (sends w (sk_rldp s) x ev) how ->
  (forall h, In h heard -> In h (sk_heard s)) ->
  (forall m, ev = NMessage (idw (other x)) m -> In (idw x, m) (sent_by (sk_rldp s) (other x))) ->
  good_stack (rldp_does P fuel a b w s x ev how heard).
Proof.
  intros s x ev how heard [G1 G2 G3 G4 G5] Hm Hh Hn. unfold rldp_does.
  destruct (post_ok x how (sends w (sk_rldp s) x ev) (sk_net s) (pair_step w (sk_rldp s) (at_who x ev)) G2 Hm) as [H1 H2].
  { eapply Forall_impl; [exact G3|]. intros l. apply letter_step. }
  { intros y m H. rewrite (proj1 (sent_step _ _ _)). apply in_or_app. now right. }
  constructor; cbn [sk_net sk_rldp sk_heard sk_events].
  - rewrite run_snoc. now rewrite <- G1.
  - exact H1.
  - exact H2.
  - apply List.Forall_forall. intros h H. apply heard_step. rewrite List.Forall_forall in G4. apply G4, Hh, H.
  - intros y m pre post He. destruct (exists_last_or_nil _ post) as [->|(post' & z & ->)].
    + apply app_inj_tail in He as [<- Hev]. rewrite <- G1.
      assert (Hxy : x = y) by (destruct x, y; cbn [at_who] in Hev; congruence). subst y.
      apply Hn. destruct x; cbn [at_who] in Hev; injection Hev as ->; reflexivity.
    + rewrite app_comm_cons, app_assoc in He. apply app_inj_tail in He as [He _]. exact (G5 y m pre post' He).
Qed.

Lemma adnl_good : forall s net heard, good_stack s -> exchange P fuel a b net ->
  Forall (letter_known (sk_rldp s)) (pr_letters net) -> Forall (heard_known (sk_rldp s)) heard ->
  good_stack (adnl_does s net heard).
Proof.
  intros s net heard [G1 G2 G3 G4 G5] H1 H2 H3. unfold adnl_does.
  constructor; cbn [sk_net sk_rldp sk_heard sk_events]; try assumption. apply Forall_app. auto.
Qed.

Lemma step_good : forall s c, good_stack s -> may_act P fuel a b w s c -> good_stack (stack_step P fuel a b w s c).
Proof.
  intros s c G Hm. pose proof G as [G1 G2 G3 G4 G5].
  destruct c as [x ev how|k how|x now m pr r|i now fresh rs|x o]; cbn [stack_step may_act] in *.
  - apply does_good; [exact G|destruct ev; try exact Hm; destruct Hm|auto|].
    intros m ->. destruct Hm.
  - destruct (nth_error (sk_heard s) k) as [[[x peer] m]|] eqn:Ek; [|exact G].
    apply does_good; [exact G|now apply Hm| |].
    + intros h H. apply in_app_or in H as [H|H].
      * rewrite <- (firstn_skipn k). apply in_or_app. now left.
      * rewrite <- (firstn_skipn (S k)). apply in_or_app. now right.
    + intros m' H. injection H as -> ->. apply nth_error_In in Ek. rewrite List.Forall_forall in G4.
      apply (G4 _ Ek). reflexivity.
  - destruct Hm as [Hs Hn]. apply adnl_good; [exact G|now apply ex_says| |constructor].
    destruct (says_letter (sk_net s) x now m pr r G2 Hs) as (l & -> & Hf & Hme). apply Forall_app. split; [exact G3|].
    constructor; [|constructor]. intros d m' Hd Hr. rewrite <- Hme, Hd in Hn. congruence.
  - destruct (nth_error (pr_letters (sk_net s)) i) as [l|] eqn:Ei; [|exact G].
    specialize (Hm l eq_refl). assert (Hg : may_get a b (sk_net s) i l now) by (split; assumption).
    destruct (exchange_inv P fuel a b HP Hab _ G2) as (pp & tags & HI).
    destruct (letter_tag P a b _ pp tags i l HI Ei) as ([[v pr] q] & Ht & -> & cc & kk & Hl).
    pose proof (inv_gets P fuel a b HP Hab _ pp tags i l now fresh rs pr q cc kk HI Hg Ht Hl) as HG. cbv zeta in HG.
    destruct HG as (pp' & ds & n' & known & HI' & _ & Harr & _).
    destruct (letters_arrive P fuel a b HP Hab _ i l now fresh rs G2 Hg) as (ds2 & n2 & Harr2 & Hds & _).
    apply adnl_good; [exact G|now apply ex_gets| |].
    + unfold gets, changed. cbn [pr_letters]. apply Forall_app. split; [exact G3|].
      apply List.Forall_forall. intros z Hz. apply in_map_iff in Hz as (y & <- & _). intros d m H. discriminate H.
    + rewrite Harr2. cbn [fst snd]. apply List.Forall_forall. intros h Hh. apply in_flat_map in Hh as (d & Hd & Hh).
      destruct Hds as [-> | ->]; [|destruct Hd]. unfold shown in Hd.
      destruct (lt_message l) as [q0 a0|data|k0 p0 d0|h0 t0 o0 d0|k0 d0|q0 d0| |d0] eqn:Em; cbn [delivered_as] in Hd; try (now destruct Hd);
        destruct Hd as [<-|[]]; cbn [for_rldp] in Hh; try (now destruct Hh).
      destruct (rldp_reads data) as [m|] eqn:Er; [|now destruct Hh]. destruct Hh as [<-|[]].
      unfold heard_known. cbn [fst snd]. intros _. rewrite other_other.
      rewrite List.Forall_forall in G3. exact (G3 l (nth_error_In _ _ Ei) data m Em Er).
  - apply adnl_good; [exact G|now apply ex_else|exact G3|].
    apply List.Forall_forall. intros h Hh. apply in_flat_map in Hh as (d & Hd & Hh).
    intros Hp. exfalso. assert (Hx : fst (fst h) = x).
    { destruct d; cbn [for_rldp] in Hh; try (now destruct Hh). destruct (rldp_reads data); [|now destruct Hh].
      now destruct Hh as [<-|[]]. }
    rewrite Hx in Hp. exact (others_deliver (node_of (sk_net s) x) x o d (proj1 Hm) Hd h Hh Hp).
Qed.

Lemma start_good : good_stack (stack_start P a b).
Proof.
  constructor; cbn [stack_start sk_net sk_rldp sk_heard sk_events].
  - reflexivity.
  - apply ex_start.
  - constructor.
  - constructor.
  - intros x m pre post H. destruct pre; discriminate H.
Qed.
Lemma run_good : forall acts s, good_stack s -> may_run P fuel a b w s acts -> good_stack (stack_run P fuel a b w s acts).
Proof.
  induction acts as [|c acts IH]; intros s G Hm; [exact G|]. destruct Hm as [H1 H2].
  change (stack_run P fuel a b w s (c :: acts)) with (stack_run P fuel a b w (stack_step P fuel a b w s c) acts).
  apply IH; [now apply step_good|exact H2].
Qed.

Lemma stack_authentic : forall (acts : list (act (E:=E))), may_run P fuel a b w (stack_start P a b) acts ->
  let s := stack_run P fuel a b w (stack_start P a b) acts in
  sk_rldp s = pair_run w rldp_pair_new (sk_events s)
  /\ forall x m pre post, sk_events s = pre ++ at_who x (NMessage (idw (other x)) m) :: post ->
     In (idw x, m) (sent_by (pair_run w rldp_pair_new pre) (other x)).
Proof. intros acts Hm s. destruct (run_good acts _ start_good Hm) as [G1 _ _ _ G5]. auto. Qed.

Lemma private_app : forall i (l1 l2 : list (pair_event E)) s,
  private_run w i s (l1 ++ l2) <-> private_run w i s l1 /\ private_run w i (pair_run w s l1) l2.
Proof.
  intros i l1. induction l1 as [|ev l1 IH]; intros l2 s; cbn [private_run app].
  - tauto.
  - rewrite IH. change (pair_run w s (ev :: l1)) with (pair_run w (pair_step w s ev) l1). tauto.
Qed.

Lemma stack_private : forall (acts : list (act (E:=E))) i evs rest, same_names P a b w -> may_run P fuel a b w (stack_start P a b) acts ->
  forall before, sk_events (stack_run P fuel a b w (stack_start P a b) acts) = before ++ evs ++ rest ->
  Forall (only_theirs w i) evs -> private_run w i (pair_run w rldp_pair_new before) evs.
Proof.
  intros acts i evs rest [N1 N2] Hm before He Ho. destruct (stack_authentic acts Hm) as [_ Hauth].
  revert before He. induction evs as [|ev evs IH]; intros before He; [exact I|].
  pose proof (Forall_inv Ho) as Ho1. pose proof (Forall_inv_tail Ho) as Ho2. cbn [private_run]. split.
  - destruct ev as [ev|ev]; destruct ev; try exact Ho1; cbn [only_theirs private] in *; intros Hq; specialize (Ho1 Hq); subst peer.
    + split; [reflexivity|]. rewrite N1. rewrite N2 in He. exact (Hauth Alice m before (evs ++ rest) He).
    + split; [reflexivity|]. rewrite N2. rewrite N1 in He. exact (Hauth Bob m before (evs ++ rest) He).
  - rewrite <- run_snoc. apply IH; [exact Ho2|]. now rewrite <- app_assoc.
Qed.

Lemma stack_genuine : forall (acts : list (act (E:=E))) i qid now p given, same_names P a b w -> world_ok w -> hash_ok i -> hash_ok qid ->
  u64_ok (ro_max_answer (rw_alice w)) -> blob_ok (sent_payload (rw_zstd w) (ro_force (rw_alice w)) p) ->
  (forall ans, given = Ok (Processed (Some ans)) -> blob_ok (on_the_wire w p ans)) ->
  may_run P fuel a b w (stack_start P a b) acts ->
  let s := stack_run P fuel a b w (stack_start P a b) acts in
  forall pre post, sk_events s = pre ++ AtAlice (NQuery (rw_bob_id w) i qid now p) :: post ->
  Forall (only_theirs w i) pre -> Forall (only_theirs w i) post -> bob_gives (as_asked w p) given post ->
  forall ans, alice_result w (sk_rldp s) (length (rn_queries (rp_alice (pair_run w rldp_pair_new pre)))) = Some (RAnswered ans) ->
  exists a0, given = Ok (Processed (Some a0)) /\ ans = as_answered w p a0 /\ bob_asked w (sk_rldp s) i (as_asked w p).
Proof.
  intros acts i qid now p given Hn Hw Hi Hq Hu Hb Hg Hm s pre post He H1 H2 Hgive ans Hres.
  destruct (stack_authentic acts Hm) as [Hr _]. fold s in Hr.
  assert (Hs : sk_rldp s = pair_run w (pair_step (E:=E) w (pair_run w rldp_pair_new pre) (AtAlice (NQuery (rw_bob_id w) i qid now p))) post).
  { rewrite Hr, He. unfold pair_run. rewrite fold_left_app. reflexivity. }
  rewrite Hs in *.
  refine (rldp_end_to_end E w i qid now p given pre post Hw Hi Hq Hu Hb Hg _ _ Hgive ans Hres).
  - apply (stack_private acts i pre (AtAlice (NQuery (rw_bob_id w) i qid now p) :: post) Hn Hm []); [exact He|exact H1].
  - rewrite <- run_snoc.
    apply (stack_private acts i post [] Hn Hm); [|exact H2]. rewrite app_nil_r, <- app_assoc. exact He.
Qed.

Lemma stack_once : forall (acts : list (act (E:=E))) i qid now p, same_names P a b w -> world_ok w -> hash_ok i ->
  may_run P fuel a b w (stack_start P a b) acts ->
  let s := stack_run P fuel a b w (stack_start P a b) acts in
  forall pre post, sk_events s = pre ++ AtAlice (NQuery (rw_bob_id w) i qid now p) :: post ->
  Forall (only_theirs w i) pre -> Forall (only_theirs w i) post ->
  ~ bob_forgot (sk_rldp s) i -> (bob_calls (sk_rldp s) i <= 1)%nat.
Proof.
  intros acts i qid now p Hn Hw Hi Hm s pre post He H1 H2 Hf.
  destruct (stack_authentic acts Hm) as [Hr _]. fold s in Hr.
  assert (Hs : sk_rldp s = pair_run w (pair_step (E:=E) w (pair_run w rldp_pair_new pre) (AtAlice (NQuery (rw_bob_id w) i qid now p))) post).
  { rewrite Hr, He. unfold pair_run. rewrite fold_left_app. reflexivity. }
  rewrite Hs in *.
  refine (rldp_at_most_once E w i qid now p pre post Hw Hi _ _ Hf).
  - apply (stack_private acts i pre (AtAlice (NQuery (rw_bob_id w) i qid now p) :: post) Hn Hm []); [exact He|exact H1].
  - rewrite <- run_snoc.
    apply (stack_private acts i post [] Hn Hm); [|exact H2]. rewrite app_nil_r, <- app_assoc. exact He.
Qed.
End facts.
