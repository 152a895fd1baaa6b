(** RLDP over ADNL: every message of RLDP can arrive. *)
From stdpp Require Import gmap.
From Coq Require Import NArith Lia.
From Coq Require Import ZifyBool ZifyNat ZifyN.
From Verif.Base Require Import Bytes BytesFacts Res.
From Verif.Model Require Import Crypto Tl ProtoAdnl ProtoRldp Channel Peer AdnlNode Fec Compression Subscribers RldpTransfer RldpQuery RldpNode.
From Verif.Spec Require Import Codec CryptoSpec CompressionSpec FecSpec NodeSpec BystanderSpec RldpSpec RldpPairSample RldpPairSpec PairSpec StackSpec StackPlay.
From Verif.Proof Require Import ProtoFacts PairFacts RldpLiveFacts StackFacts.
Open Scope N_scope.

Lemma NoDup_app_inv_r : forall A (l1 l2 : list A), List.NoDup (l1 ++ l2) -> List.NoDup l2.
Proof. intros A l1. induction l1 as [|x l1 IH]; intros l2 H; [exact H|]. apply NoDup_cons_iff in H as [_ H]. now apply IH. Qed.

Section live.
Context {E : Type} (P : prims) (fuel : nat) (a b : party) (w : rldp_world) (T : N) (r0 : rnd).
Variable HP : prims_ok P.
Variable Hab : parties_ok P a b.
Variable Hnames : same_names P a b w.
Variable Hva : o_version (pa_opts a) = Some 0.
Variable Hvb : o_version (pa_opts b) = Some 0.
Variable HT : u32_ok T.
Variable Hr0 : length (r_bytes r0) = 10%nat.
Local Notation idw := (id_of_who P a b).
Local Notation party x := (pick_who x a b).
Variable Hclock : forall x, pa_start (party x) <= T + o_clock_tolerance (pa_opts (party (other x)))
  /\ T + o_address_list_timeout (pa_opts (party x)) < 2 ^ 32.
Local Notation stack := (stack (E:=E)).

Local Notation fine_out := (fine_out P a b).
Local Notation fine_run := (fine_run P a b w).
Local Notation outs_of := (outs_of (E:=E) w).
Definition pending := (who * nat * nat)%type.
Definition pends (r : rldp_pair) (s : pair) (pend : list pending) : Prop :=
  List.NoDup (map snd pend)
  /\ forall x k i, In (x, k, i) pend -> exists l m, nth_error (pr_letters s) i = Some l /\ lt_from l = x /\ lt_time l = T
     /\ lt_message l = as_custom m /\ nth_error (sent_by r x) k = Some (idw (other x), m) /\ message_part_ok m /\ ~ In i (pr_seen s).

Lemma may_say_now : forall s x m, small_payload m -> N.of_nat (length (pr_letters s)) < 2 ^ 62 ->
  may_say P a b s x T m false r0.
Proof.
  intros s x m Hm Hl. split; [exact HT|]. split; [exact Hm|]. split; [exact Hr0|]. split; [exact Hl|].
  apply List.Forall_forall. intros l _ Hv. exfalso. destruct (lt_from l); cbn [pick_who] in Hv; congruence.
Qed.

Lemma says_effect : forall s x m, exchange P fuel a b s -> may_say P a b s x T m false r0 ->
  exists l, pr_letters (says P a b s x T m false r0) = pr_letters s ++ [l] /\ lt_from l = x /\ lt_message l = m /\ lt_time l = T
  /\ pr_seen (says P a b s x T m false r0) = pr_seen s.
Proof.
  intros s x m Hs Hm. destruct (exchange_inv P fuel a b HP Hab s Hs) as (pp & tags & HI).
  destruct (inv_says P fuel a b HP Hab s pp tags x T m false r0 HI Hm) as (pp' & tags' & l & k & q & c & n & _ & H1 & H2 & H4 & H3 & H5).
  exists l. auto.
Qed.
Lemma seen_bound : forall s i, exchange P fuel a b s -> In i (pr_seen s) -> (i < length (pr_letters s))%nat.
Proof.
  induction 1 as [|s x now m pr r Hs IH Hm|s j l now fresh rs Hs IH Hg|s x o Hs IH Hm].
  - intros [].
  - unfold says, changed. cbn [pr_seen pr_letters]. intros Hi. rewrite app_length. specialize (IH Hi). lia.
  - unfold gets, changed. cbn [pr_seen pr_letters]. rewrite app_length. intros [<-|Hi].
    + apply Nat.lt_le_trans with (length (pr_letters s)); [|lia]. apply nth_error_Some. rewrite (proj1 Hg). discriminate.
    + specialize (IH Hi). lia.
  - exact IH.
Qed.

Lemma post_live : forall r x out s pend k0, exchange P fuel a b s -> pends r s pend -> List.Forall (fine_out x) out ->
  skipn k0 (sent_by r x) = out -> N.of_nat (length (pr_letters s) + length out) < 2 ^ 62 ->
  let how := fun _ : nat => (T, r0) in
  let s' := post P fuel a b s x out how in
  may_post P fuel a b s x out how /\ exchange P fuel a b s'
  /\ length (pr_letters s') = (length (pr_letters s) + length out)%nat
  /\ exists pend', pends r s' pend' /\ incl pend pend'
     /\ forall k, (k0 <= k < length (sent_by r x))%nat -> exists i, In (x, k, i) pend'.
Proof.
  intros r x out. induction out as [|[to m] out IH]; intros s pend k0 Hs Hp Hf Hsk Hb how s'; subst how s'; cbn [post may_post].
  - split; [exact I|]. split; [exact Hs|]. split; [cbn [length]; lia|]. exists pend. split; [exact Hp|]. split; [now intros ?|].
    intros k Hk. exfalso. assert (length (skipn k0 (sent_by r x)) = 0%nat) by (now rewrite Hsk).
    rewrite skipn_length in H. lia.
  - pose proof (Forall_inv Hf) as (F1 & F2 & F3). pose proof (Forall_inv_tail Hf) as Hf2. cbn [fst snd] in F1, F2, F3.
    assert (Hone : forall h, post_one P fuel a b s x to m h = says P a b s x (fst h) (as_custom m) false (snd h)).
    { intros h. unfold post_one. now rewrite F1, bytes_eqb_refl. }
    rewrite Hone. cbn [fst snd].
    assert (Hsay : may_say P a b s x T (as_custom m) false r0).
    { apply may_say_now; [exact F3|]. cbn [length] in Hb. lia. }
    destruct (says_effect s x (as_custom m) Hs Hsay) as (l & L1 & L2 & L3 & L4 & L5).
    set (s1 := says P a b s x T (as_custom m) false r0) in *.
    assert (Hs1 : exchange P fuel a b s1) by (now apply ex_says).
    assert (Hnth : nth_error (sent_by r x) k0 = Some (to, m)).
    { rewrite <- (firstn_skipn k0 (sent_by r x)). rewrite Hsk.
      assert (Hk : (k0 < length (sent_by r x))%nat).
      { destruct (Nat.lt_ge_cases k0 (length (sent_by r x))) as [G|G]; [exact G|]. rewrite skipn_all2 in Hsk by exact G. discriminate Hsk. }
      rewrite nth_error_app2; rewrite firstn_length_le by lia; [now rewrite Nat.sub_diag|lia]. }
    assert (Hsk1 : skipn (S k0) (sent_by r x) = out).
    { rewrite <- (firstn_skipn k0 (sent_by r x)) at 1. rewrite Hsk.
      assert (Hk : (k0 < length (sent_by r x))%nat) by (apply nth_error_Some; rewrite Hnth; discriminate).
      rewrite skipn_app, firstn_length_le by lia. rewrite skipn_all2 by (rewrite firstn_length_le; lia).
      replace (S k0 - k0)%nat with 1%nat by lia. reflexivity. }
    destruct Hp as [Hnd Hin].
    assert (Hp1 : pends r s1 (pend ++ [(x, k0, length (pr_letters s))])).
    { split.
      - rewrite map_app. cbn [map snd]. apply NoDup_ListNoDup. apply NoDup_app. split; [now apply NoDup_ListNoDup|]. split.
        + intros i Hi Hi2. apply elem_of_list_singleton in Hi2. subst i. apply elem_of_list_In, in_map_iff in Hi as ([[y k] i] & Hi & Hy).
          cbn [snd] in Hi. subst i. destruct (Hin y k _ Hy) as (l' & m' & H & _).
          assert (length (pr_letters s) < length (pr_letters s))%nat by (apply nth_error_Some; rewrite H; discriminate). lia.
        + apply NoDup_singleton.
      - intros y k i Hy. rewrite L1, L5. apply in_app_or in Hy as [Hy|[Hy|[]]].
        + destruct (Hin y k i Hy) as (l' & m' & H1 & H2 & H3 & H4 & H5 & H6). exists l', m'.
          split; [|auto]. rewrite nth_error_app1; [exact H1|]. apply nth_error_Some. rewrite H1. discriminate.
        + injection Hy as <- <- <-. exists l, m. split.
          { rewrite nth_error_app2 by lia. now rewrite Nat.sub_diag. }
          split; [exact L2|]. split; [exact L4|]. split; [exact L3|]. split; [now rewrite Hnth, F1|]. split; [exact F2|].
          intros H. apply (seen_bound s _ Hs) in H. lia. }
    assert (Hlen : length (pr_letters s1) = S (length (pr_letters s))) by (rewrite L1, app_length; cbn [length]; lia).
    cbn [length] in Hb.
    destruct (IH s1 _ (S k0) Hs1 Hp1 Hf2 Hsk1 ltac:(rewrite Hlen; lia)) as (M & X & Len & pend' & Q1 & Q2 & Q3).
    split; [split; [|exact M]|].
    { split; [exact F2|]. rewrite F1, bytes_eqb_refl. exact Hsay. }
    split; [exact X|]. split; [rewrite Len, Hlen; cbn [length]; lia|]. exists pend'. split; [exact Q1|].
    split; [intros z Hz; apply Q2, in_or_app; now left|].
    intros k Hk. destruct (Nat.eq_dec k k0) as [->|Hne]; [|apply Q3; lia].
    exists (length (pr_letters s)). apply Q2, in_or_app. right. now left.
Qed.

Definition covered (r : rldp_pair) (cs : list (command E)) (pend : list pending) : Prop :=
  forall x k, In (x, k) (targets cs) -> (k < length (sent_by r x))%nat -> exists i, In (x, k, i) pend.

Lemma at_who_of : forall ev : pair_event E, at_who (fst (at_of ev)) (snd (at_of ev)) = ev.
Proof. now intros []. Qed.
Lemma total_step : forall r (ev : pair_event E), total_sent (pair_step w r ev) = (total_sent r + length (outs_of r ev))%nat.
Proof.
  intros r ev. destruct (sent_step (E:=E) w r (fst (at_of ev)) (snd (at_of ev))) as [H1 H2]. rewrite at_who_of in *.
  unfold StackPlay.outs_of, total_sent. destruct ev as [ev|ev]; cbn [at_of fst snd other sent_by pick_who] in *; rewrite H1, H2, app_length; lia.
Qed.
Lemma total_grows : forall (cs : list (command E)) r, (total_sent r <= total_sent (play w r cs))%nat.
Proof.
  induction cs as [|c cs IH]; intros r; [unfold play, pair_run; cbn; lia|]. rewrite play_cons.
  destruct (event_of w r c) as [ev|]; [|apply IH]. specialize (IH (pair_step w r ev)). rewrite total_step in IH. lia.
Qed.

Record ready_stack (s : stack) (pend : list pending) : Prop := {
  rs_good : good_stack P fuel a b w s;
  rs_pends : pends (sk_rldp s) (sk_net s) pend }.

Lemma pends_grow : forall r r' s pend, pends r s pend -> (forall x k e, nth_error (sent_by r x) k = Some e -> nth_error (sent_by r' x) k = Some e) ->
  pends r' s pend.
Proof.
  intros r r' s pend [H1 H2] Hg. split; [exact H1|]. intros x k i Hi.
  destruct (H2 x k i Hi) as (l & m & A1 & A2 & A3 & A4 & A5 & A6). exists l, m. auto 10.
Qed.
Lemma sent_kept : forall r (ev : pair_event E) x k e, nth_error (sent_by r x) k = Some e -> nth_error (sent_by (pair_step w r ev) x) k = Some e.
Proof.
  intros r ev x k e H. destruct (sent_step (E:=E) w r (fst (at_of ev)) (snd (at_of ev))) as [H1 H2]. rewrite at_who_of in *.
  destruct (who_cases x (fst (at_of ev))) as [-> | ->].
  - rewrite H1. rewrite nth_error_app1; [exact H|]. apply nth_error_Some. rewrite H. discriminate.
  - rewrite H2. exact H.
Qed.

Lemma does_live : forall s pend x ev heard, ready_stack s pend -> List.Forall (fine_out x) (sends w (sk_rldp s) x ev) ->
  N.of_nat (length (pr_letters (sk_net s)) + length (sends w (sk_rldp s) x ev)) < 2 ^ 62 ->
  (forall h, In h heard -> In h (sk_heard s)) ->
  (forall m, ev = NMessage (idw (other x)) m -> In (idw x, m) (sent_by (sk_rldp s) (other x))) ->
  let how := fun _ : nat => (T, r0) in
  let s' := rldp_does P fuel a b w s x ev how heard in
  may_post P fuel a b (sk_net s) x (sends w (sk_rldp s) x ev) how
  /\ length (pr_letters (sk_net s')) = (length (pr_letters (sk_net s)) + length (sends w (sk_rldp s) x ev))%nat
  /\ exists pend', ready_stack s' pend' /\ incl pend pend'
     /\ forall y k, (length (sent_by (sk_rldp s) y) <= k < length (sent_by (sk_rldp s') y))%nat -> exists i, In (y, k, i) pend'.
Proof.
  intros s pend x ev heard [G Hp] Hf Hb Hh Hn how s'.
  pose proof (sent_step (E:=E) w (sk_rldp s) x ev) as [S1 S2].
  set (r' := pair_step w (sk_rldp s) (at_who x ev)) in *.
  assert (Hp' : pends r' (sk_net s) pend).
  { apply (pends_grow (sk_rldp s)); [exact Hp|]. intros y k e H. now apply sent_kept. }
  assert (Hsk : skipn (length (sent_by (sk_rldp s) x)) (sent_by r' x) = sends w (sk_rldp s) x ev) by reflexivity.
  pose proof (post_live r' x _ (sk_net s) pend _ (gs_net _ _ _ _ _ _ G) Hp' Hf Hsk Hb) as HL. cbv zeta in HL.
  destruct HL as (M & X & Len & pend' & Q1 & Q2 & Q3).
  split; [exact M|]. split; [exact Len|]. exists pend'. split; [split|].
  - now apply does_good.
  - exact Q1.
  - split; [exact Q2|]. intros y k Hk. cbn [s' rldp_does sk_rldp] in Hk. fold r' in Hk.
    destruct (who_cases y x) as [-> | ->]; [now apply Q3|]. rewrite S2 in Hk. lia.
Qed.

Lemma arrive_live : forall s pend x k i m, ready_stack s pend -> In (x, k, i) pend ->
  nth_error (sent_by (sk_rldp s) x) k = Some (idw (other x), m) ->
  let c := AArrive i T (r_bytes r0) (fun _ => r0) in
  let s' := stack_step P fuel a b w s c in
  may_act P fuel a b w s c
  /\ sk_rldp s' = sk_rldp s /\ sk_events s' = sk_events s /\ sk_heard s' = sk_heard s ++ [(other x, idw x, m)]
  /\ pr_letters (sk_net s') = pr_letters (sk_net s)
  /\ ready_stack s' (List.filter (fun e => negb (Nat.eqb (snd e) i)) pend).
Proof.
  intros s pend x k i m [G [Hnd Hin]] Hi Hm c s'.
  destruct (Hin x k i Hi) as (l & m' & L1 & L2 & L3 & L4 & L5 & Hok & L6).
  rewrite Hm in L5. injection L5 as <-.
  assert (Htime : timely a b l T).
  { unfold timely. rewrite L2, L3. destruct (Hclock x) as [C1 C2]. repeat split; [exact C1|lia|exact C2]. }
  assert (Hact : may_act P fuel a b w s c).
  { cbn [may_act c]. intros l' Hl'. rewrite L1 in Hl'. injection Hl' as <-. exact Htime. }
  pose proof (gs_net _ _ _ _ _ _ G) as Hx.
  assert (Hg : may_get a b (sk_net s) i l T) by (split; assumption).
  destruct (letters_arrive P fuel a b HP Hab _ i l T (r_bytes r0) (fun _ => r0) Hx Hg) as (ds & n' & Harr & _ & Hnew & _).
  specialize (Hnew L6).
  destruct (exchange_inv P fuel a b HP Hab _ Hx) as (pp & tags & HI).
  destruct (letter_tag P a b _ pp tags i l HI L1) as ([[v pr] q] & Ht & -> & cc & kk & Hl).
  pose proof (inv_gets P fuel a b HP Hab _ pp tags i l T (r_bytes r0) (fun _ => r0) pr q cc kk HI Hg Ht Hl) as HG. cbv zeta in HG.
  destruct HG as (pp' & ds2 & n2 & known & _ & _ & _ & _ & _ & _ & _ & _ & Hlet & Hseen).
  assert (Hs' : s' = adnl_does s (gets P fuel (sk_net s) i l T (r_bytes r0) (fun _ => r0)) [(other x, idw x, m)]).
  { unfold s', c. cbn [stack_step]. rewrite L1, Harr. cbn [fst snd]. rewrite Hnew. unfold shown. rewrite L4, L2.
    unfold as_custom. cbn [delivered_as flat_map for_rldp]. rewrite reads_back by exact Hok. reflexivity. }
  split; [exact Hact|]. rewrite Hs'. cbn [adnl_does sk_rldp sk_events sk_heard sk_net].
  split; [reflexivity|]. split; [reflexivity|]. split; [reflexivity|]. split; [exact Hlet|].
  split.
  - rewrite <- Hs'. unfold s'. now apply step_good.
  - cbn [adnl_does sk_rldp sk_net]. split.
    + assert (HF : forall l : list pending, List.NoDup (map snd l) -> List.NoDup (map snd (List.filter (fun e => negb (Nat.eqb (snd e) i)) l))).
      { induction l0 as [|z l0 IH]; intros Hd; [constructor|]. cbn [map List.filter] in *. apply NoDup_cons_iff in Hd as [Hd1 Hd2].
        destruct (negb (Nat.eqb (snd z) i)); [|now apply IH]. cbn [map]. apply NoDup_cons_iff. split; [|now apply IH].
        intros H. apply Hd1. apply in_map_iff in H as (z' & Hz & H). apply filter_In in H as [H _]. apply in_map_iff. eauto. }
      now apply HF.
    + intros y k' i' Hy. apply filter_In in Hy as [Hy Hne]. cbn [snd] in Hne.
      destruct (Hin y k' i' Hy) as (l2 & m2 & A1 & A2 & A3 & A4 & A5 & A6 & A7). exists l2, m2. rewrite Hlet, Hseen.
      repeat (split; [assumption|]). intros [H|H]; [|contradiction]. subst i'. rewrite Nat.eqb_refl in Hne. discriminate Hne.
Qed.

Lemma run_app : forall (l1 l2 : list (act (E:=E))) s, stack_run P fuel a b w s (l1 ++ l2) = stack_run P fuel a b w (stack_run P fuel a b w s l1) l2.
Proof. intros l1 l2 s. unfold stack_run. apply fold_left_app. Qed.
Lemma may_app : forall (l1 l2 : list (act (E:=E))) s, may_run P fuel a b w s l1 -> may_run P fuel a b w (stack_run P fuel a b w s l1) l2 ->
  may_run P fuel a b w s (l1 ++ l2).
Proof.
  induction l1 as [|c l1 IH]; intros l2 s H1 H2; [exact H2|]. destruct H1 as [H1 H3]. cbn [app may_run].
  split; [exact H1|]. now apply IH.
Qed.

(** One message of RLDP arrives and is handled. *)
Lemma deliver_live : forall s pend x k i m, ready_stack s pend -> In (x, k, i) pend ->
  nth_error (sent_by (sk_rldp s) x) k = Some (idw (other x), m) ->
  let ev := NMessage (idw x) m in
  List.Forall (fine_out (other x)) (sends w (sk_rldp s) (other x) ev) ->
  N.of_nat (length (pr_letters (sk_net s)) + length (sends w (sk_rldp s) (other x) ev)) < 2 ^ 62 ->
  exists acts pend', may_run P fuel a b w s acts
  /\ let s' := stack_run P fuel a b w s acts in
     sk_rldp s' = pair_step w (sk_rldp s) (at_who (other x) ev)
     /\ sk_events s' = sk_events s ++ [at_who (other x) ev]
     /\ length (pr_letters (sk_net s')) = (length (pr_letters (sk_net s)) + length (sends w (sk_rldp s) (other x) ev))%nat
     /\ ready_stack s' pend'
     /\ (forall y k' j, In (y, k', j) pend -> (y, k') <> (x, k) -> In (y, k', j) pend')
     /\ forall y k', (length (sent_by (sk_rldp s) y) <= k' < length (sent_by (sk_rldp s') y))%nat -> exists j, In (y, k', j) pend'.
Proof.
  intros s pend x k i m Hr Hi Hm ev Hf Hb.
  pose proof (arrive_live s pend x k i m Hr Hi Hm) as HA. cbv zeta in HA.
  set (c := AArrive i T (r_bytes r0) (fun _ => r0)) in *. set (s1 := stack_step P fuel a b w s c) in *.
  destruct HA as (A1 & A2 & A3 & A4 & A5 & A6).
  assert (Hnth : nth_error (sk_heard s1) (length (sk_heard s)) = Some (other x, idw x, m)).
  { rewrite A4, nth_error_app2 by lia. now rewrite Nat.sub_diag. }
  set (heard := firstn (length (sk_heard s)) (sk_heard s1) ++ skipn (S (length (sk_heard s))) (sk_heard s1)).
  pose proof (does_live s1 _ (other x) ev heard A6) as HD. rewrite A2, A5 in HD.
  assert (Hheard : forall h, In h heard -> In h (sk_heard s1)).
  { intros h H. unfold heard in H. apply in_app_or in H as [H|H].
    - rewrite <- (firstn_skipn (length (sk_heard s))). apply in_or_app. now left.
    - rewrite <- (firstn_skipn (S (length (sk_heard s)))). apply in_or_app. now right. }
  assert (Hsent : forall m0, ev = NMessage (idw (other (other x))) m0 -> In (idw (other x), m0) (sent_by (sk_rldp s) (other (other x)))).
  { intros m0 H. injection H as _ <-. rewrite other_other. eapply nth_error_In, Hm. }
  specialize (HD Hf Hb Hheard Hsent). cbv zeta in HD. destruct HD as (D1 & D2 & pend' & D3 & D4 & D5).
  set (c2 := AHandle (E:=E) (length (sk_heard s)) (fun _ => (T, r0))).
  exists [c; c2], pend'.
  assert (Hstep : stack_step P fuel a b w s1 c2 = rldp_does P fuel a b w s1 (other x) ev (fun _ => (T, r0)) heard).
  { unfold c2. cbn [stack_step]. rewrite Hnth. reflexivity. }
  split.
  { cbn [may_run]. split; [exact A1|]. split; [|exact I]. fold s1. unfold c2. cbn [may_act]. intros y peer m0 H. rewrite Hnth in H.
    injection H as <- <- <-. rewrite A2. exact D1. }
  change (stack_run P fuel a b w s [c; c2]) with (stack_step P fuel a b w s1 c2). cbv zeta. rewrite Hstep.
  cbn [rldp_does sk_rldp sk_events sk_net] in *. rewrite A2, A3 in *.
  split; [reflexivity|]. split; [reflexivity|]. split; [exact D2|]. split; [exact D3|]. split.
  - intros y k' j Hj Hne. apply D4. apply filter_In. split; [exact Hj|]. cbn [snd]. apply negb_true_iff, Nat.eqb_neq. intros ->.
    apply Hne. destruct Hr as [_ [Hnd _]].
    assert (HU : forall l : list pending, List.NoDup (map snd l) -> forall u v, In u l -> In v l -> snd u = snd v -> u = v).
    { induction l as [|z l IH]; intros Hd u v Hu Hv Huv; [destruct Hu|]. cbn [map] in Hd. apply NoDup_cons_iff in Hd as [Hd1 Hd2].
      destruct Hu as [->|Hu], Hv as [->|Hv]; [reflexivity| | |now apply IH].
      - exfalso. apply Hd1. rewrite Huv. now apply in_map.
      - exfalso. apply Hd1. rewrite <- Huv. now apply in_map. }
    pose proof (HU _ Hnd _ _ Hj Hi eq_refl) as H. now injection H as -> ->.
  - exact D5.
Qed.

Lemma play_events : forall (c : command E) cs r, match event_of w r c with
  | Some ev => play w r (c :: cs) = play w (pair_step w r ev) cs /\ events_of w r (c :: cs) = ev :: events_of w (pair_step w r ev) cs
  | None => play w r (c :: cs) = play w r cs /\ events_of w r (c :: cs) = events_of (E:=E) w r cs
  end.
Proof. intros c cs r. rewrite play_cons. cbn [events_of]. destruct (event_of w r c); auto. Qed.

Lemma simulate : forall (cs : list (command E)) s pend, ready_stack s pend -> fine_run (sk_rldp s) cs ->
  (forall x ev, In (match x with Alice => RldpPairSample.Alice ev | Bob => RldpPairSample.Bob ev end) cs ->
     match ev with NMessage _ _ => False | _ => True end) ->
  List.NoDup (targets cs) -> covered (sk_rldp s) cs pend ->
  N.of_nat (length (pr_letters (sk_net s)) + (total_sent (play w (sk_rldp s) cs) - total_sent (sk_rldp s))) < 2 ^ 62 ->
  exists acts, may_run P fuel a b w s acts
  /\ sk_rldp (stack_run P fuel a b w s acts) = play w (sk_rldp s) cs
  /\ sk_events (stack_run P fuel a b w s acts) = sk_events s ++ events_of w (sk_rldp s) cs.
Proof.
  induction cs as [|c cs IH]; intros s pend Hr Hf Hp Hnd Hcov Hb.
  { exists []. split; [exact I|]. split; [reflexivity|]. cbn. now rewrite app_nil_r. }
  pose proof (play_events c cs (sk_rldp s)) as HE. cbn [StackPlay.fine_run] in Hf.
  assert (Hp' : forall x ev, In (match x with Alice => RldpPairSample.Alice ev | Bob => RldpPairSample.Bob ev end) cs ->
     match ev with NMessage _ _ => False | _ => True end) by (intros x ev H; apply (Hp x ev); now right).
  destruct (event_of w (sk_rldp s) c) as [ev|] eqn:Eev.
  2: { destruct HE as [-> HE2]. rewrite HE2. destruct (IH s pend Hr Hf Hp') as (acts & Hacts).
       - cbn [targets flat_map] in Hnd. now apply NoDup_app_inv_r in Hnd.
       - intros x k H. apply Hcov. cbn [targets flat_map]. apply in_or_app. now right.
       - rewrite play_cons, Eev in Hb. exact Hb.
       - eauto. }
  destruct HE as [Hplay Hevs]. rewrite Hplay, Hevs. rewrite Hplay in Hb. destruct Hf as [Hf1 Hf2].
  pose proof (total_step (sk_rldp s) ev) as Htot. pose proof (total_grows cs (pair_step w (sk_rldp s) ev)) as Hgrow.
  assert (Hgo : exists acts1 pend1, may_run P fuel a b w s acts1
    /\ let s1 := stack_run P fuel a b w s acts1 in
       sk_rldp s1 = pair_step w (sk_rldp s) ev /\ sk_events s1 = sk_events s ++ [ev]
       /\ length (pr_letters (sk_net s1)) = (length (pr_letters (sk_net s)) + length (outs_of (sk_rldp s) ev))%nat
       /\ ready_stack s1 pend1 /\ covered (pair_step w (sk_rldp s) ev) cs pend1).
  { assert (Hb1 : N.of_nat (length (pr_letters (sk_net s)) + length (outs_of (sk_rldp s) ev)) < 2 ^ 62) by lia.
    assert (Htask : forall x ev0, ev = at_who x ev0 -> match ev0 with NMessage _ _ => False | _ => True end ->
      (forall y k, In (y, k) (targets cs) -> In (y, k) (targets (c :: cs))) ->
      exists acts1 pend1, may_run P fuel a b w s acts1
      /\ let s1 := stack_run P fuel a b w s acts1 in
         sk_rldp s1 = pair_step w (sk_rldp s) ev /\ sk_events s1 = sk_events s ++ [ev]
         /\ length (pr_letters (sk_net s1)) = (length (pr_letters (sk_net s)) + length (outs_of (sk_rldp s) ev))%nat
         /\ ready_stack s1 pend1 /\ covered (pair_step w (sk_rldp s) ev) cs pend1).
    { intros x ev0 -> Hnm Ht. assert (Ho : at_of (at_who x ev0) = (x, ev0)) by (now destruct x).
      unfold StackPlay.outs_of in *. rewrite Ho in *. cbn [fst snd] in *.
      pose proof (does_live s pend x ev0 (sk_heard s) Hr Hf1 Hb1 (fun _ H => H)) as HD.
      specialize (HD ltac:(intros m ->; destruct Hnm)). cbv zeta in HD. destruct HD as (D1 & D2 & pend1 & D3 & D4 & D5).
      exists [ATask x ev0 (fun _ => (T, r0))], pend1. split.
      { cbn [may_run may_act]. split; [|exact I]. destruct ev0; try exact D1. destruct Hnm. }
      cbv zeta. change (stack_run P fuel a b w s [ATask x ev0 (fun _ => (T, r0))])
        with (rldp_does P fuel a b w s x ev0 (fun _ => (T, r0)) (sk_heard s)).
      cbn [rldp_does sk_rldp sk_events sk_net] in *. split; [reflexivity|]. split; [reflexivity|]. split; [exact D2|]. split; [exact D3|].
      intros y k Hk Hlt. destruct (Nat.lt_ge_cases k (length (sent_by (sk_rldp s) y))) as [G|G]; [|now apply D5].
      destruct (Hcov y k (Ht y k Hk) G) as (i & Hi). exists i. now apply D4. }
    assert (Hmsg : forall x k m, ev = at_who (other x) (NMessage (idw x) m) ->
      nth_error (sent_by (sk_rldp s) x) k = Some (idw (other x), m) -> targets (c :: cs) = (x, k) :: targets cs ->
      exists acts1 pend1, may_run P fuel a b w s acts1
      /\ let s1 := stack_run P fuel a b w s acts1 in
         sk_rldp s1 = pair_step w (sk_rldp s) ev /\ sk_events s1 = sk_events s ++ [ev]
         /\ length (pr_letters (sk_net s1)) = (length (pr_letters (sk_net s)) + length (outs_of (sk_rldp s) ev))%nat
         /\ ready_stack s1 pend1 /\ covered (pair_step w (sk_rldp s) ev) cs pend1).
    { intros x k m -> Hm Ht. assert (Ho : at_of (at_who (other x) (NMessage (idw x) m)) = (other x, NMessage (E:=E) (idw x) m)) by (now destruct x).
      unfold StackPlay.outs_of in *. rewrite Ho in *. cbn [fst snd] in *.
      destruct (Hcov x k) as (i & Hi).
      { rewrite Ht. now left. }
      { apply nth_error_Some. rewrite Hm. discriminate. }
      destruct (deliver_live s pend x k i m Hr Hi Hm Hf1 Hb1) as (acts1 & pend1 & D1 & D2). cbv zeta in D2.
      destruct D2 as (D2 & D3 & D4 & D5 & D6 & D7).
      exists acts1, pend1. split; [exact D1|]. cbv zeta. split; [exact D2|]. split; [exact D3|]. split; [exact D4|]. split; [exact D5|].
      rewrite D2 in D7. intros y k' Hk Hlt. destruct (Nat.lt_ge_cases k' (length (sent_by (sk_rldp s) y))) as [G|G]; [|now apply D7].
      destruct (Hcov y k') as (j & Hj); [rewrite Ht; now right|exact G|]. exists j. apply (D6 y k' j Hj).
      intros Heq. rewrite Ht in Hnd. apply NoDup_cons_iff in Hnd as [Hnd _]. rewrite Heq in Hk. contradiction. }
    destruct Hnames as [N1 N2].
    destruct c as [k|k|ev0|ev0]; cbn [event_of] in Eev.
    - destruct (nth_error (rp_from_alice (sk_rldp s)) k) as [[to m]|] eqn:En; [|discriminate Eev].
      destruct (bytes_eqb to (rw_bob_id w)) eqn:Eb; [|discriminate Eev]. injection Eev as <-. apply bytes_eqb_eq in Eb. subst to.
      apply (Hmsg Alice k m); [cbn [other at_who]; now rewrite N1|cbn [sent_by pick_who other]; rewrite En, N2; reflexivity|reflexivity].
    - destruct (nth_error (rp_from_bob (sk_rldp s)) k) as [[to m]|] eqn:En; [|discriminate Eev].
      destruct (bytes_eqb to (rw_alice_id w)) eqn:Eb; [|discriminate Eev]. injection Eev as <-. apply bytes_eqb_eq in Eb. subst to.
      apply (Hmsg Bob k m); [cbn [other at_who]; now rewrite N2|cbn [sent_by pick_who other]; rewrite En, N1; reflexivity|reflexivity].
    - injection Eev as <-. apply (Htask Bob ev0); [reflexivity|apply (Hp Bob ev0); now left|auto].
    - injection Eev as <-. apply (Htask Alice ev0); [reflexivity|apply (Hp Alice ev0); now left|auto]. }
  destruct Hgo as (acts1 & pend1 & M1 & H). cbv zeta in H. destruct H as (R1 & E1 & L1 & Hr1 & Hc1).
  set (s1 := stack_run P fuel a b w s acts1) in *. rewrite <- R1 in Hf2, Hc1, Hb, Htot, Hgrow.
  destruct (IH s1 pend1 Hr1 Hf2 Hp') as (acts2 & M2 & R2 & E2).
  - cbn [targets flat_map] in Hnd. now apply NoDup_app_inv_r in Hnd.
  - exact Hc1.
  - rewrite L1. lia.
  - exists (acts1 ++ acts2). split; [apply may_app; [exact M1|exact M2]|]. rewrite run_app. fold s1. rewrite R2, E2, E1, R1.
    split; [reflexivity|]. now rewrite <- app_assoc.
Qed.
End live.

(** Everything that RLDP can do if its messages arrive it can do over ADNL. *)
Lemma stack_possible : forall E P fuel a b w T r0 (acts0 : list (act (E:=E))) cs,
  prims_ok P -> parties_ok P a b -> same_names P a b w ->
  o_version (pa_opts a) = Some 0 -> o_version (pa_opts b) = Some 0 -> clocks_agree a b T -> length (r_bytes r0) = 10%nat ->
  may_run P fuel a b w (stack_start P a b) acts0 ->
  let s := stack_run P fuel a b w (stack_start P a b) acts0 in
  let r := pair_run w (sk_rldp s) (events_of w (sk_rldp s) cs) in
  fine_run P a b w (sk_rldp s) cs -> tidy (sk_rldp s) cs ->
  N.of_nat (length (pr_letters (sk_net s)) + (total_sent r - total_sent (sk_rldp s))) < 2 ^ 62 ->
  exists acts, may_run P fuel a b w s acts
  /\ let s' := stack_run P fuel a b w s acts in
     sk_rldp s' = r /\ sk_events s' = sk_events s ++ events_of w (sk_rldp s) cs.
Proof.
  intros E P fuel a b w T r0 acts0 cs HP Hab Hn Hva Hvb [HT Hc] Hr0 Hm s r Hf (T1 & T2 & T3) Hb.
  pose proof (run_good P fuel a b w HP Hab acts0 _ (start_good P fuel a b w) Hm) as G. fold s in G.
  apply (simulate P fuel a b w T r0 HP Hab Hn Hva Hvb HT Hr0 Hc cs s []).
  - split; [exact G|]. split; [constructor|]. intros x k i [].
  - exact Hf.
  - intros x ev H. rewrite List.Forall_forall in T3. specialize (T3 _ H). destruct x; exact T3.
  - exact T1.
  - intros x k H Hk. specialize (T2 x k H). lia.
  - exact Hb.
Qed.

(** A message of RLDP fits into one datagram if its piece of data does. *)
Lemma short_fits : forall m, message_part_ok m -> short_piece m -> small_payload (as_custom m).
Proof.
  intros m Hm Hs. assert (Hl : N.of_nat (length (put_message_part m)) <= 940).
  { destruct m as [t f p ts q d|t p q|t p]; cbn [message_part_ok short_piece put_message_part] in *; unfold put_hash, put_fec_type, put_u32, put_u64;
      rewrite !app_length, ?le_bytes_length; unfold hash_ok in Hm; destruct Hm as [Ht Hm]; rewrite Ht; try lia.
    pose proof (RldpQueryFacts.put_bytes_length d). lia. }
  split; [|exact Hl]. cbn [as_custom message_ok]. unfold blob_ok. eapply N.le_lt_trans; [exact Hl|reflexivity].
Qed.

(** ** A query can be answered through both layers *)

Lemma targets_in : forall E (cs : list (command E)) k,
  (In (Alice, k) (targets cs) <-> In k (to_bob cs)) /\ (In (Bob, k) (targets cs) <-> In k (to_alice cs)).
Proof.
  intros E cs k. induction cs as [|c cs [I1 I2]]; [split; split; intros []|].
  change (targets (c :: cs)) with (match c with ToBob k => [(Alice, k)] | ToAlice k => [(Bob, k)] | _ => [] end ++ targets cs).
  change (to_bob (c :: cs)) with (match c with ToBob k => [k] | _ => [] end ++ to_bob cs).
  change (to_alice (c :: cs)) with (match c with ToAlice k => [k] | _ => [] end ++ to_alice cs).
  destruct c as [j|j|ev|ev]; cbn [app In].
  - split; [|rewrite <- I2; intuition discriminate]. rewrite <- I1. split; (intros [H|H]; [left|now right]); congruence.
  - split; [rewrite <- I1; intuition discriminate|]. rewrite <- I2. split; (intros [H|H]; [left|now right]); congruence.
  - now split.
  - now split.
Qed.
Lemma targets_once : forall E (cs : list (command E)), List.NoDup (to_bob cs) -> List.NoDup (to_alice cs) -> List.NoDup (targets cs).
Proof.
  intros E cs. induction cs as [|c cs IH]; [constructor|].
  change (targets (c :: cs)) with (match c with ToBob k => [(Alice, k)] | ToAlice k => [(Bob, k)] | _ => [] end ++ targets cs).
  change (to_bob (c :: cs)) with (match c with ToBob k => [k] | _ => [] end ++ to_bob cs).
  change (to_alice (c :: cs)) with (match c with ToAlice k => [k] | _ => [] end ++ to_alice cs).
  destruct c as [j|j|ev|ev]; cbn [app]; intros H1 H2; try (now apply IH).
  - apply NoDup_cons_iff in H1 as [H1 H3]. apply NoDup_cons_iff. split; [|now apply IH]. intros H. apply H1. now apply targets_in.
  - apply NoDup_cons_iff in H2 as [H2 H3]. apply NoDup_cons_iff. split; [|now apply IH]. intros H. apply H2. now apply targets_in.
Qed.

Lemma play_more : forall E w (cs : list (command E)) r x, exists l, sent_by (play w r cs) x = sent_by r x ++ l.
Proof.
  intros E w cs. induction cs as [|c cs IH]; intros r x; [exists []; symmetry; apply app_nil_r|]. rewrite play_cons.
  destruct (event_of w r c) as [ev|]; [|apply IH]. destruct (IH (pair_step w r ev) x) as [l Hl].
  destruct (sent_step (E:=E) w r (fst (at_of ev)) (snd (at_of ev))) as [H1 H2]. rewrite at_who_of in *.
  destruct (who_cases x (fst (at_of ev))) as [-> | ->].
  - rewrite Hl, H1, <- app_assoc. eauto.
  - rewrite Hl, H2. eauto.
Qed.
Lemma fine_final : forall E P a b w (cs : list (command E)) r,
  (forall x l, sent_by (play w r cs) x = sent_by r x ++ l -> List.Forall (fine_out P a b x) l) -> fine_run P a b w r cs.
Proof.
  intros E P a b w cs. induction cs as [|c cs IH]; intros r H; [exact I|]. cbn [fine_run].
  pose proof (play_cons E w r c cs) as Hc. destruct (event_of w r c) as [ev|]; rewrite Hc in H; [|now apply IH].
  destruct (sent_step (E:=E) w r (fst (at_of ev)) (snd (at_of ev))) as [H1 H2]. rewrite at_who_of in *. fold (outs_of w r ev) in H1.
  split.
  - destruct (play_more E w cs (pair_step w r ev) (fst (at_of ev))) as [l Hl].
    specialize (H (fst (at_of ev)) (outs_of w r ev ++ l)). rewrite Hl, H1, <- app_assoc in H. specialize (H eq_refl).
    now apply List.Forall_app in H.
  - apply IH. intros x l Hl. destruct (who_cases x (fst (at_of ev))) as [-> | ->].
    + specialize (H (fst (at_of ev)) (outs_of w r ev ++ l)). rewrite Hl, H1, <- app_assoc in H. specialize (H eq_refl).
      now apply List.Forall_app in H.
    + apply (H (other (fst (at_of ev))) l). now rewrite Hl, H2.
Qed.
Lemma answered_by : forall E w (cs : list (command E)) r k subs, In (AtBob (NAnswerTurn k subs)) (events_of w r cs) ->
  In (RldpPairSample.Bob (NAnswerTurn k subs)) cs.
Proof.
  intros E w cs. induction cs as [|c cs IH]; intros r k subs H; [destruct H|]. cbn [events_of] in H.
  destruct (event_of w r c) as [ev|] eqn:Eev; [|right; eapply IH; exact H].
  destruct H as [->|H]; [|right; eapply IH; exact H]. left.
  destruct c as [j|j|ev|ev]; cbn [event_of] in Eev.
  - destruct (nth_error (rp_from_alice r) j) as [[to m]|]; [|discriminate Eev]. destruct (bytes_eqb to (rw_bob_id w)); discriminate Eev.
  - destruct (nth_error (rp_from_bob r) j) as [[to m]|]; [|discriminate Eev]. destruct (bytes_eqb to (rw_alice_id w)); discriminate Eev.
  - now injection Eev as ->.
  - discriminate Eev.
Qed.

Lemma private_theirs : forall E w i (evs : list (pair_event E)) r, private_run w i r evs -> Forall (only_theirs w i) evs.
Proof.
  intros E w i evs. induction evs as [|ev evs IH]; intros r H; [constructor|]. destruct H as [H1 H2].
  constructor; [|eapply IH; exact H2]. destruct ev as [ev|ev]; destruct ev; try exact H1; cbn [only_theirs private] in *; intros Hq; now apply H1.
Qed.

Theorem stack_answered : forall E P fuel a b w T r0 (acts0 : list (act (E:=E))) i qid now p ans (subs : list (subscriber E)),
  prims_ok P -> parties_ok P a b -> same_names P a b w ->
  o_version (pa_opts a) = Some 0 -> o_version (pa_opts b) = Some 0 -> clocks_agree a b T -> length (r_bytes r0) = 10%nat ->
  world_ok w -> hash_ok i -> hash_ok qid -> u64_ok (ro_max_answer (rw_alice w)) ->
  blob_ok (sent_payload (rw_zstd w) (ro_force (rw_alice w)) p) -> blob_ok (on_the_wire w p ans) ->
  fst (process_query subs (as_asked w p)) = Ok (Processed (Some ans)) ->
  N.of_nat (length (sent_payload (rw_zstd w) (ro_force (rw_alice w)) p)) + 55 <= ro_max_answer (rw_bob w) ->
  N.of_nat (length (on_the_wire w p ans)) + 43 <= ro_max_answer (rw_alice w) ->
  may_run P fuel a b w (stack_start P a b) acts0 ->
  let s := stack_run P fuel a b w (stack_start P a b) acts0 in
  Forall (only_theirs w i) (sk_events s) -> N.of_nat (length (pr_letters (sk_net s))) < 2 ^ 61 ->
  let ask := ATask Alice (NQuery (rw_bob_id w) i qid now p) (fun _ => (T, r0)) in
  exists acts, may_run P fuel a b w s (ask :: acts)
  /\ let s' := stack_run P fuel a b w s (ask :: acts) in
     alice_result w (sk_rldp s') (length (rn_queries (rp_alice (sk_rldp s)))) = Some (RAnswered (as_answered w p ans))
     /\ exists evs, sk_events s' = sk_events s ++ AtAlice (NQuery (rw_bob_id w) i qid now p) :: evs
        /\ Forall (only_theirs w i) evs /\ forall k subs', In (AtBob (NAnswerTurn k subs')) evs -> subs' = subs.
Proof.
  intros E P fuel a b w T r0 acts0 i qid now p ans subs HP Hab Hn Hva Hvb [HT Hc] Hr0 Hw Hi Hq Hmax Hp Ha Hsubs Hmb Hma Hm s Hon Hlet ask.
  pose proof (run_good P fuel a b w HP Hab acts0 _ (start_good P fuel a b w) Hm) as G. fold s in G.
  pose proof (gs_rldp _ _ _ _ _ _ G) as Gr.
  assert (Hpre : private_run w i rldp_pair_new (sk_events s)).
  { apply (stack_private P fuel a b w HP Hab acts0 i (sk_events s) [] Hn Hm []); [now rewrite app_nil_r|exact Hon]. }
  pose proof (rldp_answers_neatly E w i qid now p ans subs (sk_events s) Hw Hi Hq Hmax Hp Ha Hsubs Hmb Hma Hpre) as HA.
  cbv zeta in HA. rewrite <- Gr in HA. set (r1 := pair_step w (sk_rldp s) (AtAlice (NQuery (rw_bob_id w) i qid now p))) in *.
  destruct HA as (cs & A1 & A2 & A3 & ma & mb & N1 & N2 & N3 & N4 & N5 & [N6 N6'] & [N7 N7']). fold (play w r1 cs) in *.
  destruct Hn as [Na Nb].
  assert (Hsend : sends (E:=E) w (sk_rldp s) Alice (NQuery (rw_bob_id w) i qid now p) = []).
  { unfold sends. cbn [at_who pair_step rldp_step sent_by pick_who rp_from_alice]. rewrite app_nil_r. apply skipn_all. }
  assert (Hask : may_act P fuel a b w s ask).
  { unfold ask. cbn [may_act]. rewrite Hsend. exact I. }
  set (s1 := stack_step P fuel a b w s ask).
  assert (Hs1 : sk_rldp s1 = r1 /\ sk_net s1 = sk_net s /\ sk_events s1 = sk_events s ++ [AtAlice (NQuery (rw_bob_id w) i qid now p)]).
  { unfold s1, ask. cbn [stack_step rldp_does sk_rldp sk_net sk_events]. rewrite Hsend. cbn [post at_who]. auto. }
  destruct Hs1 as (R1 & R2 & R3).
  assert (G1 : good_stack P fuel a b w s1) by (now apply step_good).
  destruct (simulate P fuel a b w T r0 HP Hab (conj Na Nb) Hva Hvb HT Hr0 Hc cs s1 []) as (acts & M1 & M2 & M3).
  - split; [exact G1|]. split; [constructor|]. intros x k j [].
  - rewrite R1. apply fine_final. intros x l Hl. destruct x; cbn [sent_by pick_who] in Hl.
    + rewrite N1 in Hl. apply app_inv_head in Hl. subst l. apply List.Forall_forall. intros e He. apply in_map_iff in He as (m & <- & Hm').
      rewrite List.Forall_forall in N3. destruct (N3 m Hm') as [O1 O2]. split; [exact Nb|]. split; [exact O1|]. now apply short_fits.
    + rewrite N2 in Hl. apply app_inv_head in Hl. subst l. apply List.Forall_forall. intros e He. apply in_map_iff in He as (m & <- & Hm').
      rewrite List.Forall_forall in N4. destruct (N4 m Hm') as [O1 O2]. split; [exact Na|]. split; [exact O1|]. now apply short_fits.
  - intros x ev Hev. rewrite forallb_forall in A1. specialize (A1 _ Hev). destruct x, ev; try exact I; discriminate A1.
  - now apply targets_once.
  - intros x k Hk Hlt. exfalso. rewrite R1 in Hlt. destruct x; apply targets_in in Hk; cbn [sent_by pick_who] in Hlt.
    + specialize (N6' k Hk). lia.
    + specialize (N7' k Hk). lia.
  - rewrite R1, R2. unfold total_sent. rewrite N1, N2, !app_length, !map_length.
    change (2 ^ 62) with 4611686018427387904. change (2 ^ 61) with 2305843009213693952 in Hlet. change (2 ^ 27) with 134217728 in N5. lia.
  - exists acts. split; [split; [exact Hask|exact M1]|].
    change (stack_run P fuel a b w s (ask :: acts)) with (stack_run P fuel a b w s1 acts). cbv zeta. rewrite M2, M3, R1, R3.
    split; [exact A3|]. exists (events_of w r1 cs). rewrite <- app_assoc. split; [reflexivity|].
    split; [apply (private_theirs E w i (events_of w r1 cs) r1); now apply plain_private|].
    intros k subs' H. eapply A2, answered_by, H.
Qed.
