(** The life of a node. *)
From Coq Require Import List NArith Arith Bool Lia.
From Verif.Base Require Import Bytes.
From Verif.Model Require Import Lifecycle.
From Verif.Spec Require Import LifecycleSpec.
Import ListNotations.
Open Scope nat_scope.

Lemma life_run_app : forall a b l,
  life_run l (a ++ b) = (fst (life_run l a) ++ fst (life_run (snd (life_run l a)) b),
                         snd (life_run (snd (life_run l a)) b)).
Proof.
  induction a as [|e a IH]; intros b l; cbn [app life_run].
  - cbn. destruct (life_run l b); reflexivity.
  - destruct (life_step l e) as [o l']. rewrite (IH b l'). destruct (life_run l' a) as [os l'']. reflexivity.
Qed.
Lemma life_run_cons : forall l e es, life_run l (e :: es) =
  (fst (life_step l e) :: fst (life_run (snd (life_step l e)) es), snd (life_run (snd (life_step l e)) es)).
Proof.
  intros. cbn [life_run]. destruct (life_step l e) as [o l']. cbn. destruct (life_run l' es); reflexivity.
Qed.
Lemma life_run_length : forall es l, length (fst (life_run l es)) = length es.
Proof.
  induction es as [|e es IH]; intros l; [reflexivity|]. rewrite life_run_cons. cbn. now rewrite IH.
Qed.


Definition not_started (s : loop_state) : bool := match s with NotStarted => true | _ => false end.
(** All cases of a step. *)
Ltac comp := cbv beta iota zeta delta [life_step subscribe start send sender_turn receiver_turn end_receiver end_sender settle alive running ended
  not_started negb orb andb none Init.Nat.pred fst snd
  l_users l_init l_cancelled l_queue l_sender l_receiver l_tasks l_active l_wire l_handled] in *.
Ltac split_goal := repeat (match goal with |- context [match ?x with _ => _ end] => is_var x; destruct x end; comp; try discriminate).
Ltac split_hyps := repeat (match goal with H : context [match ?x with _ => _ end] |- _ => is_var x; destruct x end; comp; try discriminate).
Ltac crunch l e :=
  destruct l as [us ini can q snd_ rcv tk ac wi ha]; destruct e; comp; try discriminate; split_goal.

(** Before the start, nothing has been started; after it, both loops have. *)
Definition life_ok (l : life) : Prop :=
  match l_init l with
  | Some _ => not_started (l_sender l) = true /\ not_started (l_receiver l) = true /\ l_tasks l = 0
  | None => alive l = false \/ (not_started (l_sender l) = false /\ not_started (l_receiver l) = false)
  end.
Lemma life_ok_step : forall l e, life_ok l -> life_ok (snd (life_step l e)).
Proof.
  intros l e H. unfold life_ok, alive in *.
  crunch l e; try (exact H); split_hyps; intuition (discriminate || auto).
Qed.
Lemma life_ok_run : forall es l, life_ok l -> life_ok (snd (life_run l es)).
Proof.
  induction es as [|e es IH]; intros l H; [exact H|]. rewrite life_run_cons. cbn [snd]. apply IH. now apply life_ok_step.
Qed.
Lemma life_ok_new : life_ok life_new.
Proof. repeat split. Qed.

(** *** Sending *)

(** What was accepted is on the wire, in the queue, or lost with the end of the queue. *)
Definition sends_ok (acc : list bytes) (l : life) : Prop :=
  exists rest, acc = l_wire l ++ rest /\
    (ended (l_sender l) = false -> running (l_sender l) || alive l = true -> rest = l_queue l).
Definition sent_by (e : life_event) (o : outcome) : list bytes :=
  match e, o with Send d, Done => [d] | _, _ => [] end.
Lemma sends_step : forall l e acc, life_ok l -> sends_ok acc l ->
  sends_ok (acc ++ sent_by e (fst (life_step l e))) (snd (life_step l e)).
Proof.
  intros l e acc Hok (rest & -> & Hq). unfold sends_ok, life_ok, alive in *.
  crunch l e; split_hyps; try (exfalso; intuition discriminate); rewrite ?app_nil_r; cbn [sent_by] in *;
  try (exists rest; split; [reflexivity|]; intros; first [discriminate | solve [auto]]);
  try (rewrite (Hq eq_refl eq_refl) in *; eexists; split; [rewrite <- app_assoc; reflexivity|]; intros; reflexivity).
Qed.

Lemma accepted_cons : forall e es o os, accepted (e :: es) (o :: os) = sent_by e o ++ accepted es os.
Proof. intros. destruct e; try reflexivity. destruct o; reflexivity. Qed.
Lemma sends_run : forall es l acc, life_ok l -> sends_ok acc l ->
  sends_ok (acc ++ accepted es (fst (life_run l es))) (snd (life_run l es)).
Proof.
  induction es as [|e es IH]; intros l acc Hok H; [cbn; now rewrite app_nil_r|].
  rewrite life_run_cons. cbn [fst snd]. rewrite accepted_cons, app_assoc.
  apply IH; [now apply life_ok_step|now apply sends_step].
Qed.
Theorem sent_in_order : forall es os l, life_run life_new es = (os, l) ->
  exists rest, accepted es os = l_wire l ++ rest
    /\ (l_sender l <> Ended -> alive l = true -> rest = l_queue l).
Proof.
  intros es os l H. pose proof (sends_run es life_new [] life_ok_new) as Hs. rewrite H in Hs. cbn [fst snd app] in Hs.
  destruct Hs as (rest & He & Hq); [exists []; split; auto|]. exists rest. split; [exact He|]. intros Hn Ha. apply Hq.
  - destruct (l_sender l); try reflexivity. congruence.
  - rewrite Ha. apply orb_true_r.
Qed.

(** Nothing is lost unless the cancellation is noticed before the queue. *)
Definition flush_ok (acc : list bytes) (l : life) : Prop :=
  match l_sender l with
  | NotStarted => alive l = true -> acc = l_wire l ++ l_queue l
  | Running => acc = l_wire l ++ l_queue l
  | Ended => acc = l_wire l ++ l_queue l /\ l_queue l = []
  end.
Lemma flush_step : forall l e acc, life_ok l -> flush_ok acc l -> e <> SenderTurn true ->
  flush_ok (acc ++ sent_by e (fst (life_step l e))) (snd (life_step l e)).
Proof.
  intros l e acc Hok Hf Hne. unfold flush_ok, life_ok, alive in *.
  crunch l e; split_hyps; try (exfalso; intuition (discriminate || congruence)); cbn [sent_by] in *; rewrite ?app_nil_r in *;
  repeat match goal with H : _ /\ _ |- _ => destruct H end; subst; rewrite ?app_nil_r in *; try tauto; auto;
  try (rewrite <- app_assoc; reflexivity); try (intros; subst; rewrite <- app_assoc; reflexivity);
  try (intros; rewrite Hf by reflexivity; rewrite <- app_assoc; reflexivity).
Qed.
Lemma flush_run : forall es l acc, life_ok l -> flush_ok acc l -> ~ In (SenderTurn true) es ->
  flush_ok (acc ++ accepted es (fst (life_run l es))) (snd (life_run l es)).
Proof.
  induction es as [|e es IH]; intros l acc Hok H Hn; [cbn; now rewrite app_nil_r|].
  rewrite life_run_cons. cbn [fst snd]. rewrite accepted_cons, app_assoc.
  apply IH; [now apply life_ok_step|apply flush_step; auto; intros ->; apply Hn; now left|intros Hi; apply Hn; now right].
Qed.
Lemma begun_step : forall l e, not_started (l_sender l) = false -> not_started (l_sender (snd (life_step l e))) = false.
Proof. intros l e H. crunch l e; congruence. Qed.
Lemma begun_run : forall es l, not_started (l_sender l) = false -> not_started (l_sender (snd (life_run l es))) = false.
Proof. induction es as [|e es IH]; intros l H; [exact H|]. rewrite life_run_cons. cbn [snd]. apply IH. now apply begun_step. Qed.
Lemma begun : forall es l, happened Start Done es (fst (life_run l es)) -> not_started (l_sender (snd (life_run l es))) = false.
Proof.
  induction es as [|e es IH]; intros l H; [contradiction|]. rewrite life_run_cons in *. cbn [fst snd] in *.
  destruct H as [H|H]; [|now apply IH]. injection H as -> H. apply begun_run. cbn in *.
  destruct (none (l_users l)); [discriminate|]. unfold start in *. destruct (l_init l) as [[? ?]|]; [reflexivity|discriminate].
Qed.
Theorem flushed : forall es os l, life_run life_new es = (os, l) -> happened Start Done es os -> ~ In (SenderTurn true) es ->
  accepted es os = l_wire l ++ l_queue l /\ (l_sender l = Ended -> l_wire l = accepted es os).
Proof.
  intros es os l H Hs Hn. pose proof (flush_run es life_new [] life_ok_new (fun _ => eq_refl) Hn) as Hf.
  pose proof (begun es life_new) as Hb. rewrite H in Hf, Hb. cbn [fst snd app] in Hf, Hb. specialize (Hb Hs).
  unfold flush_ok in Hf. destruct (l_sender l); [discriminate|split; [exact Hf|discriminate]|].
  destruct Hf as [-> ->]. rewrite app_nil_r. now split.
Qed.

(** *** Acceptance of packets *)

Definition open_ok (l : life) : Prop := alive l = false \/ (l_cancelled l = false /\ ended (l_sender l) = false).
Lemma open_step : forall l e, open_ok l -> e <> Shutdown -> open_ok (snd (life_step l e)).
Proof.
  intros l e H Hne. unfold open_ok, alive in *.
  crunch l e; try congruence; split_hyps; destruct H as [H|[H1 H2]]; subst; try discriminate; auto.
Qed.
Lemma shut_run : forall es l, l_users l <> 0 -> l_users (snd (life_run l es)) <> 0 -> In Shutdown es -> 
  happened Shutdown Done es (fst (life_run l es)).
Proof.
  induction es as [|e es IH]; intros l Hu Hu' Hi; [contradiction|]. rewrite life_run_cons in *. cbn [fst snd] in *.
  assert (Hz : forall xs m, l_users m = 0 -> l_users (snd (life_run m xs)) = 0).
  { clear. induction xs as [|x xs IH]; intros m H; [exact H|]. rewrite life_run_cons. cbn [snd]. apply IH.
    crunch m x; congruence. }
  destruct Hi as [->|Hi].
  - left. cbn. destruct (l_users l); [congruence|reflexivity].
  - right. apply IH; [intros H; apply Hu'; now apply Hz|exact Hu'|exact Hi].
Qed.
Theorem accepts : forall es os l d, life_run life_new es = (os, l) -> l_users l <> 0 -> ~ happened Shutdown Done es os ->
  fst (life_step l (Send d)) = Done.
Proof.
  intros es os l d Hrun Hu Hn.
  assert (Hi : ~ In Shutdown es).
  { intros Hi. apply Hn. pose proof (shut_run es life_new) as H. rewrite Hrun in H. cbn [fst snd] in H. apply H; auto. discriminate. }
  assert (Ho : open_ok l).
  { assert (H : forall es m, open_ok m -> ~ In Shutdown es -> open_ok (snd (life_run m es))).
    { clear. induction es as [|e es IH]; intros m H Hn; [exact H|]. rewrite life_run_cons. cbn [snd].
      apply IH; [apply open_step; [exact H|intros ->; apply Hn; now left]|intros Hi; apply Hn; now right]. }
    specialize (H es life_new). rewrite Hrun in H. cbn [snd] in H. apply H; [right; split; reflexivity|exact Hi]. }
  destruct Ho as [Ho|[_ Ho]].
  - unfold alive in Ho. destruct (l_users l); [congruence|discriminate].
  - cbn. destruct (l_users l); [congruence|]. cbn. unfold send. now rewrite Ho.
Qed.

(** *** Before the start *)

Lemma unstarted_step : forall l e, life_ok l -> not_started (l_sender l) = true -> fst (life_step l e) <> Done \/ e <> Start ->
  l_wire l = [] -> l_handled l = [] -> not_started (l_receiver l) = true ->
  not_started (l_sender (snd (life_step l e))) = true /\ l_wire (snd (life_step l e)) = [] /\ l_handled (snd (life_step l e)) = []
  /\ not_started (l_receiver (snd (life_step l e))) = true.
Proof.
  intros l e Hok Hs Hne Hw Hh Hr. unfold life_ok, alive in *.
  crunch l e; try discriminate; subst; auto; destruct Hne as [Hne|Hne]; congruence.
Qed.
Theorem silent_before_start : forall es os l, life_run life_new es = (os, l) -> ~ happened Start Done es os ->
  l_wire l = [] /\ l_handled l = [].
Proof.
  assert (H : forall es l, life_ok l -> not_started (l_sender l) = true -> not_started (l_receiver l) = true ->
    l_wire l = [] -> l_handled l = [] -> ~ happened Start Done es (fst (life_run l es)) ->
    l_wire (snd (life_run l es)) = [] /\ l_handled (snd (life_run l es)) = []).
  { induction es as [|e es IH]; intros l Hok Hs Hr Hw Hh Hn; [split; assumption|].
    rewrite life_run_cons in *. cbn [fst snd] in *.
    assert (Hne : fst (life_step l e) <> Done \/ e <> Start).
    { destruct (fst (life_step l e)) eqn:Eo; [|left; discriminate..]. right. intros ->. apply Hn. left. reflexivity. }
    destruct (unstarted_step l e Hok Hs Hne Hw Hh Hr) as (H1 & H2 & H3 & H4).
    apply IH; auto; [now apply life_ok_step|]. intros Hi. apply Hn. right. exact Hi. }
  intros es os l Hrun Hn. specialize (H es life_new life_ok_new eq_refl eq_refl eq_refl eq_refl).
  rewrite Hrun in H. exact (H Hn).
Qed.

(** *** Registration *)

Definition subs_by (query : bool) (e : life_event) (o : outcome) : list nat :=
  match e, o with
  | AddMessageSubscriber s, Done => if query then [] else [s]
  | AddQuerySubscriber s, Done => if query then [s] else []
  | _, _ => []
  end.
Lemma subscribed_cons : forall q e es o os, subscribed q (e :: es) (o :: os) = subs_by q e o ++ subscribed q es os.
Proof. intros q e es o os. destruct e; try reflexivity; destruct o, q; reflexivity. Qed.
Lemma subscribed_app : forall q a b x y, length a = length x -> subscribed q (a ++ b) (x ++ y) = subscribed q a x ++ subscribed q b y.
Proof.
  induction a as [|e a IH]; intros b [|o x] y H; try discriminate; [reflexivity|]. cbn [app]. rewrite !subscribed_cons.
  rewrite IH by (cbn in H; congruence). now rewrite app_assoc.
Qed.
(** Who is registered: [None] once the node is started or gone. *)
Definition registered (l : life) (ms qs : list nat) : Prop :=
  match l_init l, l_active l with
  | Some x, None => x = (ms, qs)
  | None, Some x => x = (ms, qs ++ [PING])
  | None, None => alive l = false
  | Some _, Some _ => False
  end.
Lemma registered_step : forall l e ms qs, life_ok l -> registered l ms qs ->
  registered (snd (life_step l e)) (ms ++ subs_by false e (fst (life_step l e))) (qs ++ subs_by true e (fst (life_step l e))).
Proof.
  intros l e ms qs Hok H. unfold registered, life_ok, alive in *.
  crunch l e; split_hyps; try contradiction; try (exfalso; intuition discriminate); cbn [subs_by] in *; rewrite ?app_nil_r;
  try exact H; try reflexivity; try congruence.
Qed.
Lemma registered_run : forall es l ms qs, life_ok l -> registered l ms qs ->
  registered (snd (life_run l es)) (ms ++ subscribed false es (fst (life_run l es))) (qs ++ subscribed true es (fst (life_run l es))).
Proof.
  induction es as [|e es IH]; intros l ms qs Hok H; [cbn; now rewrite !app_nil_r|].
  rewrite life_run_cons. cbn [fst snd]. rewrite !subscribed_cons, !app_assoc.
  apply IH; [now apply life_ok_step|now apply registered_step].
Qed.
Lemma started_stays : forall es l, l_init l = None -> l_init (snd (life_run l es)) = None.
Proof.
  induction es as [|e es IH]; intros l H; [exact H|]. rewrite life_run_cons. cbn [snd]. apply IH. clear IH.
  crunch l e; try discriminate; congruence.
Qed.
Lemma happened_split : forall e o es os, length es = length os -> happened e o es os ->
  exists a b x y, es = a ++ e :: b /\ os = x ++ o :: y /\ length a = length x.
Proof.
  induction es as [|f es IH]; intros [|p os] Hl H; try discriminate; [contradiction|]. destruct H as [H|H].
  - injection H as -> ->. exists [], es, [], os. auto.
  - destruct (IH os) as (a & b & x & y & -> & -> & Hab); [cbn in Hl; congruence|exact H|].
    exists (f :: a), b, (p :: x), y. cbn. auto.
Qed.
Lemma start_done_init : forall l, fst (life_step l Start) = Done -> l_init (snd (life_step l Start)) = None.
Proof. intros l H. cbn in *. destruct (none (l_users l)); [discriminate|]. unfold start in *. destruct (l_init l) as [[? ?]|]; [reflexivity|discriminate]. Qed.
Lemma run_split : forall a e b l os, length a = length (fst (life_run l a)) ->
  fst (life_run l (a ++ e :: b)) = fst (life_run l a) ++ fst (life_step (snd (life_run l a)) e) :: os ->
  os = fst (life_run (snd (life_step (snd (life_run l a)) e)) b).
Proof.
  intros a e b l os _ H. rewrite life_run_app in H. cbn [fst] in H. apply app_inv_head in H.
  rewrite life_run_cons in H. cbn [fst] in H. injection H as H. now symmetry.
Qed.
Theorem started_once : forall before e after os l, life_run life_new (before ++ e :: after) = (os, l) ->
  happened Start Done before (firstn (length before) os) -> is_registration e ->
  nth (length before) os Nothing = AlreadyRunning \/ l_users (snd (life_run life_new before)) = 0.
Proof.
  intros before e after os l Hrun Hs He.
  pose proof (f_equal fst Hrun) as Ho. cbn [fst] in Ho. rewrite life_run_app in Ho. cbn [fst] in Ho.
  set (l1 := snd (life_run life_new before)) in *.
  assert (Hfirst : firstn (length before) os = fst (life_run life_new before)).
  { rewrite <- Ho, firstn_app, life_run_length, Nat.sub_diag, firstn_O, app_nil_r.
    rewrite <- (life_run_length before life_new). apply firstn_all. }
  rewrite Hfirst in Hs. clear Hfirst.
  assert (Hi : l_init l1 = None).
  { pose proof (life_run_length before life_new) as Hl. symmetry in Hl. destruct (happened_split _ _ _ _ Hl Hs) as (a & b & x & y & Eb & Ex & Hax).
    unfold l1. rewrite Eb in *. rewrite life_run_app. cbn [snd]. rewrite life_run_cons. cbn [snd]. apply started_stays.
    apply start_done_init. rewrite life_run_app in Ex. cbn [fst] in Ex. rewrite life_run_cons in Ex. cbn [fst] in Ex.
    apply (f_equal (fun z => nth (length x) z Nothing)) in Ex.
    rewrite app_nth2 in Ex by (rewrite life_run_length, Hax; apply Nat.le_refl).
    rewrite app_nth2 in Ex by apply Nat.le_refl.
    rewrite life_run_length, Hax, !Nat.sub_diag in Ex. exact Ex. }
  rewrite <- Ho, app_nth2 by (rewrite life_run_length; apply Nat.le_refl). rewrite life_run_length, Nat.sub_diag, life_run_cons.
  cbn [fst nth].
  destruct (none (l_users l1)) eqn:Eu; [right; destruct (l_users l1); [reflexivity|discriminate]|]. left.
  destruct e; try contradiction; cbn; rewrite Eu; unfold subscribe, start; rewrite Hi; reflexivity.
Qed.
Theorem start_takes_all : forall before os l, life_run life_new before = (os, l) -> ~ happened Start Done before os ->
  l_users l <> 0 ->
  fst (life_step l Start) = Done
  /\ l_active (snd (life_step l Start)) = Some (subscribed false before os, subscribed true before os ++ [PING]).
Proof.
  intros before os l Hrun Hn Hu.
  pose proof (registered_run before life_new [] [] life_ok_new eq_refl) as Hr.
  pose proof (life_ok_run before life_new life_ok_new) as Hok. rewrite Hrun in Hr, Hok. cbn [fst snd app] in Hr, Hok.
  assert (Hi : l_init l <> None).
  { assert (H : forall es m, life_ok m -> (l_init m <> None \/ alive m = false) -> ~ happened Start Done es (fst (life_run m es)) ->
      l_init (snd (life_run m es)) <> None \/ alive (snd (life_run m es)) = false).
    { induction es as [|e es IH]; intros m Hm H Hnn; [exact H|]. rewrite life_run_cons in *. cbn [fst snd] in *.
      apply IH; [now apply life_ok_step| |intros Hi; apply Hnn; now right].
      assert (Hne : ~ (e = Start /\ fst (life_step m e) = Done)) by (intros [-> E]; apply Hnn; left; now rewrite E).
      clear - H Hne Hm. unfold life_ok, alive in *. crunch m e; auto; try (left; discriminate); try (exfalso; apply Hne; split; reflexivity);
      destruct H as [H|H]; try congruence; auto. }
    destruct (H before life_new life_ok_new) as [H1|H1]; [left; discriminate|now rewrite Hrun| |];
      rewrite Hrun in H1; cbn [snd] in H1; [exact H1|].
    unfold alive in H1. destruct (l_users l); [congruence|discriminate]. }
  cbn. unfold registered in Hr. unfold start. destruct (l_init l) as [[ms qs]|]; [|congruence]. destruct (l_active l); [contradiction|].
  injection Hr as -> ->. destruct (l_users l); [congruence|]. cbn. split; reflexivity.
Qed.

(** *** Receiving *)

Definition taken_by (e : life_event) : list bytes :=
  match e with ReceiverTurn _ (Some (Datagram (b :: d))) => [firstn 2048 (b :: d)] | _ => [] end.
Lemma offered_cons : forall e es, offered (e :: es) = taken_by e ++ offered es.
Proof. intros e es. destruct e; try reflexivity. destruct input as [[[|? ?]|]|]; reflexivity. Qed.
Lemma handled_step : forall l e, running (l_receiver l) = true -> l_cancelled l = false -> e <> Shutdown ->
  running (l_receiver (snd (life_step l e))) = true /\ l_cancelled (snd (life_step l e)) = false
  /\ l_handled (snd (life_step l e)) = l_handled l ++ taken_by e.
Proof.
  intros l e Hr Hc Hne. crunch l e; try discriminate; rewrite ?app_nil_r; auto; congruence.
Qed.
Lemma handled_run : forall es l, running (l_receiver l) = true -> l_cancelled l = false -> ~ In Shutdown es ->
  running (l_receiver (snd (life_run l es))) = true /\ l_handled (snd (life_run l es)) = l_handled l ++ offered es.
Proof.
  induction es as [|e es IH]; intros l Hr Hc Hn; [cbn; rewrite app_nil_r; auto|].
  rewrite life_run_cons. cbn [snd]. destruct (handled_step l e Hr Hc) as (H1 & H2 & H3); [intros ->; apply Hn; now left|].
  destruct (IH _ H1 H2) as [H4 H5]; [intros H; apply Hn; now right|]. split; [exact H4|].
  rewrite H5, H3, offered_cons. now rewrite app_assoc.
Qed.
Lemma uncancelled : forall es l, l_cancelled l = false -> ~ In Shutdown es ->
  l_cancelled (snd (life_run l es)) = false \/ alive (snd (life_run l es)) = false.
Proof.
  assert (H : forall es l, (l_cancelled l = false \/ alive l = false) -> ~ In Shutdown es ->
    l_cancelled (snd (life_run l es)) = false \/ alive (snd (life_run l es)) = false).
  { induction es as [|e es IH]; intros l H Hn; [exact H|]. rewrite life_run_cons. cbn [snd].
    apply IH; [|intros Hi; apply Hn; now right].
    assert (Hne : e <> Shutdown) by (intros ->; apply Hn; now left). clear IH Hn. unfold alive in *.
    crunch l e; auto; destruct H as [H|H]; try congruence; auto. }
  intros es l Hc. apply H. now left.
Qed.
Theorem receives_all : forall before after os l, life_run life_new (before ++ Start :: after) = (os, l) ->
  nth (length before) os Nothing = Done -> ~ In Shutdown (before ++ after) ->
  l_handled l = offered after /\ l_receiver l = Running.
Proof.
  intros before after os l Hrun Hd Hn.
  pose proof (f_equal snd Hrun) as Hl. pose proof (f_equal fst Hrun) as Ho. cbn [fst snd] in Hl, Ho.
  rewrite life_run_app in Hl, Ho. cbn [fst snd] in Hl, Ho. rewrite life_run_cons in Hl, Ho. cbn [fst snd] in Hl, Ho.
  rewrite <- Ho, app_nth2, life_run_length, Nat.sub_diag in Hd by (rewrite life_run_length; apply Nat.le_refl). cbn [nth] in Hd.
  pose proof (life_ok_run before life_new life_ok_new) as Hok.
  destruct (life_run life_new before) as [os1 l1] eqn:E1. cbn [fst snd] in *.
  destruct (none (l_users l1)) eqn:Eu; [cbn in Hd; rewrite Eu in Hd; discriminate|].
  destruct (uncancelled before life_new eq_refl) as [Hc|Hc]; [intros H; apply Hn, in_or_app; now left| |];
    rewrite E1 in Hc; cbn [snd] in Hc; [|unfold alive in Hc; rewrite Eu in Hc; discriminate].
  assert (Hns : ~ happened Start Done before os1).
  { intros Hs. destruct (started_once before Start after os l Hrun) as [H|H]; [|exact I| |].
    - rewrite <- Ho, firstn_app. pose proof (life_run_length before life_new) as Hlen. rewrite E1 in Hlen. cbn [fst] in Hlen.
      rewrite <- Hlen, firstn_all, Nat.sub_diag, firstn_O, app_nil_r. exact Hs.
    - pose proof (life_run_length before life_new) as Hlen. rewrite E1 in Hlen. cbn [fst] in Hlen.
      rewrite <- Ho, app_nth2, Hlen, Nat.sub_diag in H by (cbn [fst]; rewrite Hlen; apply Nat.le_refl). cbn [nth] in H. congruence.
    - rewrite E1 in H. cbn [snd] in H. now rewrite H in Eu. }
  destruct (silent_before_start before os1 l1 E1 Hns) as [_ Hh].
  assert (Hs : running (l_receiver (snd (life_step l1 Start))) = true /\ l_cancelled (snd (life_step l1 Start)) = false
    /\ l_handled (snd (life_step l1 Start)) = []).
  { cbn in *. rewrite Eu in *. unfold start in *. destruct (l_init l1) as [[? ?]|]; [|discriminate]. cbn. auto. }
  destruct Hs as (Hs1 & Hs2 & Hs3).
  destruct (handled_run after _ Hs1 Hs2) as [H1 H2]; [intros H; apply Hn, in_or_app; now right|].
  rewrite <- Hl. split; [now rewrite H2, Hs3|]. destruct (l_receiver (snd (life_run _ after))); try discriminate. reflexivity.
Qed.

(** *** Sending without a shutdown *)

Lemma sending_step : forall l e, running (l_sender l) = true -> running (l_receiver l) = true -> l_cancelled l = false -> e <> Shutdown ->
  running (l_sender (snd (life_step l e))) = true.
Proof. intros l e Hs Hr Hc Hne. crunch l e; try discriminate; auto; congruence. Qed.
Lemma sending_run : forall es l, running (l_sender l) = true -> running (l_receiver l) = true -> l_cancelled l = false -> ~ In Shutdown es ->
  running (l_sender (snd (life_run l es))) = true /\ l_cancelled (snd (life_run l es)) = false.
Proof.
  induction es as [|e es IH]; intros l Hs Hr Hc Hn; [split; assumption|].
  rewrite life_run_cons. cbn [snd]. assert (Hne : e <> Shutdown) by (intros ->; apply Hn; now left).
  destruct (handled_step l e Hr Hc Hne) as (H1 & H2 & _).
  apply IH; auto; [now apply sending_step|]. intros H; apply Hn; now right.
Qed.
Lemma turns_send : forall k c l, running (l_sender l) = true -> running (l_receiver l) = true -> l_cancelled l = false ->
  length (l_queue l) <= k -> l_wire (snd (life_run l (repeat (SenderTurn c) k))) = l_wire l ++ l_queue l.
Proof.
  induction k as [|k IH]; intros c l Hs Hr Hc Hk.
  - destruct (l_queue l); [cbn; now rewrite app_nil_r|cbn in Hk; lia].
  - cbn [repeat]. rewrite life_run_cons. cbn [snd].
    assert (Hne : SenderTurn c <> Shutdown) by discriminate.
    destruct (handled_step l (SenderTurn c) Hr Hc Hne) as (H1 & H2 & _).
    pose proof (sending_step l (SenderTurn c) Hs Hr Hc Hne) as H3.
    rewrite (IH c _ H3 H1 H2); cbn [life_step snd]; unfold sender_turn; rewrite Hs, Hc, andb_false_r.
    + destruct (l_queue l) as [|d q] eqn:Eq; cbn [l_wire l_queue]; [|now rewrite <- app_assoc].
      unfold alive. rewrite Hr, orb_true_r. cbn [negb orb]. now rewrite Eq.
    + destruct (l_queue l) as [|d q] eqn:Eq; cbn [l_queue].
      * unfold alive. rewrite Hr, orb_true_r. cbn [negb orb]. rewrite Eq. cbn. lia.
      * cbn in Hk. lia.
Qed.
Theorem sends_all : forall before after os l, life_run life_new (before ++ Start :: after) = (os, l) ->
  nth (length before) os Nothing = Done -> ~ In Shutdown (before ++ after) ->
  l_sender l = Running
  /\ accepted (before ++ Start :: after) os = l_wire l ++ l_queue l
  /\ (forall c k, length (l_queue l) <= k ->
      l_wire (snd (life_run l (repeat (SenderTurn c) k))) = accepted (before ++ Start :: after) os).
Proof.
  intros before after os l Hrun Hd Hn.
  destruct (receives_all before after os l Hrun Hd Hn) as [_ Hrec].
  assert (Hsc : running (l_sender l) = true /\ l_cancelled l = false).
  { pose proof (f_equal snd Hrun) as Hl. pose proof (f_equal fst Hrun) as Ho. cbn [fst snd] in Hl, Ho.
    rewrite life_run_app in Hl, Ho. cbn [fst snd] in Hl, Ho. rewrite life_run_cons in Hl, Ho. cbn [fst snd] in Hl, Ho.
    rewrite <- Ho, app_nth2, life_run_length, Nat.sub_diag in Hd by (rewrite life_run_length; apply Nat.le_refl). cbn [nth] in Hd.
    destruct (life_run life_new before) as [os1 l1] eqn:E1. cbn [fst snd] in *.
    destruct (none (l_users l1)) eqn:Eu; [cbn in Hd; rewrite Eu in Hd; discriminate|].
    destruct (uncancelled before life_new eq_refl) as [Hc|Hc]; [intros H; apply Hn, in_or_app; now left| |];
      rewrite E1 in Hc; cbn [snd] in Hc; [|unfold alive in Hc; rewrite Eu in Hc; discriminate].
    rewrite <- Hl. apply sending_run; try (intros H; apply Hn, in_or_app; now right);
      cbn in *; rewrite Eu in *; unfold start in *; destruct (l_init l1) as [[? ?]|]; try discriminate; try reflexivity; exact Hc. }
  destruct Hsc as [Hs Hc].
  assert (Hsr : l_sender l = Running) by (destruct (l_sender l); try discriminate; reflexivity).
  assert (Hacc : accepted (before ++ Start :: after) os = l_wire l ++ l_queue l).
  { destruct (sent_in_order _ _ _ Hrun) as (rest & He & Hq). rewrite He, Hq; [reflexivity|rewrite Hsr; discriminate|].
    unfold alive. rewrite Hrec. cbn [running]. now rewrite orb_true_r. }
  split; [exact Hsr|]. split; [exact Hacc|]. intros c k Hk. rewrite Hacc. apply turns_send; auto. now rewrite Hrec.
Qed.

(** *** Shutdown *)

Lemma cancelled_step : forall l e, l_cancelled l = true -> l_cancelled (snd (life_step l e)) = true.
Proof. intros l e H. crunch l e; congruence. Qed.
Lemma cancelled_run : forall es l, l_cancelled l = true -> l_cancelled (snd (life_run l es)) = true.
Proof. induction es as [|e es IH]; intros l H; [exact H|]. rewrite life_run_cons. cbn [snd]. apply IH. now apply cancelled_step. Qed.
Lemma shutdown_cancels : forall es l, happened Shutdown Done es (fst (life_run l es)) -> l_cancelled (snd (life_run l es)) = true.
Proof.
  induction es as [|e es IH]; intros l H; [contradiction|]. rewrite life_run_cons in *. cbn [fst snd] in *.
  destruct H as [H|H]; [|now apply IH]. injection H as -> H. apply cancelled_run. cbn in *.
  destruct (none (l_users l)); [discriminate|reflexivity].
Qed.
Definition started (l : life) : Prop :=
  l_cancelled l = true /\ l_init l = None /\ not_started (l_sender l) = false /\ not_started (l_receiver l) = false.
Lemma started_step : forall l e, started l -> started (snd (life_step l e)).
Proof. intros l e (H0 & Hi & H1 & H2). unfold started. crunch l e; split_hyps; repeat split; congruence. Qed.
Lemma sender_over : forall es l, started l ->
  (l_sender l = Ended \/ length (l_queue l) + length (filter is_send es) < length (filter is_sender_turn es)) ->
  l_sender (snd (life_run l es)) = Ended.
Proof.
  induction es as [|e es IH]; intros l Hs H.
  - destruct H as [H|H]; [exact H|cbn in H; lia].
  - rewrite life_run_cons. cbn [snd]. apply IH; [now apply started_step|]. clear IH.
    destruct Hs as (H0 & Hi & H1 & H2).
    crunch l e; split_hyps; cbn [filter is_send is_sender_turn length] in H; destruct H as [H|H]; try discriminate;
      rewrite ?app_length in *; cbn [length] in *; first [left; congruence | right; lia].
Qed.
Lemma receiver_over : forall es l, started l -> (l_receiver l = Ended \/ exists c, In (ReceiverTurn c None) es) ->
  l_receiver (snd (life_run l es)) = Ended.
Proof.
  induction es as [|e es IH]; intros l Hs H.
  - destruct H as [H|[c []]]. exact H.
  - rewrite life_run_cons. cbn [snd]. apply IH; [now apply started_step|]. clear IH.
    destruct Hs as (H0 & Hi & H1 & H2).
    assert (H' : l_receiver l = Ended \/ (exists c, e = ReceiverTurn c None) \/ exists c, In (ReceiverTurn c None) es).
    { destruct H as [H|[c [H|H]]]; [now left|right; left; now exists c|right; right; now exists c]. }
    clear H. destruct H' as [H|[[c ->]|H]]; [left|left|now right].
    + crunch l e; split_hyps; congruence.
    + destruct l; comp; split_goal; congruence.
Qed.
Theorem shutdown_ends : forall before os l es os' l',
  life_run life_new before = (os, l) -> happened Start Done before os -> happened Shutdown Done before os ->
  life_run l es = (os', l') ->
  (length (l_queue l) + length (filter is_send es) < length (filter is_sender_turn es) -> l_sender l' = Ended)
  /\ (forall c, In (ReceiverTurn c None) es -> l_receiver l' = Ended).
Proof.
  intros before os l es os' l' Hrun Hst Hsh Hrun'.
  assert (Hs : started l).
  { pose proof (shutdown_cancels before life_new) as Hc. rewrite Hrun in Hc. cbn [fst snd] in Hc. specialize (Hc Hsh).
    assert (Hx : forall es m, happened Start Done es (fst (life_run m es)) ->
      l_init (snd (life_run m es)) = None /\ not_started (l_sender (snd (life_run m es))) = false /\ not_started (l_receiver (snd (life_run m es))) = false).
    { clear. assert (Hk : forall es m, l_init m = None -> not_started (l_sender m) = false -> not_started (l_receiver m) = false ->
        l_init (snd (life_run m es)) = None /\ not_started (l_sender (snd (life_run m es))) = false /\ not_started (l_receiver (snd (life_run m es))) = false).
      { induction es as [|e es IH]; intros m Hi H1 H2; [auto|]. rewrite life_run_cons. cbn [snd].
        assert (Hm : l_init (snd (life_step m e)) = None /\ not_started (l_sender (snd (life_step m e))) = false
          /\ not_started (l_receiver (snd (life_step m e))) = false).
        { clear IH. crunch m e; split_hyps; repeat split; congruence. }
        destruct Hm as (Ha & Hb & Hc). now apply IH. }
      induction es as [|e es IH]; intros m H; [contradiction|]. rewrite life_run_cons in *. cbn [fst snd] in *.
      destruct H as [H|H]; [|now apply IH]. injection H as -> H. 
      assert (Hm : l_init (snd (life_step m Start)) = None /\ not_started (l_sender (snd (life_step m Start))) = false
          /\ not_started (l_receiver (snd (life_step m Start))) = false).
      { clear IH. destruct m as [us ini can q snd_ rcv tk ac wi ha]. comp. split_hyps. repeat split. }
      destruct Hm as (Ha & Hb & Hc). now apply Hk. }
    specialize (Hx before life_new). rewrite Hrun in Hx. cbn [fst snd] in Hx. specialize (Hx Hst). exact (conj Hc Hx). }
  pose proof (f_equal snd Hrun') as Hl. cbn [snd] in Hl. rewrite <- Hl. split.
  - intros H. apply sender_over; [exact Hs|now right].
  - intros c H. apply receiver_over; [exact Hs|]. right. now exists c.
Qed.
(** What is over stays over. *)
Lemma over_step : forall l e, l_init l = None ->
  (l_sender l = Ended -> l_sender (snd (life_step l e)) = Ended /\ l_wire (snd (life_step l e)) = l_wire l
    /\ (forall d, e = Send d -> fst (life_step l e) <> Done))
  /\ (l_receiver l = Ended -> l_receiver (snd (life_step l e)) = Ended /\ l_handled (snd (life_step l e)) = l_handled l)
  /\ l_init (snd (life_step l e)) = None.
Proof.
  intros l e Hi. split; [|split].
  - intros H. crunch l e; subst; comp; try discriminate; repeat split; intros; try discriminate; congruence.
  - intros H. crunch l e; subst; comp; try discriminate; repeat split; intros; try discriminate; congruence.
  - crunch l e; congruence.
Qed.
Theorem over_forever : forall before os l es os' l',
  life_run life_new before = (os, l) -> life_run l es = (os', l') ->
  (l_sender l = Ended -> l_wire l' = l_wire l /\ accepted es os' = [])
  /\ (l_receiver l = Ended -> l_handled l' = l_handled l).
Proof.
  intros before os l es os' l' Hrun Hrun'. 
  assert (Hok : life_ok l) by (pose proof (life_ok_run before life_new life_ok_new) as H; now rewrite Hrun in H).
  assert (Hinit : l_sender l = Ended \/ l_receiver l = Ended -> l_init l = None).
  { intros H. unfold life_ok in Hok. destruct (l_init l); [|reflexivity]. destruct Hok as (H1 & H2 & _).
    destruct H as [H|H]; rewrite H in *; discriminate. }
  clear Hrun before os Hok. revert l os' l' Hrun' Hinit. induction es as [|e es IH]; intros l os' l' Hrun' Hinit.
  - cbn in Hrun'. injection Hrun' as <- <-. auto.
  - rewrite life_run_cons in Hrun'. injection Hrun' as <- <-.
    destruct (life_run (snd (life_step l e)) es) as [os1 l1] eqn:E. specialize (IH _ _ _ E). cbn [fst snd]. split.
    + intros Hs. destruct (over_step l e (Hinit (or_introl Hs))) as (H1 & H2 & H3).
      destruct (H1 Hs) as (H4 & H5 & H6). destruct IH as [IH _]; [intros _; exact H3|].
      destruct (IH H4) as [IH1 IH2]. split; [congruence|]. rewrite accepted_cons, IH2, app_nil_r.
      destruct e; try reflexivity. cbn [sent_by]. specialize (H6 d eq_refl). destruct (fst (life_step l (Send d))); try reflexivity. congruence.
    + intros Hr. destruct (over_step l e (Hinit (or_intror Hr))) as (H1 & H2 & H3).
      destruct (H2 Hr) as (H4 & H5). destruct IH as [_ IH]; [intros _; exact H3|].
      rewrite (IH H4). exact H5.
Qed.

(** *** Dropping *)

Theorem dropped_runs : exists before after os l, life_run life_new (before ++ Start :: after) = (os, l)
  /\ nth (length before) os Nothing = Done /\ ~ In Shutdown (before ++ after)
  /\ l_users l = 0 /\ l_receiver l = Running /\ l_handled l = [[3%N; 4%N]; [5%N]].
Proof.
  exists (firstn 5 a_life), (skipn 6 a_life).
  assert (H : exists x, life_run life_new (firstn 5 a_life ++ Start :: skipn 6 a_life) = x /\ nth 5 (fst x) Nothing = Done
    /\ l_users (snd x) = 0 /\ l_receiver (snd x) = Running /\ l_handled (snd x) = [[3%N; 4%N]; [5%N]]).
  { eexists. split; [vm_compute; reflexivity|]. repeat split. }
  destruct H as ([os l] & H1 & H2 & H3 & H4 & H5). exists os, l. split; [exact H1|]. split; [exact H2|]. split; [|auto].
  unfold a_life. cbn. intuition discriminate.
Qed.
