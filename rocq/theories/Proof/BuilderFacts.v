From Coq Require Import List Arith Bool Lia.
From Verif.Model Require Import Builder.
From Verif.Spec Require Import BuilderSpec.
Import ListNotations.

Notation fresh ms qs := (Some (mk_adnl (Some (ms, qs)) None)).

Lemma on_rldp_nil : forall L, on_rldp (fun s => s ++ []) L = L.
Proof.
  induction L as [|d L IH]; [reflexivity|]. destruct d as [o|[s|]|t|r]; cbn [on_rldp]; rewrite ?IH, ?app_nil_r; reflexivity.
Qed.
Lemma on_rldp_twice : forall x y L, on_rldp (fun s => s ++ y) (on_rldp (fun s => s ++ x) L) = on_rldp (fun s => s ++ x ++ y) L.
Proof.
  intros x y. induction L as [|d L IH]; [reflexivity|].
  destruct d as [o|[s|]|t|r]; cbn [on_rldp]; rewrite ?IH, <- ?app_assoc; reflexivity.
Qed.
Lemma on_rldp_length : forall f L, length (on_rldp f L) = length L.
Proof. intros f. induction L as [|d L IH]; [reflexivity|]. destruct d as [o|[s|]|t|r]; cbn; auto. Qed.
Lemma on_rldp_ready : forall f L, rldp_ready (on_rldp f L) = rldp_ready L.
Proof. intros f. induction L as [|d L IH]; [reflexivity|]. destruct d as [o|[s|]|t|r]; cbn; auto. Qed.

(** The layers of a chain without failures. *)
Fixpoint new_layers (calls : list (nat * call)) : list deferred :=
  match calls with
  | [] => []
  | (_, CallRldp subs) :: r => new_layers r ++ [DRldp (Some (map SUser subs ++ overlays_until_rldp r))]
  | (_, CallDht tag) :: r => new_layers r ++ [DDht (Some tag)]
  | (_, CallOverlay _) :: r => new_layers r ++ [DOverlay OverlayOk]
  | _ :: r => new_layers r
  end.

Lemma calls_fine : forall keys calls L ms qs, typed (rldp_ready L) calls = true -> forallb keys (flat_map tag_of calls) = true ->
  let nc := numbered (length L) calls in
  fold_left (apply_call keys) calls (mk_builder L (fresh ms qs))
  = mk_builder (new_layers nc ++ on_rldp (fun s => s ++ overlays_until_rldp nc) L)
      (fresh (ms ++ early_messages nc) (qs ++ early_queries nc)).
Proof.
  intros keys calls. induction calls as [|c calls IH]; intros L ms qs Ht Hk; cbv zeta.
  { cbn [numbered fold_left new_layers overlays_until_rldp app]. unfold early_messages, early_queries. cbn [flat_map].
    rewrite on_rldp_nil, !app_nil_r. reflexivity. }
  destruct c as [n|n|subs|tag|tag]; cbn [fold_left apply_call numbered typed] in *.
  - unfold with_query_subscriber, add_query_subscriber. cbn [bl_adnl ad_init bl_layers ad_running].
    rewrite IH by assumption. cbv zeta. unfold early_messages, early_queries. cbn [flat_map new_layers overlays_until_rldp app].
    now rewrite <- !app_assoc.
  - unfold with_message_subscriber, add_message_subscriber. cbn [bl_adnl ad_init bl_layers ad_running].
    rewrite IH by assumption. cbv zeta. unfold early_messages, early_queries. cbn [flat_map new_layers overlays_until_rldp app].
    now rewrite <- !app_assoc.
  - unfold with_rldp. cbn [bl_adnl bl_layers]. rewrite IH by assumption. cbv zeta. cbn [length].
    unfold early_messages, early_queries. cbn [flat_map new_layers overlays_until_rldp app on_rldp].
    rewrite on_rldp_nil, <- app_assoc. reflexivity.
  - unfold with_dht. cbn [bl_adnl bl_layers]. cbn [flat_map tag_of app forallb] in Hk. apply andb_prop in Hk as [_ Hk].
    rewrite IH by assumption. cbv zeta. cbn [length].
    unfold early_messages, early_queries. cbn [flat_map new_layers overlays_until_rldp app on_rldp].
    rewrite <- app_assoc. reflexivity.
  - apply andb_prop in Ht as [Hr Ht]. cbn [flat_map tag_of app forallb] in Hk. apply andb_prop in Hk as [Hkt Hk].
    unfold with_overlay. cbn [bl_adnl bl_layers]. rewrite Hr. unfold overlay_new. rewrite Hkt.
    unfold add_query_subscriber, add_message_subscriber. cbn [ad_init ad_running].
    rewrite IH; [|cbn [rldp_ready]; rewrite on_rldp_ready, Hr in *; exact Ht|exact Hk].
    cbv zeta. cbn [length]. rewrite on_rldp_length.
    unfold early_messages, early_queries. cbn [flat_map new_layers overlays_until_rldp app on_rldp].
    rewrite on_rldp_twice, <- !app_assoc. reflexivity.
Qed.

Lemma initialize_fine : forall keys calls T ms qs, forallb keys (flat_map tag_of calls) = true ->
  let nc := numbered (length T) calls in
  initialize_all keys (fresh ms qs) (new_layers nc ++ T)
  = match initialize_all keys (fresh (ms ++ late_messages nc) (qs ++ late_queries nc)) T with
    | (a, inl cs) => (a, inl (cs ++ components nc))
    | (a, inr e) => (a, inr e)
    end.
Proof.
  intros keys calls. induction calls as [|c calls IH]; intros T ms qs Hk; cbv zeta.
  { cbn [numbered new_layers app components]. unfold late_messages, late_queries. cbn [flat_map rev]. rewrite !app_nil_r.
    destruct (initialize_all keys (fresh ms qs) T) as [a [cs|e]]; [now rewrite app_nil_r|reflexivity]. }
  destruct c as [n|n|subs|tag|tag]; cbn [numbered new_layers components] in *.
  - unfold late_messages, late_queries. cbn [flat_map app]. now apply IH.
  - unfold late_messages, late_queries. cbn [flat_map app]. now apply IH.
  - rewrite <- app_assoc. cbn [app]. set (d := DRldp _). change (S (length T)) with (length (d :: T)). rewrite IH by exact Hk. cbv zeta.
    cbn [initialize_all length]. unfold late_messages, late_queries. cbn [flat_map app rev].
    unfold d. cbn [initialize]. unfold add_message_subscriber. cbn [ad_init ad_running]. rewrite <- app_assoc.
    match goal with |- context [initialize_all keys ?a T] => destruct (initialize_all keys a T) as [x [cs|e]]; [|reflexivity] end.
    now rewrite <- app_assoc.
  - cbn [flat_map tag_of app forallb] in Hk. apply andb_prop in Hk as [Hkt Hk].
    rewrite <- app_assoc. cbn [app]. set (d := DDht _). change (S (length T)) with (length (d :: T)). rewrite IH by exact Hk. cbv zeta.
    cbn [initialize_all length]. unfold late_messages, late_queries. cbn [flat_map app rev].
    unfold d. cbn [initialize]. rewrite Hkt. unfold add_query_subscriber. cbn [ad_init ad_running]. rewrite <- app_assoc.
    match goal with |- context [initialize_all keys ?a T] => destruct (initialize_all keys a T) as [x [cs|e]]; [|reflexivity] end.
    now rewrite <- app_assoc.
  - cbn [flat_map tag_of app forallb] in Hk. apply andb_prop in Hk as [Hkt Hk].
    rewrite <- app_assoc. cbn [app]. set (d := DOverlay _). change (S (length T)) with (length (d :: T)). rewrite IH by exact Hk. cbv zeta.
    cbn [initialize_all length]. unfold late_messages, late_queries. cbn [flat_map app rev].
    unfold d. cbn [initialize].
    match goal with |- context [initialize_all keys ?a T] => destruct (initialize_all keys a T) as [x [cs|e]]; [|reflexivity] end.
    now rewrite <- app_assoc.
Qed.

Lemma build_fine : forall keys calls, typed false calls = true -> all_fine keys true calls = true ->
  let nc := numbered 1 calls in
  run_builder keys true calls
  = (Some (mk_adnl None (Some (early_messages nc ++ late_messages nc, early_queries nc ++ late_queries nc ++ [SPing]))),
     inl (CAdnl :: components nc)).
Proof.
  intros keys calls Ht Hk nc. unfold all_fine in Hk. cbn [andb] in Hk. unfold run_builder, build, with_adnl, adnl_new.
  rewrite (calls_fine keys calls [DAdnl true] [] []) by assumption. cbv zeta. cbn [length bl_adnl bl_layers on_rldp app]. fold nc.
  pose proof (initialize_fine keys calls [DAdnl true] (early_messages nc) (early_queries nc) Hk) as H. cbv zeta in H.
  cbn [length] in H. fold nc in H. rewrite H. cbn [initialize_all length initialize]. unfold start. cbn [ad_init].
  now rewrite <- app_assoc.
Qed.

(** Failures. *)
Definition failing (keys : nat -> bool) (d : deferred) : bool :=
  match d with
  | DAdnl ok => negb ok
  | DRldp None | DDht None | DOverlay (OverlayErr _) => true
  | DDht (Some t) => negb (keys t)
  | _ => false
  end.
Lemma initialize_failing : forall keys a k d, failing keys d = true -> exists e, initialize keys a k d = (a, inr e).
Proof.
  intros keys a k d H. destruct d as [[|]|[s|]|[t|]|[|e]]; cbn in H; try discriminate; cbn [initialize]; destruct a; eauto.
  all: apply negb_true_iff in H; rewrite H; eauto.
Qed.
Lemma fails : forall keys l a, existsb (failing keys) l = true -> exists a' e, initialize_all keys a l = (a', inr e).
Proof.
  intros keys l. induction l as [|d l IH]; intros a H; [discriminate|]. cbn [existsb initialize_all] in *.
  apply orb_prop in H as [H|H].
  - destruct (initialize_failing keys a (length l) d H) as (e & ->). eauto.
  - destruct (initialize keys a (length l) d) as [a1 [c|e]]; [|eauto]. destruct (IH a1 H) as (a' & e & ->). eauto.
Qed.
Lemma on_rldp_failing : forall keys f l, existsb (failing keys) (on_rldp f l) = existsb (failing keys) l.
Proof. intros keys f. induction l as [|d l IH]; [reflexivity|]. destruct d as [o|[s|]|t|r]; cbn; rewrite ?IH; reflexivity. Qed.
Lemma failing_stays : forall keys b c, existsb (failing keys) (bl_layers b) = true ->
  existsb (failing keys) (bl_layers (apply_call keys b c)) = true.
Proof.
  intros keys b c H. destruct c as [n|n|subs|tag|tag]; cbn [apply_call].
  - unfold with_query_subscriber. destruct (bl_adnl b); [|exact H]. destruct (add_query_subscriber _ _); exact H.
  - unfold with_message_subscriber. destruct (bl_adnl b); [|exact H]. destruct (add_message_subscriber _ _); exact H.
  - unfold with_rldp. cbn [bl_layers existsb]. rewrite H. apply orb_true_r.
  - unfold with_dht. cbn [bl_layers existsb]. rewrite H. apply orb_true_r.
  - unfold with_overlay. destruct (rldp_ready (bl_layers b)); [|cbn [bl_layers existsb]; rewrite H; apply orb_true_r].
    destruct (bl_adnl b); [|cbn [bl_layers existsb]; rewrite H; apply orb_true_r].
    cbv zeta. destruct (overlay_new keys a (length (bl_layers b)) tag) as [a' [|e]]; cbn [bl_layers existsb];
      rewrite ?on_rldp_failing, H; apply orb_true_r.
Qed.
Lemma failing_run : forall keys calls b, existsb (failing keys) (bl_layers b) = true ->
  existsb (failing keys) (bl_layers (fold_left (apply_call keys) calls b)) = true.
Proof. intros keys calls. induction calls as [|c r IH]; intros b H; [exact H|]. cbn [fold_left]. apply IH, failing_stays, H. Qed.
Lemma bad_tag_fails : forall keys b c, forallb keys (tag_of c) = false ->
  existsb (failing keys) (bl_layers (apply_call keys b c)) = true.
Proof.
  intros keys b c H. destruct c as [n|n|subs|tag|tag]; try discriminate; cbn [tag_of forallb] in H; rewrite andb_true_r in H; cbn [apply_call].
  - unfold with_dht. cbn [bl_layers existsb]. destruct (bl_adnl b); cbn [failing]; rewrite ?H; reflexivity.
  - unfold with_overlay. destruct (rldp_ready (bl_layers b)); [|reflexivity]. destruct (bl_adnl b); [|reflexivity].
    cbv zeta. unfold overlay_new. rewrite H. reflexivity.
Qed.
Lemma not_fine_fails : forall keys calls bound, all_fine keys bound calls = false ->
  existsb (failing keys) (bl_layers (fold_left (apply_call keys) calls (with_adnl bound))) = true.
Proof.
  intros keys calls bound H. destruct bound; [|apply failing_run; reflexivity]. cbn [all_fine andb] in H. unfold all_fine in H. cbn [andb] in H.
  generalize (with_adnl true) as b. revert H. induction calls as [|c calls IH]; intros H b; [discriminate|].
  cbn [flat_map fold_left] in *. rewrite forallb_app in H. destruct (forallb keys (tag_of c)) eqn:E.
  - apply IH. exact H.
  - apply failing_run. now apply bad_tag_fails.
Qed.

(** Nothing runs before the ADNL layer itself, which is initialized last. *)
Definition waiting (a : option adnl) : Prop := match a with Some n => ad_running n = None | None => True end.
Definition is_adnl (d : deferred) : bool := match d with DAdnl _ => true | _ => false end.
Lemma initialize_waits : forall keys a k d, is_adnl d = false -> waiting a -> waiting (fst (initialize keys a k d)).
Proof.
  intros keys a k d Hd Hw. destruct d as [o|[s|]|[t|]|[|e]]; try discriminate; destruct a as [n|]; cbn [initialize]; try exact Hw.
  - unfold add_message_subscriber. destruct (ad_init n) as [[ms qs]|]; exact Hw.
  - destruct (keys t); [|exact Hw]. unfold add_query_subscriber. destruct (ad_init n) as [[ms qs]|]; exact Hw.
Qed.
Lemma error_waits : forall keys front a ok a' e, forallb (fun d => negb (is_adnl d)) front = true -> waiting a ->
  initialize_all keys a (front ++ [DAdnl ok]) = (a', inr e) -> waiting a'.
Proof.
  intros keys front. induction front as [|d front IH]; intros a ok a' e Hf Hw H.
  - cbn [app initialize_all length] in H. destruct ok; cbn [initialize] in H.
    + destruct a as [n|].
      * destruct (start n); [discriminate|]. injection H as <- _. exact Hw.
      * injection H as <- _. exact I.
    + injection H as <- _. exact Hw.
  - cbn [app initialize_all forallb] in *. apply andb_prop in Hf as [Hd Hf]. apply negb_true_iff in Hd.
    pose proof (initialize_waits keys a (length (front ++ [DAdnl ok])) d Hd Hw) as Hw1.
    destruct (initialize keys a _ d) as [a1 [c|e1]]; cbn [fst] in Hw1.
    + destruct (initialize_all keys a1 (front ++ [DAdnl ok])) as [a2 [cs|e2]] eqn:E; [discriminate|]. injection H as <- _.
      exact (IH a1 ok a2 e2 Hf Hw1 E).
    + injection H as <- _. exact Hw1.
Qed.
Definition shape (bound : bool) (b : builder) : Prop :=
  waiting (bl_adnl b) /\ exists front, bl_layers b = front ++ [DAdnl bound] /\ forallb (fun d => negb (is_adnl d)) front = true.
Lemma shape_on_rldp : forall f bound front, forallb (fun d => negb (is_adnl d)) front = true ->
  exists front', on_rldp f (front ++ [DAdnl bound]) = front' ++ [DAdnl bound] /\ forallb (fun d => negb (is_adnl d)) front' = true.
Proof.
  intros f bound front. induction front as [|d front IH]; intros H; [exists []; split; reflexivity|].
  cbn [forallb app] in *. apply andb_prop in H as [Hd H]. destruct (IH H) as (fr & E & Hfr).
  destruct d as [o|[s|]|t|r]; cbn [on_rldp]; try discriminate.
  - exists (DRldp (Some (f s)) :: front). split; [reflexivity|]. cbn. exact H.
  - exists (DRldp None :: front). split; [reflexivity|]. cbn. exact H.
  - exists (DDht t :: fr). split; [now rewrite E|]. cbn. exact Hfr.
  - exists (DOverlay r :: fr). split; [now rewrite E|]. cbn. exact Hfr.
Qed.
Lemma shape_step : forall keys bound b c, shape bound b -> shape bound (apply_call keys b c).
Proof.
  intros keys bound b c [Hw (front & Hl & Hf)]. destruct c as [n|n|subs|tag|tag]; cbn [apply_call].
  - unfold with_query_subscriber. destruct (bl_adnl b) as [a|] eqn:Ea; [|split; [rewrite Ea; exact Hw|now exists front]].
    unfold add_query_subscriber. destruct (ad_init a) as [[ms qs]|]; (split; [|now exists front]); [exact Hw|rewrite Ea; exact Hw].
  - unfold with_message_subscriber. destruct (bl_adnl b) as [a|] eqn:Ea; [|split; [rewrite Ea; exact Hw|now exists front]].
    unfold add_message_subscriber. destruct (ad_init a) as [[ms qs]|]; (split; [|now exists front]); [exact Hw|rewrite Ea; exact Hw].
  - split; [exact Hw|]. unfold with_rldp. cbn [bl_layers]. rewrite Hl. eexists (_ :: front). split; [reflexivity|exact Hf].
  - split; [exact Hw|]. unfold with_dht. cbn [bl_layers]. rewrite Hl. eexists (_ :: front). split; [reflexivity|exact Hf].
  - unfold with_overlay. destruct (rldp_ready (bl_layers b)); [|split; [exact Hw|]; cbn [bl_layers]; rewrite Hl; eexists (_ :: front); split; [reflexivity|exact Hf]].
    destruct (bl_adnl b) as [a|]; [|split; [exact I|]; cbn [bl_layers]; rewrite Hl; eexists (_ :: front); split; [reflexivity|exact Hf]].
    cbv zeta. unfold overlay_new, add_query_subscriber, add_message_subscriber.
    destruct (shape_on_rldp (fun subs => subs ++ [SOverlay (length (bl_layers b))]) bound front Hf) as (fr & E & Hfr).
    destruct (keys tag).
    + destruct (ad_init a) as [[ms qs]|].
      * cbn [ad_init ad_running]. split; [exact Hw|]. cbn [bl_layers]. rewrite Hl in E |- *. rewrite E. eexists (_ :: fr). split; [reflexivity|exact Hfr].
      * split; [exact Hw|]. cbn [bl_layers]. rewrite Hl. eexists (_ :: front). split; [reflexivity|exact Hf].
    + split; [exact Hw|]. cbn [bl_layers]. rewrite Hl. eexists (_ :: front). split; [reflexivity|exact Hf].
Qed.
Lemma shape_run : forall keys bound calls b, shape bound b -> shape bound (fold_left (apply_call keys) calls b).
Proof. intros keys bound calls. induction calls as [|c r IH]; intros b H; [exact H|]. cbn [fold_left]. apply IH, shape_step, H. Qed.
Lemma shape_start : forall bound, shape bound (with_adnl bound).
Proof. intros bound. split; [destruct bound; exact eq_refl || exact I|]. exists []. split; reflexivity. Qed.

Lemma error_starts_nothing : forall keys bound calls a e, run_builder keys bound calls = (a, inr e) -> running_of a = None.
Proof.
  intros keys bound calls a e H. unfold run_builder, build in H.
  destruct (shape_run keys bound calls _ (shape_start bound)) as [Hw (front & Hl & Hf)]. rewrite Hl in H.
  pose proof (error_waits keys front _ bound a e Hf Hw H) as W. unfold waiting in W. destruct a; [exact W|reflexivity].
Qed.

Lemma builder_result : forall keys bound calls, typed false calls = true ->
  let nc := numbered 1 calls in
  let '(a, r) := run_builder keys bound calls in
  match r with
  | inl cs => all_fine keys bound calls = true /\ cs = CAdnl :: components nc
      /\ running_of a = Some (early_messages nc ++ late_messages nc, early_queries nc ++ late_queries nc ++ [SPing])
  | inr _ => all_fine keys bound calls = false /\ running_of a = None
  end.
Proof.
  intros keys bound calls Ht nc. destruct (run_builder keys bound calls) as [a r] eqn:E.
  destruct (all_fine keys bound calls) eqn:Ef.
  - assert (bound = true) as -> by (unfold all_fine in Ef; now apply andb_prop in Ef as [-> _]).
    rewrite (build_fine keys calls Ht Ef) in E. injection E as <- <-. cbv zeta. split; [reflexivity|]. split; reflexivity.
  - destruct (fails keys _ (bl_adnl (fold_left (apply_call keys) calls (with_adnl bound))) (not_fine_fails keys calls bound Ef)) as (a' & e & Hx).
    unfold run_builder, build in E. rewrite Hx in E. injection E as <- <-. split; [reflexivity|].
    apply (error_starts_nothing keys bound calls a' e). exact Hx.
Qed.

(** Which error: without ADNL every other layer hides the reason. *)
Lemma no_adnl : forall keys calls b, bl_adnl b = None ->
  bl_adnl (fold_left (apply_call keys) calls b) = None.
Proof.
  intros keys calls. induction calls as [|c r IH]; intros b H; [exact H|]. cbn [fold_left]. apply IH.
  destruct c; cbn [apply_call]; unfold with_query_subscriber, with_message_subscriber, with_rldp, with_dht, with_overlay; rewrite ?H; try exact H; try reflexivity.
  destruct (rldp_ready (bl_layers b)); reflexivity.
Qed.

(** A node in the hands of its owner. *)
Lemma node_started : forall ops run log, exists log',
  fold_left node_step ops (mk_adnl None (Some run), log) = (mk_adnl None (Some run), log ++ log') /\ Forall (eq false) log' /\ length log' = length ops.
Proof.
  intros ops run. induction ops as [|o ops IH]; intros log.
  - exists []. rewrite app_nil_r. repeat split. constructor.
  - cbn [fold_left]. destruct (IH (log ++ [false])) as (log' & E & F & L). exists (false :: log').
    assert (node_step (mk_adnl None (Some run), log) o = (mk_adnl None (Some run), log ++ [false])) as -> by (destruct o; reflexivity).
    rewrite E, <- app_assoc. repeat split; [constructor; [reflexivity|exact F]|]. cbn [length]. now rewrite L.
Qed.
Lemma node_calls : forall ops ms qs log,
  let '(a, log') := fold_left node_step ops (mk_adnl (Some (ms, qs)) None, log) in
  let early := before_start ops in
  ad_running a = (if starts ops then Some (ms ++ given_messages early, qs ++ given_queries early ++ [SPing]) else None)
  /\ log' = log ++ map (fun _ => true) early
       ++ (if starts ops then true :: repeat false (length ops - length early - 1) else []).
Proof.
  intros ops. induction ops as [|o ops IH]; intros ms qs log.
  - cbn. rewrite !app_nil_r. split; reflexivity.
  - cbn [fold_left]. destruct o as [s|s|].
    + cbn [node_step add_message_subscriber ad_init ad_running]. specialize (IH (ms ++ [s]) qs (log ++ [true])).
      destruct (fold_left node_step ops _) as [a log'] eqn:E. cbv zeta in *. destruct IH as [I1 I2]. split.
      * rewrite I1. change (starts (NcMessage s :: ops)) with (starts ops). destruct (starts ops); [|reflexivity].
        cbn [before_start given_messages given_queries flat_map]. now rewrite <- app_assoc.
      * rewrite I2. change (starts (NcMessage s :: ops)) with (starts ops). cbn [before_start map app length]. now rewrite <- !app_assoc.
    + cbn [node_step add_query_subscriber ad_init ad_running]. specialize (IH ms (qs ++ [s]) (log ++ [true])).
      destruct (fold_left node_step ops _) as [a log'] eqn:E. cbv zeta in *. destruct IH as [I1 I2]. split.
      * rewrite I1. change (starts (NcQuery s :: ops)) with (starts ops). destruct (starts ops); [|reflexivity].
        cbn [before_start given_messages given_queries flat_map]. now rewrite <- !app_assoc.
      * rewrite I2. change (starts (NcQuery s :: ops)) with (starts ops). cbn [before_start map app length]. now rewrite <- !app_assoc.
    + cbn [node_step start ad_init]. destruct (node_started ops (ms, qs ++ [SPing]) (log ++ [true])) as (l & -> & F & L). cbv zeta.
      cbn [ad_running starts existsb orb before_start map app length given_messages given_queries flat_map]. rewrite !app_nil_r.
      split; [reflexivity|]. rewrite <- app_assoc. cbn [app]. f_equal. f_equal.
      replace (S (length ops) - 0 - 1) with (length l) by lia. clear -F. induction F as [|x l <- F IH]; [reflexivity|]. cbn. now rewrite <- IH.
Qed.

Definition hopeless (d : deferred) : bool :=
  match d with DRldp None | DDht None | DOverlay (OverlayErr ENotInitialized) => true | _ => false end.
Lemma rldp_ready_hopeless : forall l, forallb hopeless l = true -> rldp_ready (l ++ [DAdnl false]) = false.
Proof.
  induction l as [|d l IH]; intros H; [reflexivity|]. cbn [forallb] in H. apply andb_prop in H as [Hd H].
  destruct d as [o|[s|]|t|r]; try discriminate; cbn [app rldp_ready]; auto.
Qed.
Lemma hopeless_run : forall keys calls l, forallb hopeless l = true ->
  exists l', fold_left (apply_call keys) calls (mk_builder (l ++ [DAdnl false]) None) = mk_builder (l' ++ [DAdnl false]) None
    /\ forallb hopeless l' = true /\ length l' = length l + length (filter is_layer calls).
Proof.
  intros keys calls. induction calls as [|c calls IH]; intros l H.
  { exists l. split; [reflexivity|]. split; [exact H|]. cbn. lia. }
  destruct c as [n|n|subs|tag|tag]; cbn [fold_left apply_call filter is_layer].
  - exact (IH l H).
  - exact (IH l H).
  - destruct (IH (DRldp None :: l) H) as (l' & E & Hl & Hn). exists l'. split; [exact E|]. split; [exact Hl|]. cbn [length] in *. lia.
  - destruct (IH (DDht None :: l) H) as (l' & E & Hl & Hn). exists l'. split; [exact E|]. split; [exact Hl|]. cbn [length] in *. lia.
  - destruct (IH (DOverlay (OverlayErr ENotInitialized) :: l) H) as (l' & E & Hl & Hn). exists l'. split; [|split; [exact Hl|]; cbn [length] in *; lia].
    rewrite <- E. f_equal. unfold with_overlay. cbn [bl_layers bl_adnl]. now rewrite rldp_ready_hopeless.
Qed.
Lemma reason_hidden : forall keys calls,
  run_builder keys false calls = (None, inr (if existsb is_layer calls then ENotInitialized else ESocket)).
Proof.
  intros keys calls. destruct (hopeless_run keys calls [] eq_refl) as (l & E & Hl & Hn).
  unfold run_builder, build, with_adnl. change [DAdnl false] with ([] ++ [DAdnl false]). rewrite E. cbn [bl_adnl bl_layers].
  assert (existsb is_layer calls = negb (Nat.eqb (length l) 0)) as ->.
  { rewrite Hn. cbn [length Nat.add]. clear. induction calls as [|c r IH]; [reflexivity|]. cbn [existsb filter]. now destruct (is_layer c). }
  destruct l as [|d l]; [reflexivity|]. cbn [forallb] in Hl. apply andb_prop in Hl as [Hd _].
  destruct d as [o|[s|]|[t|]|[|[]]]; try discriminate; reflexivity.
Qed.
