From Coq Require Import List NArith Arith Lia.
From Verif.Base Require Import Bytes Res.
From Verif.Model Require Import Tl Scheme ProtoAdnl Subscribers.
From Verif.Spec Require Import Codec SubscribersSpec.
From Verif.Proof Require Import TlFacts ProtoFacts.
Import ListNotations.

Lemma passed_on_cons : forall E (s : subscriber E) r c q q1 n q2,
  s c q = Refused q1 -> passed_on r c q1 n q2 -> passed_on (s :: r) c q (S n) q2.
Proof.
  intros E s r c q q1 n q2 Hs H. induction H.
  - eapply passed_next; [apply passed_none|reflexivity|exact Hs].
  - eapply passed_next; [exact IHpassed_on|exact H0|exact H1].
Qed.

Lemma ask_spec : forall E (subs : list (subscriber E)) i c q,
  exists n q',
    passed_on subs c q n q'
    /\ map fst (snd (ask i subs c q))
       = seq i (match nth_error subs n with Some _ => S n | None => n end)
    /\ match nth_error subs n with
       | None => n = length subs /\ fst (ask i subs c q) = Ok AllRejected
       | Some s =>
         match s c q' with
         | Consumed a => fst (ask i subs c q) = Ok (Processed a)
         | Failed e => fst (ask i subs c q) = Err (SubscriberError e)
         | Refused _ => False
         end
       end.
Proof.
  intros E subs. induction subs as [|s r IH]; intros i c q.
  - exists 0%nat, q. split; [apply passed_none|]. split; [reflexivity|]. split; reflexivity.
  - cbn [ask]. destruct (s c q) as [a|q1|e] eqn:Hs.
    + exists 0%nat, q. split; [apply passed_none|]. cbn. now rewrite Hs.
    + destruct (IH (S i) c q1) as (n & q2 & Hp & Hl & Ho). exists (S n), q2.
      split; [now apply (passed_on_cons E s r c q q1)|]. cbn [nth_error].
      destruct (ask (S i) r c q1) as [o log]. cbn [fst snd map] in *. split.
      * rewrite Hl. destruct (nth_error r n); reflexivity.
      * destruct (nth_error r n); [exact Ho|]. destruct Ho as [-> Ho]. split; [reflexivity|exact Ho].
    + exists 0%nat, q. split; [apply passed_none|]. cbn. now rewrite Hs.
Qed.

(** Each asked subscriber saw what the ones before passed on. *)
Lemma ask_log : forall E (subs : list (subscriber E)) i c q k q',
  In (k, q') (snd (ask i subs c q)) -> (i <= k)%nat /\ passed_on subs c q (k - i) q'.
Proof.
  intros E subs. induction subs as [|s r IH]; intros i c q k q' H; [destruct H|].
  cbn [ask] in H. destruct (s c q) as [a|q1|e] eqn:Hs.
  - destruct H as [[= <- <-]|[]]. split; [lia|]. rewrite PeanoNat.Nat.sub_diag. constructor.
  - pose proof (IH (S i) c q1 k q') as IH'. destruct (ask (S i) r c q1) as [o log]. cbn [snd] in *.
    destruct H as [[= <- <-]|H].
    + split; [lia|]. rewrite PeanoNat.Nat.sub_diag. constructor.
    + destruct (IH' H) as [Hk Hp]. split; [lia|]. replace (k - i)%nat with (S (k - S i)) by lia.
      now apply (passed_on_cons E s r c q q1).
  - destruct H as [[= <- <-]|[]]. split; [lia|]. rewrite PeanoNat.Nat.sub_diag. constructor.
Qed.

Lemma process_query_spec : forall E (subs : list (subscriber E)) c rest query,
  get_u32 query = Some (c, rest) ->
  exists n q',
    passed_on subs c query n q'
    /\ map fst (snd (process_query subs query))
       = seq 0 (match nth_error subs n with Some _ => S n | None => n end)
    /\ (forall k q, In (k, q) (snd (process_query subs query)) -> passed_on subs c query k q)
    /\ match nth_error subs n with
       | None => n = length subs /\ fst (process_query subs query) = Ok AllRejected
       | Some s =>
         match s c q' with
         | Consumed a => fst (process_query subs query) = Ok (Processed a)
         | Failed e => fst (process_query subs query) = Err (SubscriberError e)
         | Refused _ => False
         end
       end.
Proof.
  intros E subs c rest query H. unfold process_query. rewrite H.
  destruct (ask_spec E subs 0 c query) as (n & q' & Hp & Hl & Ho). exists n, q'.
  split; [exact Hp|split; [exact Hl|split; [|exact Ho]]].
  intros k q Hin. apply ask_log in Hin as [_ Hin]. now rewrite PeanoNat.Nat.sub_0_r in Hin.
Qed.

Lemma offer_spec : forall E (subs : list (message_subscriber E)) i c d,
  exists n,
    (forall k s, (k < n)%nat -> nth_error subs k = Some s -> s c d = Ok false)
    /\ snd (offer i subs c d) = seq i (match nth_error subs n with Some _ => S n | None => n end)
    /\ match nth_error subs n with
       | None => n = length subs /\ fst (offer i subs c d) = Ok false
       | Some s =>
         match s c d with
         | Ok true => fst (offer i subs c d) = Ok true
         | Err e => fst (offer i subs c d) = Err (SubscriberError e)
         | Ok false => False
         end
       end.
Proof.
  intros E subs. induction subs as [|s r IH]; intros i c d.
  - exists 0%nat. split; [intros; lia|]. split; [reflexivity|split; reflexivity].
  - cbn [offer]. destruct (s c d) as [[|]|e] eqn:Hs.
    + exists 0%nat. split; [intros; lia|]. cbn. now rewrite Hs.
    + destruct (IH (S i) c d) as (n & Hb & Hl & Ho). exists (S n). split.
      { intros [|k] s0 Hk Hn; cbn in Hn; [now injection Hn as <-|]. apply (Hb k); [lia|exact Hn]. }
      destruct (offer (S i) r c d) as [o log]. cbn [fst snd nth_error] in *. split.
      * rewrite Hl. destruct (nth_error r n); reflexivity.
      * destruct (nth_error r n); [exact Ho|]. destruct Ho as [-> Ho]. split; [reflexivity|exact Ho].
    + exists 0%nat. split; [intros; lia|]. cbn. now rewrite Hs.
Qed.

Lemma process_custom_spec : forall E (subs : list (message_subscriber E)) c rest d,
  get_u32 d = Some (c, rest) ->
  exists n,
    (forall k s, (k < n)%nat -> nth_error subs k = Some s -> s c d = Ok false)
    /\ snd (process_message_custom subs d) = seq 0 (match nth_error subs n with Some _ => S n | None => n end)
    /\ match nth_error subs n with
       | None => n = length subs /\ fst (process_message_custom subs d) = Ok false
       | Some s =>
         match s c d with
         | Ok true => fst (process_message_custom subs d) = Ok true
         | Err e => fst (process_message_custom subs d) = Err (SubscriberError e)
         | Ok false => False
         end
       end.
Proof. intros E subs c rest d H. unfold process_message_custom. rewrite H. apply offer_spec. Qed.

(** ** The ping subscriber behind others *)

Lemma ask_refused : forall E (subs : list (subscriber E)) s i c q,
  (forall s0, In s0 subs -> s0 c q = Refused q) ->
  fst (ask i (subs ++ [s]) c q) = fst (ask (i + length subs) [s] c q).
Proof.
  intros E subs s. induction subs as [|s0 r IH]; intros i c q H.
  - cbn [app length]. now rewrite Nat.add_0_r.
  - change ((s0 :: r) ++ [s]) with (s0 :: (r ++ [s])). cbn [ask]. rewrite (H s0 (or_introl eq_refl)).
    specialize (IH (S i) c q (fun s1 Hs => H s1 (or_intror Hs))).
    destruct (ask (S i) (r ++ [s]) c q) as [o log]. cbn [fst] in *. rewrite IH.
    cbn [length]. now rewrite Nat.add_succ_r.
Qed.

Lemma get_u32_ping : forall v, exists r, get_u32 (put_adnl_ping v) = Some (id_adnl_ping, r).
Proof. intros v. eexists. unfold put_adnl_ping. rewrite u32_reads by reflexivity. reflexivity. Qed.

Lemma ping_answered : forall E (bad : E) subs v, u64_ok v ->
  (forall s, In s subs -> s id_adnl_ping (put_adnl_ping v) = Refused (put_adnl_ping v)) ->
  fst (process_query (subs ++ [ping_subscriber bad]) (put_adnl_ping v)) = Ok (Processed (Some (put_adnl_pong v))).
Proof.
  intros E bad subs v Hv H. unfold process_query. destruct (get_u32_ping v) as [r ->].
  rewrite ask_refused by exact H. cbn [ask]. unfold ping_subscriber. rewrite N.eqb_refl.
  unfold deserialize. pose proof (adnl_ping_reads v [] Hv) as R. rewrite app_nil_r in R. rewrite R. reflexivity.
Qed.

Lemma not_ping_refused : forall E (bad : E) subs q c r, get_u32 q = Some (c, r) -> c <> id_adnl_ping ->
  (forall s, In s subs -> s c q = Refused q) ->
  fst (process_query (subs ++ [ping_subscriber bad]) q) = Ok AllRejected.
Proof.
  intros E bad subs q c r Hq Hc H. unfold process_query. rewrite Hq. rewrite ask_refused by exact H.
  cbn [ask]. unfold ping_subscriber. apply N.eqb_neq in Hc. rewrite Hc. reflexivity.
Qed.
