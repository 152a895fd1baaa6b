(** Two nodes with both layers: RLDP sends and receives its messages as custom messages of ADNL, ADNL sends
    and receives datagrams over a network that may lose, repeat, delay and reorder them. *)
From stdpp Require Import gmap.
From Coq Require Import NArith.
From Verif.Base Require Import Bytes Res.
From Verif.Model Require Import Crypto ProtoAdnl ProtoRldp Channel Peer AdnlNode Fec Compression Subscribers RldpTransfer RldpQuery RldpNode.
From Verif.Spec Require Import Codec NodeSpec BystanderSpec RldpSpec RldpPairSpec PairSpec.
Open Scope N_scope.

Section stack.
Context {E : Type} (P : prims) (fuel : nat) (a b : party) (w : rldp_world).

(** Both layers use the same names for the two. *)
Definition same_names : Prop := rw_alice_id w = party_id P a /\ rw_bob_id w = party_id P b.

(** The ADNL layers with the network, the RLDP layers, the messages that ADNL has handed to RLDP and that
    wait for their turn (at whom, from whom), and what has happened at the RLDP layers. *)
Record stack := mk_stack
  { sk_net : pair; sk_rldp : rldp_pair; sk_heard : list (who * bytes * message_part);
    sk_events : list (pair_event E) }.
Definition stack_start : stack := mk_stack (pair_start P a b) rldp_pair_new [] [].

Definition at_who (x : who) (ev : rldp_event E) : pair_event E := match x with Alice => AtAlice ev | Bob => AtBob ev end.
Definition sent_by (s : rldp_pair) (x : who) : list (bytes * message_part) := pick_who x (rp_from_alice s) (rp_from_bob s).
(** What the RLDP layer of [x] sends at an event. *)
Definition sends (s : rldp_pair) (x : who) (ev : rldp_event E) : list (bytes * message_part) :=
  skipn (length (sent_by s x)) (sent_by (pair_step w s (at_who x ev)) x).

(** It is sent with ADNL, to the other one or to anybody else; [how]: clock and random values. *)
Definition as_custom (m : message_part) : message := MCustom (put_message_part m).
Definition post_one (s : pair) (x : who) (to : bytes) (m : message_part) (how : N * rnd) : pair :=
  if bytes_eqb to (id_of_who P a b (other x))
  then says P a b s x (fst how) (as_custom m) false (snd how)
  else elsewhere P fuel s x (OSend (fst how) (id_of_who P a b x) to (as_custom m) false (fun _ => snd how)).
Definition may_post_one (s : pair) (x : who) (to : bytes) (m : message_part) (how : N * rnd) : Prop :=
  message_part_ok m
  /\ if bytes_eqb to (id_of_who P a b (other x))
     then may_say P a b s x (fst how) (as_custom m) false (snd how)
     else may_happen P fuel a b s x (OSend (fst how) (id_of_who P a b x) to (as_custom m) false (fun _ => snd how)).
Fixpoint post (s : pair) (x : who) (out : list (bytes * message_part)) (how : nat -> N * rnd) : pair :=
  match out with
  | [] => s
  | (to, m) :: r => post (post_one s x to m (how (length r))) x r how
  end.
Fixpoint may_post (s : pair) (x : who) (out : list (bytes * message_part)) (how : nat -> N * rnd) : Prop :=
  match out with
  | [] => True
  | (to, m) :: r => may_post_one s x to m (how (length r)) /\ may_post (post_one s x to m (how (length r))) x r how
  end.

(** What RLDP is given of what ADNL hands to the layers above. *)
Definition for_rldp (x : who) (d : delivery) : list (who * bytes * message_part) :=
  match d with
  | DCustom _ peer data => match rldp_reads data with Some m => [(x, peer, m)] | None => [] end
  | _ => []
  end.

(** What can happen: a task of RLDP runs, a message that waits is handled, another service sends
    something with ADNL, a datagram arrives, or something else happens at the ADNL layer. *)
Inductive act :=
| ATask (x : who) (ev : rldp_event E) (how : nat -> N * rnd)
| AHandle (k : nat) (how : nat -> N * rnd)
| ASay (x : who) (now : N) (m : message) (priority : bool) (r : rnd)
| AArrive (i : nat) (now : N) (fresh : bytes) (rs : nat -> rnd)
| AElse (x : who) (o : op).

Definition rldp_does (s : stack) (x : who) (ev : rldp_event E) (how : nat -> N * rnd)
  (heard : list (who * bytes * message_part)) : stack :=
  mk_stack (post (sk_net s) x (sends (sk_rldp s) x ev) how) (pair_step w (sk_rldp s) (at_who x ev)) heard
    (sk_events s ++ [at_who x ev]).
Definition adnl_does (s : stack) (net : pair) (heard : list (who * bytes * message_part)) : stack :=
  mk_stack net (sk_rldp s) (sk_heard s ++ heard) (sk_events s).
Definition handed (n : node) (o : op) : list delivery :=
  match o with
  | OReceive now data fresh rs => snd (fst (handle_received_data P fuel n now data fresh rs))
  | _ => []
  end.

Definition stack_step (s : stack) (c : act) : stack :=
  match c with
  | ATask x ev how => rldp_does s x ev how (sk_heard s)
  | AHandle k how =>
      match nth_error (sk_heard s) k with
      | Some (x, peer, m) =>
          rldp_does s x (NMessage peer m) how (firstn k (sk_heard s) ++ skipn (S k) (sk_heard s))
      | None => s
      end
  | ASay x now m priority r => adnl_does s (says P a b (sk_net s) x now m priority r) []
  | AArrive i now fresh rs =>
      match nth_error (pr_letters (sk_net s)) i with
      | Some l =>
          adnl_does s (gets P fuel (sk_net s) i l now fresh rs)
            (flat_map (for_rldp (other (lt_from l))) (snd (fst (arrival P fuel (sk_net s) l now fresh rs))))
      | None => s
      end
  | AElse x o =>
      adnl_does s (elsewhere P fuel (sk_net s) x o) (flat_map (for_rldp x) (handed (node_of (sk_net s) x) o))
  end.
Definition stack_run (s : stack) (l : list act) : stack := fold_left stack_step l s.

(** The rules: those of [exchange] for the ADNL layers; RLDP gets messages only from ADNL; numbers that
    RLDP sends fit into their fields; other services do not send messages of RLDP. *)
Definition may_act (s : stack) (c : act) : Prop :=
  match c with
  | ATask x ev how =>
      match ev with NMessage _ _ => False | _ => may_post (sk_net s) x (sends (sk_rldp s) x ev) how end
  | AHandle k how =>
      forall x peer m, nth_error (sk_heard s) k = Some (x, peer, m) ->
      may_post (sk_net s) x (sends (sk_rldp s) x (NMessage peer m)) how
  | ASay x now m priority r =>
      may_say P a b (sk_net s) x now m priority r
      /\ match m with MCustom d => rldp_reads d = None | _ => True end
  | AArrive i now fresh rs =>
      forall l, nth_error (pr_letters (sk_net s)) i = Some l -> timely a b l now
  | AElse x o => may_happen P fuel a b (sk_net s) x o
  end.
Fixpoint may_run (s : stack) (l : list act) : Prop :=
  match l with
  | [] => True
  | c :: r => may_act s c /\ may_run (stack_step s c) r
  end.

(** As far as the transfers of the query [id] are concerned: nobody else uses this id, neither for a query
    of one of the two nor in messages to them. *)
Definition only_theirs (id : bytes) (ev : pair_event E) : Prop :=
  match ev with
  | AtAlice (NMessage peer m) => of_query id (message_id m) -> peer = rw_bob_id w
  | AtBob (NMessage peer m) => of_query id (message_id m) -> peer = rw_alice_id w
  | AtAlice (NQuery _ k _ _ _) | AtBob (NQuery _ k _ _ _) => ~ of_query id k
  | _ => True
  end.
End stack.


