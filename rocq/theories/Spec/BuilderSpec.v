(** What a chain of builder calls should give. *)
From Coq Require Import List Arith Bool.
From Verif.Model Require Import Builder.
Import ListNotations.

(** The compiler accepts [with_overlay] only after some [with_rldp]. *)
Fixpoint typed (rldp : bool) (calls : list call) : bool :=
  match calls with
  | [] => true
  | CallRldp _ :: r => typed true r
  | CallOverlay _ :: r => rldp && typed rldp r
  | _ :: r => typed rldp r
  end.

Definition tag_of (c : call) : list nat := match c with CallDht t | CallOverlay t => [t] | _ => [] end.
(** Every layer can be created: the socket is bound and the keys exist. *)
Definition all_fine (keys : nat -> bool) (bound : bool) (calls : list call) : bool :=
  bound && forallb keys (flat_map tag_of calls).

(** The layer calls with their positions, counting from [k]. *)
Fixpoint numbered (k : nat) (calls : list call) : list (nat * call) :=
  match calls with
  | [] => []
  | (CallQuery _ | CallMessage _) as c :: r => (k, c) :: numbered k r
  | c :: r => (k, c) :: numbered (S k) r
  end.

(** Subscribed during the chain of calls, in order. *)
Definition early_messages (calls : list (nat * call)) : list sub :=
  flat_map (fun x => match x with (_, CallMessage n) => [SUser n] | (k, CallOverlay _) => [SOverlay k] | _ => [] end) calls.
Definition early_queries (calls : list (nat * call)) : list sub :=
  flat_map (fun x => match x with (_, CallQuery n) => [SUser n] | (k, CallOverlay _) => [SOverlay k] | _ => [] end) calls.
(** Subscribed by [build], the layer added last first. *)
Definition late_messages (calls : list (nat * call)) : list sub :=
  rev (flat_map (fun x => match x with (k, CallRldp _) => [SRldp k] | _ => [] end) calls).
Definition late_queries (calls : list (nat * call)) : list sub :=
  rev (flat_map (fun x => match x with (k, CallDht _) => [SDht k] | _ => [] end) calls).

(** The overlays added after an RLDP layer and before the next one. *)
Fixpoint overlays_until_rldp (calls : list (nat * call)) : list sub :=
  match calls with
  | [] => []
  | (_, CallRldp _) :: _ => []
  | (k, CallOverlay _) :: r => SOverlay k :: overlays_until_rldp r
  | _ :: r => overlays_until_rldp r
  end.
(** The components, in the order of the calls; RLDP answers queries with its own subscribers and
    with those overlays. *)
Fixpoint components (calls : list (nat * call)) : list component :=
  match calls with
  | [] => []
  | (_, CallRldp subs) :: r => CRldp (map SUser subs ++ overlays_until_rldp r) :: components r
  | (_, CallDht _) :: r => CDht :: components r
  | (_, CallOverlay _) :: r => COverlay :: components r
  | _ :: r => components r
  end.

Definition running_of (a : option adnl) : option (list sub * list sub) :=
  match a with Some n => ad_running n | None => None end.

(** Of the calls of a node's owner: those before the first start. *)
Fixpoint before_start (l : list node_call) : list node_call :=
  match l with
  | [] => []
  | NcStart :: _ => []
  | c :: r => c :: before_start r
  end.
Definition starts (l : list node_call) : bool := existsb (fun c => match c with NcStart => true | _ => false end) l.
Definition given_messages (l : list node_call) : list sub := flat_map (fun c => match c with NcMessage s => [s] | _ => [] end) l.
Definition given_queries (l : list node_call) : list sub := flat_map (fun c => match c with NcQuery s => [s] | _ => [] end) l.
Definition is_layer (c : call) : bool := match c with CallRldp _ | CallDht _ | CallOverlay _ => true | _ => false end.
