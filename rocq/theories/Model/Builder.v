(** Building a network: /repo/src/util/network_builder.rs and the [Deferred] layers of adnl/mod.rs,
    rldp/mod.rs, dht/mod.rs and overlay/mod.rs. *)
From Coq Require Import List Arith Bool.
Import ListNotations.

(** Who is subscribed.  Layers are named by their position among the layers added (0 is ADNL). *)
Inductive sub := SUser (n : nat) | SOverlay (layer : nat) | SDht (layer : nat) | SRldp (layer : nat) | SPing.

Inductive build_error := ESocket | ENotInitialized | EKeyNotFound | EAlreadyRunning.

(** The part of [adnl::Node] concerned (adnl/node/mod.rs:153-263): [init_state] with the subscribers
    so far, or [None] once started; then the subscribers the receiver works with. *)
Record adnl := mk_adnl
  { ad_init : option (list sub * list sub);       (* message, query subscribers *)
    ad_running : option (list sub * list sub) }.
Definition adnl_new : adnl := mk_adnl (Some ([], [])) None.

(** [add_message_subscriber] (adnl/node/mod.rs:217-229). *)
Definition add_message_subscriber (a : adnl) (s : sub) : option adnl :=
  match ad_init a with
  | Some (ms, qs) => Some (mk_adnl (Some (ms ++ [s], qs)) (ad_running a))
  | None => None
  end.
(** [add_query_subscriber] (232-241). *)
Definition add_query_subscriber (a : adnl) (s : sub) : option adnl :=
  match ad_init a with
  | Some (ms, qs) => Some (mk_adnl (Some (ms, qs ++ [s])) (ad_running a))
  | None => None
  end.
(** [start] (244-263). *)
Definition start (a : adnl) : option adnl :=
  match ad_init a with
  | Some (ms, qs) => Some (mk_adnl None (Some (ms, qs ++ [SPing])))
  | None => None
  end.

(** The layers waiting to be initialized.  All of them share the one ADNL node, which is kept
    beside the list; a layer without arguments failed already. *)
Inductive deferred :=
| DAdnl (ok : bool)                                  (* adnl/mod.rs:108 *)
| DRldp (args : option (list sub))                   (* rldp/mod.rs:31: query subscribers *)
| DDht (args : option nat)                           (* dht/mod.rs:28: key tag *)
| DOverlay (created : res_overlay)                   (* overlay/mod.rs:39 *)
with res_overlay := OverlayOk | OverlayErr (e : build_error).

(** [HCons] list, the layer added last in front, and the ADNL node if it could be created. *)
Record builder := mk_builder { bl_layers : list deferred; bl_adnl : option adnl }.

(** What was created: [Arc<Node>] of each layer with, for RLDP, its query subscribers. *)
Inductive component := CAdnl | CRldp (subs : list sub) | CDht | COverlay.

(** [with_adnl] (adnl/mod.rs:145-162): the address parses and the socket is bound, or not. *)
Definition with_adnl (bound : bool) : builder :=
  mk_builder [DAdnl bound] (if bound then Some adnl_new else None).

(** [with_query_subscriber] (adnl/mod.rs:264-269): a failure is ignored. *)
Definition with_query_subscriber (b : builder) (s : sub) : builder :=
  match bl_adnl b with
  | Some a => match add_query_subscriber a s with Some a' => mk_builder (bl_layers b) (Some a') | None => b end
  | None => b
  end.
(** [with_message_subscriber] (adnl/mod.rs:308-313). *)
Definition with_message_subscriber (b : builder) (s : sub) : builder :=
  match bl_adnl b with
  | Some a => match add_message_subscriber a s with Some a' => mk_builder (bl_layers b) (Some a') | None => b end
  | None => b
  end.

(** [with_rldp_ext] (rldp/mod.rs:125-141). *)
Definition with_rldp (b : builder) (subs : list sub) : builder :=
  mk_builder (DRldp (match bl_adnl b with Some _ => Some subs | None => None end) :: bl_layers b) (bl_adnl b).
(** [with_dht] (dht/mod.rs:71-83). *)
Definition with_dht (b : builder) (tag : nat) : builder :=
  mk_builder (DDht (match bl_adnl b with Some _ => Some tag | None => None end) :: bl_layers b) (bl_adnl b).

(** [overlay::Node::new] (overlay/node.rs:25-37): the key, then both subscriptions. *)
Definition overlay_new (keys : nat -> bool) (a : adnl) (layer tag : nat) : adnl * res_overlay :=
  if keys tag then
    match add_query_subscriber a (SOverlay layer) with
    | None => (a, OverlayErr EAlreadyRunning)
    | Some a1 =>
      match add_message_subscriber a1 (SOverlay layer) with
      | None => (a1, OverlayErr EAlreadyRunning)
      | Some a2 => (a2, OverlayOk)
      end
    end
  else (a, OverlayErr EKeyNotFound).

(** [Selector<rldp::Deferred, R>::get_mut]: the RLDP layer added last. *)
Fixpoint on_rldp (f : list sub -> list sub) (l : list deferred) : list deferred :=
  match l with
  | [] => []
  | DRldp (Some subs) :: r => DRldp (Some (f subs)) :: r
  | DRldp None :: r => l
  | d :: r => d :: on_rldp f r
  end.
Fixpoint rldp_ready (l : list deferred) : bool :=
  match l with
  | [] => false
  | DRldp (Some _) :: _ => true
  | DRldp None :: _ => false
  | _ :: r => rldp_ready r
  end.
(** [with_overlay] (overlay/mod.rs:83-100): the node is created at once, and serves queries that
    come through RLDP too. *)
Definition with_overlay (keys : nat -> bool) (b : builder) (tag : nat) : builder :=
  if rldp_ready (bl_layers b) then
    match bl_adnl b with
    | Some a =>
      let layer := length (bl_layers b) in
      let '(a', r) := overlay_new keys a layer tag in
      let layers := match r with
                    | OverlayOk => on_rldp (fun subs => subs ++ [SOverlay layer]) (bl_layers b)
                    | OverlayErr _ => bl_layers b
                    end in
      mk_builder (DOverlay r :: layers) (Some a')
    | None => mk_builder (DOverlay (OverlayErr ENotInitialized) :: bl_layers b) None
    end
  else mk_builder (DOverlay (OverlayErr ENotInitialized) :: bl_layers b) (bl_adnl b).

(** [DeferredInitialization::initialize] of one layer (adnl/mod.rs:110-118, rldp/mod.rs:33-40,
    dht/mod.rs:30-37, overlay/mod.rs:41-47; rldp/node.rs:83-106, dht/node.rs:111-140: the key, the
    subscription). *)
Definition initialize (keys : nat -> bool) (a : option adnl) (layer : nat) (d : deferred)
  : option adnl * (component + build_error) :=
  match d, a with
  | DAdnl false, _ => (a, inr ESocket)
  | DAdnl true, Some n => match start n with Some n' => (Some n', inl CAdnl) | None => (a, inr EAlreadyRunning) end
  | DRldp (Some subs), Some n =>
      match add_message_subscriber n (SRldp layer) with
      | Some n' => (Some n', inl (CRldp subs)) | None => (a, inr EAlreadyRunning) end
  | DDht (Some tag), Some n =>
      if keys tag then
        match add_query_subscriber n (SDht layer) with
        | Some n' => (Some n', inl CDht) | None => (a, inr EAlreadyRunning) end
      else (a, inr EKeyNotFound)
  | DOverlay OverlayOk, _ => (a, inl COverlay)
  | DOverlay (OverlayErr e), _ => (a, inr e)
  | _, _ => (a, inr ENotInitialized)
  end.

(** [DeferredInitializationList::initialize] (network_builder.rs:33-95): from the layer added last
    to the first; the first error ends it.  The code has instances for one to four layers. *)
Fixpoint initialize_all (keys : nat -> bool) (a : option adnl) (l : list deferred)
  : option adnl * (list component + build_error) :=
  match l with
  | [] => (a, inl [])
  | d :: r =>
    match initialize keys a (length r) d with
    | (a1, inr e) => (a1, inr e)
    | (a1, inl c) =>
      match initialize_all keys a1 r with
      | (a2, inr e) => (a2, inr e)
      | (a2, inl cs) => (a2, inl (cs ++ [c]))
      end
    end
  end.
Definition build (keys : nat -> bool) (b : builder) : option adnl * (list component + build_error) :=
  initialize_all keys (bl_adnl b) (bl_layers b).

(** The calls of a builder chain after [with_adnl]. *)
Inductive call := CallQuery (n : nat) | CallMessage (n : nat) | CallRldp (subs : list nat) | CallDht (tag : nat) | CallOverlay (tag : nat).
Definition apply_call (keys : nat -> bool) (b : builder) (c : call) : builder :=
  match c with
  | CallQuery n => with_query_subscriber b (SUser n)
  | CallMessage n => with_message_subscriber b (SUser n)
  | CallRldp subs => with_rldp b (map SUser subs)
  | CallDht tag => with_dht b tag
  | CallOverlay tag => with_overlay keys b tag
  end.
Definition run_builder (keys : nat -> bool) (bound : bool) (calls : list call) :=
  build keys (fold_left (apply_call keys) calls (with_adnl bound)).

(** Direct use of a node by its owner. *)
Inductive node_call := NcMessage (s : sub) | NcQuery (s : sub) | NcStart.
Definition node_step (x : adnl * list bool) (c : node_call) : adnl * list bool :=
  let '(a, log) := x in
  match (match c with NcMessage s => add_message_subscriber a s | NcQuery s => add_query_subscriber a s | NcStart => start a end) with
  | Some a' => (a', log ++ [true])
  | None => (a, log ++ [false])
  end.
