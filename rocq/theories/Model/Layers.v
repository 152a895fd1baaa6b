(** The layers of a node as subscribers of the ADNL node, and the typed queries of applications. *)
From stdpp Require Import gmap.
From Coq Require Import NArith.
From Verif.Base Require Import Bytes Res.
From Verif.Model Require Import Crypto Tl Scheme ProtoAdnl ProtoRldp Compression OverlayPeers OverlayNode OverlayExchange DhtNode.
From Verif.Model Require Subscribers.
Open Scope N_scope.

(** The errors of the layers. *)
Inductive layer_error := DhtFailed (e : dht_error) | OverlayFailed (e : group_error) | BadPing | BadPart | AppFailed.

(** [try_consume_query] of the DHT (/repo/src/dht/node.rs:676-726), at its present state. *)
Definition dht_layer (P : prims) (e : query_env) (d : dht) : Subscribers.subscriber layer_error :=
  fun constructor query =>
    match fst (try_consume_query P e d constructor query) with
    | Ok (Some answer) => Subscribers.Consumed (Some answer)
    | Ok None => Subscribers.Refused query
    | Err x => Subscribers.Failed (DhtFailed x)
    end.

(** [try_consume_query] of the overlays (/repo/src/overlay/node.rs:175-209). *)
Definition overlay_layer (P : prims) (react : consumers) (g : group) (now : N) (picks : list nat) : Subscribers.subscriber layer_error :=
  fun constructor query =>
    match fst (fst (on_query P react g constructor query now picks)) with
    | Subscribers.Consumed a => Subscribers.Consumed a
    | Subscribers.Refused q => Subscribers.Refused q
    | Subscribers.Failed x => Subscribers.Failed (OverlayFailed x)
    end.

(** [PingSubscriber] (/repo/src/adnl/ping_subscriber.rs:10-25). *)
Definition ping_layer : Subscribers.subscriber layer_error := Subscribers.ping_subscriber BadPing.

(** [try_consume_custom] of RLDP (/repo/src/rldp/node.rs:191-209); [handle] is whether [handle_message] succeeds. *)
Definition rldp_layer (handle : message_part -> bool) : Subscribers.message_subscriber layer_error :=
  fun constructor data =>
    if negb (constructor =? id_rldp_message_part) && negb (constructor =? id_rldp_confirm) && negb (constructor =? id_rldp_complete)
    then Ok false
    else match deserialize get_message_part data with
         | Some m => if handle m then Ok true else Err AppFailed
         | None => Err BadPart
         end.

(** [try_consume_custom] of the overlays (/repo/src/overlay/node.rs:138-170), for a message of [peer]. *)
Definition overlay_message_layer (P : prims) (z : zstd) (checks : bool) (g : group) (peer : bytes) (picks : list nat)
  : Subscribers.message_subscriber layer_error :=
  fun constructor data =>
    match fst (on_message P z checks g peer constructor data picks) with
    | Ok b => Ok b
    | Err x => Err (OverlayFailed x)
    end.

(** What is sent back for a query (/repo/src/adnl/node/receiver.rs:295-316); [None]: nothing. *)
Definition answer_of {E} (r : res (Subscribers.query_error E) Subscribers.processed) : option bytes :=
  match r with Ok (Subscribers.Processed a) => a | _ => None end.

(** [make_query] (/repo/src/adnl/node/mod.rs:571-585); [query] is the serialized query. *)
Definition make_query (prefix : option bytes) (query : bytes) : bytes :=
  match prefix with Some p => p ++ query | None => query end.

(** The end of [query] and of [query_with_prefix] (mod.rs:420-426, 444-450). *)
Definition typed_answer {A} (get : parser A) (answer : option bytes) : res unit (option A) :=
  match answer with
  | None => Ok None
  | Some data => match deserialize get data with Some a => Ok (Some a) | None => Err tt end
  end.

(** [OwnedRawBytes] of tl_proto takes everything that is left. *)
Definition get_rest : parser bytes := fun l => Some (l, []).
(** What [adnl_query] and [rldp_query] of an overlay send (/repo/src/overlay/overlay.rs:374-393, 398-416), and what the first
    of them returns. *)
Definition overlay_query_sent (o : overlay) (query : bytes) : bytes :=
  make_query (Some (put_u32 id_overlay_query ++ put_hash (ov_id o))) query.
Definition overlay_query_result (answer : option bytes) : res unit (option bytes) := typed_answer get_rest answer.

(** How long a query waits (mod.rs:271-274, 482). *)
Definition compute_query_timeout (min_timeout default_timeout : N) (roundtrip : option N) : N :=
  N.max min_timeout (match roundtrip with Some r => r | None => default_timeout end).
Definition query_waits (default_timeout : N) (timeout : option N) : N :=
  match timeout with Some t => t | None => default_timeout end.
