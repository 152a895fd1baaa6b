(** Which queries and messages belong to which layer. *)
From stdpp Require Import gmap.
From Coq Require Import NArith.
From Verif.Base Require Import Bytes Res.
From Verif.Model Require Import Crypto Tl Scheme ProtoAdnl ProtoRldp Compression OverlayNode DhtNode Layers.
From Verif.Model Require Subscribers.
Open Scope N_scope.

Definition dht_queries : list N :=
  [id_dht_ping; id_dht_find_node; id_dht_find_value; id_dht_get_signed_address_list; id_dht_store; id_dht_query].
Definition rldp_messages : list N := [id_rldp_message_part; id_rldp_confirm; id_rldp_complete].

(** A subscriber for the queries with these constructors: one of the library, in any state, or one of the
    application that leaves everything else alone. *)
Inductive serves (P : prims) : Subscribers.subscriber layer_error -> list N -> Prop :=
| serves_dht : forall e d, serves P (dht_layer P e d) dht_queries
| serves_overlays : forall react g now picks, serves P (overlay_layer P react g now picks) [id_overlay_query]
| serves_ping : serves P ping_layer [id_adnl_ping]
| serves_app : forall s own, (forall c q, ~ In c own -> s c q = Subscribers.Refused q) -> serves P s own.

(** The same for messages. *)
Inductive hears (P : prims) (z : zstd) (checks : bool) : Subscribers.message_subscriber layer_error -> list N -> Prop :=
| hears_rldp : forall handle, hears P z checks (rldp_layer handle) rldp_messages
| hears_overlays : forall g peer picks, hears P z checks (overlay_message_layer P z checks g peer picks) [id_overlay_message]
| hears_app : forall s own, (forall c d, ~ In c own -> s c d = Ok false) -> hears P z checks s own.

(** Subscribers none of which is for [c]. *)
Definition others (P : prims) (c : N) (subs : list (Subscribers.subscriber layer_error)) : Prop :=
  Forall (fun s => exists own, serves P s own /\ ~ In c own) subs.
Definition other_hearers (P : prims) (z : zstd) (checks : bool) (c : N) (subs : list (Subscribers.message_subscriber layer_error)) : Prop :=
  Forall (fun s => exists own, hears P z checks s own /\ ~ In c own) subs.
