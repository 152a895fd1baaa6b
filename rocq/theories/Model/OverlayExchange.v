(** What an overlay sends to one peer: [exchange_random_peers_ext], [adnl_query], [rldp_query] and
    [send_message] of /repo/src/overlay/overlay.rs. *)
From stdpp Require Import gmap.
From Coq Require Import NArith.
From Verif.Base Require Import Bytes Res.
From Verif.Model Require Import Crypto Tl Scheme ProtoAdnl ProtoOverlay PeersSet DhtStorage OverlayPeers.
Open Scope N_scope.

(** The bytes of an ADNL query (374-393, with [make_query] of adnl/node/mod.rs), of an RLDP query
    (398-416) and of a message (357-369): the prefix of the overlay (151-156), then the data. *)
Definition overlay_query_bytes (o : overlay) (query : bytes) : bytes := put_overlay_query (ov_id o) ++ query.
Definition overlay_message_bytes (o : overlay) (data : bytes) : bytes := put_overlay_message (ov_id o) ++ data.

(** The start of [exchange_random_peers_ext] (506-509). *)
Definition exchange_query (P : prims) (o : overlay) (now : N) (picks : list nat) : bytes :=
  overlay_query_bytes o (put_get_random_peers (prepare_random_peers P o now picks)).

(** Its end (509-538); [answer] is what the query returned, [None] after a timeout.  [Err] is an
    answer that cannot be read. *)
Definition exchange_result (P : prims) (o : overlay) (existing : bytes -> bool) (answer : option bytes)
  : res unit (option (list bytes)) :=
  match answer with
  | None => Ok None
  | Some data =>
    match deserialize get_ov_nodes_boxed data with
    | None => Err tt
    | Some nodes => Ok (Some (new_random_peers P o existing nodes))
    end
  end.

(** The filter of [exchange_random_peers] (487-493). *)
Definition known_filter (o : overlay) : bytes -> bool := ps_contains (ov_known o).
