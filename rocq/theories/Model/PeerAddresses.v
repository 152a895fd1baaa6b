(** Finding peers by their socket addresses: src/adnl/node/mod.rs:381-405. *)
From stdpp Require Import gmap.
From Coq Require Import NArith.
From Verif.Base Require Import Bytes Res.
From Verif.Model Require Import Peer AdnlNode.
Open Scope N_scope.

(** [entries.remove]: the entry of an address, taken out of the map. *)
Fixpoint take_entry (a : sockaddr) (entries : list (sockaddr * nat)) : option (nat * list (sockaddr * nat)) :=
  match entries with
  | [] => None
  | e :: r =>
    if sockaddr_eqb (fst e) a then Some (snd e, r)
    else match take_entry a r with Some (t, r') => Some (t, e :: r') | None => None end
  end.
(** [result.insert]: one value per key. *)
Definition put_result (t : nat) (id : bytes) (l : list (nat * bytes)) : list (nat * bytes) :=
  (t, id) :: List.filter (fun x => negb (Nat.eqb (fst x) t)) l.
(** [match_peer_addresses] (mod.rs:386-405); [order]: the peers in the order of the iteration. *)
Fixpoint match_entries (ps : gmap bytes peer) (order : list bytes) (entries : list (sockaddr * nat))
    (result : list (nat * bytes)) : list (nat * bytes) :=
  match order with
  | [] => result
  | id :: order' =>
    match ps !! id with
    | Some p =>
      match take_entry (peer_addr p) entries with
      | Some (t, rest) => match_entries ps order' rest (put_result t id result)
      | None => match_entries ps order' entries result
      end
    | None => match_entries ps order' entries result
    end
  end.
Definition match_peer_addresses (n : node) (local_id : bytes) (order : list bytes) (entries : list (sockaddr * nat))
  : option (list (nat * bytes)) :=
  match get_peers n local_id with
  | None => None
  | Some ps => Some (match_entries ps order entries [])
  end.
