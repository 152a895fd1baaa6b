(** What is said about the tables of channels when they are changed by several tasks at once. *)
From Coq Require Import List NArith Bool.
From stdpp Require Import gmap.
From Verif.Base Require Import Bytes.
From Verif.Model Require Import TablesConc.
Import ListNotations.
Open Scope N_scope.

(** A call that has not begun; a call that is over. *)
Definition call (t : ctask) : Prop :=
  match t with Create _ _ _ | Reset _ _ | Remove _ | Add _ _ => True | _ => False end.
Definition over (t : ctask) : Prop := match t with Over _ => True | _ => False end.
(** A call that has not changed a table yet, or is over. *)
Definition outside (t : ctask) : Prop :=
  match t with
  | Create _ _ _ | CreateEntry _ _ _ | Reset _ _ | Remove _ | Add _ _ | Over _ => True
  | _ => False
  end.
(** A call for the local id [l] that does not remove the peer. *)
Definition keeps (l : N) (t : ctask) : Prop :=
  match t with Create l' _ _ | Reset l' _ | Add l' _ => l' = l | _ => False end.

(** The tables agree: what is found by the id of a datagram is the channel of the peer, under both of its ids and no
    others; the channel belongs to a known peer and has that peer's current key. *)
Definition agree (ids : N -> N -> N -> bool -> N) (s : tables) : Prop :=
  (forall i kind c, tb_by_id s !! i = Some (kind, c) <->
     tb_channel s = Some c /\ i = ids (cc_local c) (cc_key c) (cc_remote c) kind)
  /\ forall c, tb_channel s = Some c -> tb_peers s !! cc_local c = Some (cc_key c).
(** The two ids of a channel differ (they are hashes of different secrets). *)
Definition two_ids (ids : N -> N -> N -> bool -> N) : Prop := forall l k rk, ids l k rk false <> ids l k rk true.

(** What a call does when nothing else is going on: the peers and the channel afterwards, and whether the peer was
    known (or added). *)
Definition call_effect (s : tables) (t : ctask) : gmap N N * option chan * bool :=
  match t with
  | Create l rk d =>
    match tb_peers s !! l with
    | None => (tb_peers s, tb_channel s, false)
    | Some k =>
      (tb_peers s,
       match tb_channel s with
       | Some c => if (cc_remote c =? rk) || (d <=? cc_date c) then Some c else Some (mk_chan l k rk d)
       | None => Some (mk_chan l k rk d)
       end, true)
    end
  | Reset l k =>
    match tb_peers s !! l with
    | None => (tb_peers s, tb_channel s, false)
    | Some _ => (<[l := k]> (tb_peers s), None, true)
    end
  | Remove l => (delete l (tb_peers s), None, match tb_peers s !! l with Some _ => true | None => false end)
  | Add l k =>
    match tb_peers s !! l with
    | None => (<[l := k]> (tb_peers s), tb_channel s, true)
    | Some _ => (tb_peers s, tb_channel s, true)
    end
  | _ => (tb_peers s, tb_channel s, false)
  end.

(** Different keys, different ids. *)
Definition sample_ids (l k rk : N) (kind : bool) : N := 1000 * l + 100 * k + 10 * rk + (if kind then 1 else 0).
(** Local ids 1 and 2 know the peer, with keys 3 and 4; the peer's key is 5, since second 6. *)
Definition sample_channel : chan := mk_chan 1 3 5 6.
Definition sample_tables : tables :=
  mk_tables (<[1 := 3]> (<[2 := 4]> ∅)) (Some sample_channel)
    (<[1351 := (true, sample_channel)]> (<[1350 := (false, sample_channel)]> ∅)).
