(** The bounded set of peers: /repo/src/adnl/peers_set.rs.

    Every operation holds the lock, so operations are atomic.  Indices (u32) are [nat]; the version
    (u64) does not wrap here. *)
From stdpp Require Import gmap.
From Coq Require Import NArith.
From Verif.Base Require Import Bytes.
Open Scope N_scope.

(** [PeersSetState] (peers_set.rs:219-225). *)
Record peers_set := mk_peers_set
  { ps_version : N;
    ps_cache : gmap bytes nat;
    ps_index : list bytes;
    ps_capacity : nat;
    ps_upper : nat }.

(** [make_capacity] (354-358) and [with_capacity] (18-22, 228-239). *)
Definition make_capacity (c : nat) : nat := Nat.max 1 c.
Definition peers_set_new (c : nat) : peers_set := mk_peers_set 0 ∅ [] (make_capacity c) 0.

(** The loop of [with_peers_and_capacity] (247-262). *)
Fixpoint fill_new (s : peers_set) (l : list bytes) : peers_set :=
  match l with
  | [] => s
  | p :: l' =>
    if (ps_capacity s <=? ps_upper s)%nat then s else
    match ps_cache s !! p with
    | Some _ => fill_new s l'
    | None =>
      fill_new (mk_peers_set (ps_version s) (<[p := ps_upper s]> (ps_cache s)) (ps_index s ++ [p])
                  (ps_capacity s) (S (ps_upper s))) l'
    end
  end.

(** [with_peers_and_capacity] (27-34, 241-266). *)
Definition with_peers_and_capacity (l : list bytes) (c : nat) : peers_set :=
  let s := fill_new (peers_set_new c) l in
  mk_peers_set (ps_version s) (ps_cache s) (ps_index s) (ps_capacity s) (ps_upper s mod ps_capacity s)%nat.

(** [contains] (40-42), [get] (44-49), [len] (51-53), [is_full] (59-61, 268-270), [clone_inner]
    (141-144). *)
Definition ps_contains (s : peers_set) (p : bytes) : bool :=
  match ps_cache s !! p with Some _ => true | None => false end.
Definition ps_get (s : peers_set) (i : nat) : option bytes := nth_error (ps_index s) i.
Definition ps_len (s : peers_set) : nat := length (ps_index s).
Definition ps_is_full (s : peers_set) : bool := (ps_capacity s <=? length (ps_index s))%nat.
Definition ps_members (s : peers_set) : list bytes := ps_index s.

(** Replacing one slot of a vector. *)
Fixpoint replace_at (l : list bytes) (i : nat) (x : bytes) : list bytes :=
  match l, i with
  | [], _ => []
  | _ :: r, O => x :: r
  | y :: r, S i' => y :: replace_at r i' x
  end.

(** [PeersSetState::insert] (272-304). *)
Definition ps_insert (s : peers_set) (p : bytes) : bool * peers_set :=
  match ps_cache s !! p with
  | Some _ => (false, s)
  | None =>
    let cache := <[p := ps_upper s]> (ps_cache s) in
    let index := ps_upper s in
    let upper := ((ps_upper s + 1) mod ps_capacity s)%nat in
    match nth_error (ps_index s) index with
    | Some old =>
      let cache := match cache !! old with
                   | Some i => if (i =? index)%nat then delete old cache else cache
                   | None => cache
                   end in
      (true, mk_peers_set (ps_version s + 1) cache (replace_at (ps_index s) index p) (ps_capacity s) upper)
    | None =>
      (true, mk_peers_set (ps_version s + 1) cache (ps_index s ++ [p]) (ps_capacity s) upper)
    end
  end.

(** [extend] (130-138). *)
Definition ps_extend (s : peers_set) (l : list bytes) : peers_set :=
  fold_left (fun s p => snd (ps_insert s p)) l s.

(** [choose_multiple] of the rand crate: the elements at the chosen positions. *)
Definition choose (l : list bytes) (picks : list nat) : list bytes :=
  flat_map (fun i => match nth_error l i with Some x => [x] | None => [] end) picks.

(** How many positions are asked for (70-73); [amount + 1] wraps on u32. *)
Definition picks_wanted (amount : N) (except : option bytes) : N :=
  match except with Some _ => (amount + 1) mod 2 ^ 32 | None => amount end.

(** [get_random_peers] (67-83); [picks] are the positions chosen at random. *)
Definition get_random_peers (s : peers_set) (amount : N) (except : option bytes) (picks : list nat) : list bytes :=
  let items := choose (ps_index s) picks in
  match except with
  | Some e => firstn (N.to_nat amount) (List.filter (fun x => negb (bytes_eqb x e)) items)
  | None => items
  end.

(** [randomly_fill_from] (85-121) for two different sets. *)
Definition fill_wanted (amount : N) (except : option (list bytes)) : N :=
  match except with Some l => amount + N.of_nat (length l) | None => amount end.
Definition randomly_fill_from (s other : peers_set) (amount : N) (except : option (list bytes))
    (picks : list nat) : peers_set :=
  let new := choose (ps_index other) picks in
  ps_extend s
    (match except with
     | Some l => firstn (N.to_nat amount) (List.filter (fun x => negb (existsb (bytes_eqb x) l)) new)
     | None => new
     end).

(** A sequence of [insert] calls with their results. *)
Fixpoint ps_inserts (s : peers_set) (l : list bytes) : list bool * peers_set :=
  match l with
  | [] => ([], s)
  | p :: r =>
    let '(b, s') := ps_insert s p in
    let '(bs, s'') := ps_inserts s' r in (b :: bs, s'')
  end.
