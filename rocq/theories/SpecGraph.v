(** Graphs: what the algorithms should compute, without reference to the code.
    Vertices are [0 .. N-1]. *)
From Verif Require Import Base ModelLil Spec.

(** The edges of an adjacency matrix: the stored elements. *)
Definition edge {T : Type} (G : lil T) (u v : nat) : bool := is_some (mget G u v).

(** [v] ends a walk of [k] edges that starts at a vertex of the set [R]. *)
Fixpoint walks (e : nat -> nat -> bool) (R : nat -> Prop) (k v : nat) : Prop :=
  match k with
  | O => R v
  | S k' => exists u, walks e R k' u /\ e u v = true
  end.

(** The fewest edges of a walk from [R] to [v] is [k]. *)
Definition at_distance (e : nat -> nat -> bool) (R : nat -> Prop) (k v : nat) : Prop :=
  walks e R k v /\ forall k', k' < k -> ~ walks e R k' v.

Definition reachable (e : nat -> nat -> bool) (R : nat -> Prop) (v : nat) : Prop :=
  exists k, walks e R k v.

(** [p] is the least vertex from which a shortest walk from [R] enters [v]. *)
Definition best_parent (e : nat -> nat -> bool) (R : nat -> Prop) (p v : nat) : Prop :=
  exists d, at_distance e R (S d) v /\ at_distance e R d p /\ e p v = true /\
    forall p', at_distance e R d p' -> e p' v = true -> p <= p'.
