(** Independent sets. *)
From Verif Require Import Base.

(** No two vertices of [S] are connected, and every other vertex below [N] is connected to a
    vertex of [S]. *)
Definition maximal_independent (N : nat) (e : nat -> nat -> bool) (S : nat -> Prop) : Prop :=
  (forall v, S v -> v < N) /\
  (forall u v, S u -> S v -> e u v = false) /\
  (forall v, v < N -> ~ S v -> exists u, S u /\ e v u = true).
