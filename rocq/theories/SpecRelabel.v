(** Renumbering the vertices of a graph. *)
From Verif Require Import Base ModelLil Spec.

(** [p] gives every vertex below [N] a new number below [N], and [q] leads back. *)
Definition renumbering (N : nat) (p q : nat -> nat) : Prop :=
  (forall u, u < N -> p u < N /\ q (p u) = u) /\ (forall u, u < N -> q u < N /\ p (q u) = u).

(** [G'] is the graph [G] with the vertices renumbered. *)
Definition renumbered {T : Type} (N : nat) (p q : nat -> nat) (G G' : lil T) : Prop :=
  renumbering N p q /\
  wfm G /\ nrows G = N /\ ncols G = N /\ wfm G' /\ nrows G' = N /\ ncols G' = N /\
  forall u v, u < N -> v < N -> mget G' (p u) (p v) = mget G u v.
