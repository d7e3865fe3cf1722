(** Spanning trees of an undirected graph, given as lists of edges. *)
From Verif Require Import Base.

(** [u] and [v] are joined by a path of edges of [es], in either direction. *)
Inductive joined (es : list (nat * nat)) (u : nat) : nat -> Prop :=
| joined_refl : joined es u u
| joined_step a b : joined es u a -> In (a, b) es \/ In (b, a) es -> joined es u b.

(** [N - 1] edges of the graph that join all vertices below [N]. *)
Definition spanning_tree (N : nat) (w : nat -> nat -> option Z) (es : list (nat * nat)) : Prop :=
  length es = N - 1 /\
  (forall a b, In (a, b) es -> a < N /\ b < N /\ w a b <> None) /\
  (forall u v, u < N -> v < N -> joined es u v).

Definition tree_weight (w : nat -> nat -> option Z) (es : list (nat * nat)) : Z :=
  fold_right Z.add 0%Z (map (fun e => match w (fst e) (snd e) with Some x => x | None => 0%Z end) es).

Definition minimum_spanning_tree (N : nat) (w : nat -> nat -> option Z) (es : list (nat * nat)) : Prop :=
  spanning_tree N w es /\ forall es', spanning_tree N w es' -> (tree_weight w es <= tree_weight w es')%Z.

(** The edges of a parent list in which only vertex 0 has no parent. *)
Definition parent_edges (N : nat) (p : nat -> option nat) : list (nat * nat) :=
  map (fun v => (match p v with Some u => u | None => 0 end, v)) (seq 1 (N - 1)).
