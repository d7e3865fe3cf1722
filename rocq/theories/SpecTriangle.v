(** Simple undirected graphs and their triangles. *)
From Verif Require Import Base ModelLil Spec SpecGraph.

(** The number of triangles of the graph on the vertices below [N] whose edges are given by [e]:
    sets of three vertices, listed in increasing order, that are pairwise connected. *)
Definition triangles (N : nat) (e : nat -> nat -> bool) : nat :=
  length (filter (fun '(i, j, k) => (i <? j) && (j <? k) && e i j && e j k && e i k)
                 (list_prod (list_prod (seq 0 N) (seq 0 N)) (seq 0 N))).

(** [G] is the adjacency matrix of a simple undirected graph: symmetric, without loops, the
    stored elements are 1. *)
Definition simple_graph (N : nat) (G : lil Z) : Prop :=
  wfm G /\ nrows G = N /\ ncols G = N /\
  (forall i j v, mget G i j = Some v -> v = 1%Z) /\
  (forall i j, mget G i j = mget G j i) /\
  (forall i, mget G i i = None).

(** The parts below and above the diagonal. *)
Definition lower {T : Type} (G : smat T) : smat T := fun i j => if j <? i then G i j else None.
Definition upper {T : Type} (G : smat T) : smat T := fun i j => if i <? j then G i j else None.
