(** Trusses of simple undirected graphs. *)
From Coq Require Import Sorted.
From Verif Require Import Base ModelLil Spec.

(** The number of triangles that the edge between [u] and [v] lies in. *)
Definition support (N : nat) (e : nat -> nat -> bool) (u v : nat) : nat :=
  length (filter (fun w => e u w && e w v) (seq 0 N)).

(** Every edge lies in at least [t] triangles. *)
Definition supported (N t : nat) (e : nat -> nat -> bool) : Prop :=
  forall u v, e u v = true -> t <= support N e u v.

Definition subgraph (e' e : nat -> nat -> bool) : Prop :=
  forall u v, e' u v = true -> e u v = true.

(** [h] is the largest undirected sub-graph of [e] in which every edge lies in at least [t]
    triangles. *)
Definition largest_supported (N t : nat) (h e : nat -> nat -> bool) : Prop :=
  subgraph h e /\ (forall u v, h u v = h v u) /\ supported N t h /\
  forall h', subgraph h' e -> (forall u v, h' u v = h' v u) -> supported N t h' -> subgraph h' h.

(** The edge [e] of an incidence matrix (one row for each edge) connects [a] and [b]. *)
Definition endpoints {T : Type} (E : lil T) (e a b : nat) : Prop :=
  a < b /\ forall v, is_some (mget E e v) = true <-> v = a \/ v = b.

(** [E] is the incidence matrix of a simple undirected graph: every row holds two ones and no two
    rows are equal. *)
Definition incidence (N : nat) (E : lil Z) : Prop :=
  wfm E /\ ncols E = N /\
  (forall e v x, mget E e v = Some x -> x = 1%Z) /\
  (forall e, e < nrows E -> exists a b, endpoints E e a b) /\
  (forall e f, e < nrows E -> f < nrows E -> (forall v, mget E e v = mget E f v) -> e = f).

(** The graph of an incidence matrix: some row holds both vertices. *)
Definition joined {T : Type} (E : lil T) (u v : nat) : bool :=
  negb (u =? v) && existsb (fun e => is_some (mget E e u) && is_some (mget E e v)) (seq 0 (nrows E)).

(** The rows of [H] are some of the rows of [E], in the same order. *)
Definition some_rows {T : Type} (H E : lil T) : Prop :=
  exists idx, StronglySorted lt idx /\ Forall (fun e => e < nrows E) idx /\
    nrows H = length idx /\ ncols H = ncols E /\
    forall r v, r < length idx -> mget H r v = mget E (nth r idx 0) v.
