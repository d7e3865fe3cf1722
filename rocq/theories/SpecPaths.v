(** Weighted graphs: what the shortest path algorithms should compute.  A graph is a partial
    function giving the weight of the edge from a vertex to another. *)
From Verif Require Import Base.
Local Open Scope Z_scope.

(** A walk of [k] edges and cost [c] from [u] to [v]. *)
Inductive wwalk (w : nat -> nat -> option Z) (u : nat) : nat -> nat -> Z -> Prop :=
| walk_here : wwalk w u u 0%nat 0
| walk_step v t k c g : wwalk w u v k c -> w v t = Some g -> wwalk w u t (S k) (c + g).

(** [x] is the length of a walk of [k] edges to [v] that starts at a vertex to which [D0] gives an
    initial distance. *)
Definition walk_from (w : nat -> nat -> option Z) (D0 : nat -> option Z) (k v : nat) (x : Z) : Prop :=
  exists u a c, D0 u = Some a /\ wwalk w u v k c /\ x = a + c.

(** [x] is the least length of a walk to [v]. *)
Definition shortest (w : nat -> nat -> option Z) (D0 : nat -> option Z) (v : nat) (x : Z) : Prop :=
  (exists k, walk_from w D0 k v x) /\ forall k y, walk_from w D0 k v y -> x <= y.

(** A cycle of negative weight can be reached. *)
Definition negative_cycle (w : nat -> nat -> option Z) (D0 : nat -> option Z) : Prop :=
  exists k v x m c, walk_from w D0 k v x /\ wwalk w v v m c /\ c < 0.

(** The cost of a cheapest walk from [u] to [v]. *)
Definition distance (w : nat -> nat -> option Z) (u v : nat) (x : Z) : Prop :=
  (exists k, wwalk w u v k x) /\ forall k y, wwalk w u v k y -> x <= y.
