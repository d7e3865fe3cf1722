(** Shortest paths with rounded sums: what the shortest path algorithms should compute for weights
    whose addition is not exact. *)
From Coq Require Import ZArith Floats.SpecFloat.
From Verif Require Import Base ModelFloat SpecFloats.

(** [x] is the length of a walk of [k] edges to [v] from a vertex with an initial distance in [D0]:
    the weights in [w] are added to the initial distance with [plus], one after the other. *)
Inductive rwalk {D : Type} (plus : D -> D -> D) (w : nat -> nat -> option D) (D0 : nat -> option D)
  : nat -> nat -> D -> Prop :=
| rwalk_start v a : D0 v = Some a -> rwalk plus w D0 0 v a
| rwalk_step k u v a g : rwalk plus w D0 k u a -> w u v = Some g -> rwalk plus w D0 (S k) v (plus a g).

(** For floating point weights of type [t]. *)
Definition fwalk (t : ftype) (w : nat -> nat -> option fval) (D0 : nat -> option fval) (k v : nat) (x : fval) : Prop :=
  rwalk (FPlus t) w D0 k v x.
(** [x] is the length of a walk to [v] and no walk with a number of edges in [P] is shorter. *)
Definition fshortest_of (P : nat -> Prop) (t : ftype) (w : nat -> nat -> option fval) (D0 : nat -> option fval)
    (v : nat) (x : fval) : Prop :=
  (exists k, P k /\ fwalk t w D0 k v x) /\ forall k y, P k -> fwalk t w D0 k v y -> fle x y.
Definition fshortest := fshortest_of (fun _ => True).

(** The number [x] is the integer [z]. *)
Definition is_int (t : ftype) (z : Z) (x : fval) : Prop := number t x /\ feq x (of_int t z).
(** The same positions hold values, and the values on the right are the integers on the left. *)
Definition same_ints (t : ftype) (a : option Z) (b : option fval) : Prop :=
  match a, b with
  | Some z, Some x => is_int t z x
  | None, None => True
  | _, _ => False
  end.
