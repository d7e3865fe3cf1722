(** Specification vocabulary, independent of the code's data structures.
    A matrix denotes a partial map from positions to values, a vector a partial map
    from indices to values. *)
From Verif Require Import Base ModelLil ModelVec.

Definition smat (T : Type) : Type := nat -> nat -> option T.
Definition svec (T : Type) : Type := nat -> option T.

Definition is_some {A : Type} (o : option A) : bool :=
  match o with Some _ => true | None => false end.

Definition omap2 {A B C : Type} (f : A -> B -> C) (x : option A) (y : option B) : option C :=
  match x, y with Some a, Some b => Some (f a b) | _, _ => None end.

(** ** Denotation of the containers *)

(** The value a row stores at column [j]. *)
Fixpoint rget {T : Type} (r : row T) (j : nat) : option T :=
  match r with
  | [] => None
  | (k, v) :: r' => if k =? j then Some v else rget r' j
  end.

Definition mget {T : Type} (M : lil T) : smat T := fun i j => rget (nth i (data M) []) j.

Definition vget {T : Type} (w : bvec T) : svec T :=
  fun i => match nth_error (vbits w) i, nth_error (vvals w) i with
           | Some true, Some v => Some v
           | _, _ => None
           end.

(** ** Well-formed containers *)

(** Column indices strictly increasing and in [lo, hi). *)
Fixpoint wfrow {T : Type} (lo hi : nat) (r : row T) : Prop :=
  match r with
  | [] => True
  | (j, _) :: r' => lo <= j < hi /\ wfrow (S j) hi r'
  end.

(** Rows of a matrix with [nr] rows and [nc] columns. *)
Definition wfrows {T : Type} (nr nc : nat) (d : list (row T)) : Prop :=
  length d = nr /\ Forall (wfrow 0 nc) d.

(** Number of stored elements, counted position by position. *)
Definition mcount {T : Type} (nr nc : nat) (A : smat T) : nat :=
  length (filter (fun '(i, j) => is_some (A i j)) (list_prod (seq 0 nr) (seq 0 nc))).
Definition vcount {T : Type} (n : nat) (u : svec T) : nat :=
  length (filter (fun i => is_some (u i)) (seq 0 n)).

(** A matrix: right shape, and the element count equals the number of stored
    positions. *)
Definition wfm {T : Type} (M : lil T) : Prop :=
  wfrows (nrows M) (ncols M) (data M) /\
  nvals M = Z.of_nat (mcount (nrows M) (ncols M) (mget M)).

(** A vector whose two arrays have the declared size (nothing said of the count). *)
Definition wfv0 {T : Type} (w : bvec T) : Prop :=
  length (vvals w) = vsize w /\ length (vbits w) = vsize w.
Definition wfv {T : Type} (w : bvec T) : Prop :=
  wfv0 w /\ vnvals w = Z.of_nat (vcount (vsize w) (vget w)).

(** ** Sums *)

(** Combine the present values of a list from left to right; [None] if none. *)
Definition oadd {T : Type} (add : T -> T -> T) (acc x : option T) : option T :=
  match acc, x with
  | Some a, Some b => Some (add a b)
  | Some a, None => Some a
  | None, o => o
  end.
Definition osum {T : Type} (add : T -> T -> T) (l : list (option T)) : option T :=
  fold_left (oadd add) l None.
