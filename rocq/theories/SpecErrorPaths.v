(** Shortest paths with rounded sums against exact shortest paths. *)
From Coq Require Import ZArith Floats.SpecFloat.
From Verif Require Import Base ModelFloat SpecPaths SpecFloats SpecMstTypes SpecError.
Local Open Scope Z_scope.

(** A finite number that is not negative. *)
Definition plain (t : ftype) (x : fval) : Prop := value t x /\ finite x /\ nonnegative x.
(** The exact weights, as multiples of the smallest positive number. *)
Definition exact1 (t : ftype) (D : nat -> option fval) (v : nat) : option Z := option_map (multiple t) (D v).
Definition exact2 (t : ftype) (w : nat -> nat -> option fval) (u v : nat) : option Z := option_map (multiple t) (w u v).

(** The computed distance [o] of vertex [v]: absent if there is no walk; otherwise [x] with |x - d| <= (N - 1) u d for the exact
    distance d, provided d is below the overflow threshold by the factor 2 (1 + N u). *)
Definition near_shortest (t : ftype) (N : nat) (w : nat -> nat -> option fval) (D0 : nat -> option fval) (v : nat) (o : option fval) : Prop :=
  match o with
  | Some x => exists d, shortest (exact2 t w) (exact1 t D0) v d /\ 0 <= d /\
      (2 * (U t + Z.of_nat N) * d <= U t * overflow_threshold t ->
       finite x /\ U t * Z.abs (multiple t x - d) <= (Z.of_nat N - 1) * d)
  | None => forall k d, ~ walk_from (exact2 t w) (exact1 t D0) k v d
  end.
