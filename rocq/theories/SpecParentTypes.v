(** Which scalar types hold the indices of a graph. *)
From Coq Require Import ZArith.
From Verif Require Import Base ModelAlgebra ModelFloat ModelLevels.

(** The indices 0 .. N-1 are values of the type; for floating point, they are consecutive integers of the type. *)
Definition indices_fit (lt : ltype) (N : nat) : Prop :=
  match lt with
  | LInt t => (Z.of_nat N <= tmax t + 1)%Z
  | LFloat t => (Z.of_nat N <= 2 ^ prec t)%Z
  end.
