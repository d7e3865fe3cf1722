(** Accuracy of page rank over [double]. *)
From Coq Require Import ZArith QArith Qabs Qcanon Floats.SpecFloat.
From Verif Require Import Base ModelLil ModelVec ModelFloat SpecOps SpecFloats SpecConv SpecNormalize.

(** [x] is the positive number [q] up to [K] roundings: (1 - u)^K q <= x <= q / (1 - u)^K. *)
Definition shrink (t : ftype) (K : nat) : Q := (1 - unit_roundoff t) ^ Z.of_nat K.
Definition approx (t : ftype) (K : nat) (q : Q) (x : fval) : Prop :=
  value t x /\ finite x /\ (shrink t K * q <= real x)%Q /\ (shrink t K * real x <= q)%Q.

(** The relative error is at most [e]. *)
Definition relative (e : Q) (q : Q) (x : fval) : Prop := finite x /\ (Qabs (real x - q) <= e * q)%Q.

(** The mean squared change between two vectors as computed in type [t]: the squares are added from left to right. *)
Definition computed_change (t : ftype) (N : nat) (r s : nat -> fval) : fval :=
  let square v := FTimes t (FMinus t (r v) (s v)) (FMinus t (r v) (s v)) in
  FDiv t (fold_left (FPlus t) (map square (seq 1 (N - 1))) (square 0%nat)) (of_int t (Z.of_nat N)).

(** The exact value of a number. *)
Definition exact_q (x : fval) : Qc := Q2Qc (real x).
