(** Relative accuracy of floating point results. *)
From Coq Require Import ZArith QArith Qabs Floats.SpecFloat.
From Verif Require Import Base ModelFloat SpecFloats SpecConv.

(** The largest relative error of one rounding: 2^-24 for [float], 2^-53 for [double]. *)
Definition unit_roundoff (t : ftype) : Q := (2 # 1) ^ (- prec t).
(** [q] is neither close to the smallest normal number of the type, 2^(2 - emax), nor to the largest, just below 2^emax. *)
Definition normal_range (t : ftype) (q : Q) : Prop :=
  ((2 # 1) ^ (4 - emax t) <= Qabs q)%Q /\ (Qabs q <= (2 # 1) ^ (emax t - 3))%Q.
(** [x] is [q] up to one rounding, or up to two: a relative error of u, of 2 u + u^2. *)
Definition within1 (t : ftype) (q : Q) (x : fval) : Prop :=
  value t x /\ finite x /\ (Qabs (real x - q) <= unit_roundoff t * Qabs q)%Q.
Definition within2 (t : ftype) (q : Q) (x : fval) : Prop :=
  value t x /\ finite x /\
  (Qabs (real x - q) <= (2 * unit_roundoff t + unit_roundoff t * unit_roundoff t) * Qabs q)%Q.
(** The sum of rational numbers. *)
Definition qtotal (l : list Q) : Q := fold_right Qplus 0%Q l.
