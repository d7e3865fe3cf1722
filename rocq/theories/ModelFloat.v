(** Model of the predefined operators, monoids and semirings over [float] and [double].
    /repo/src/graphblas/algebra.hpp.
    A value is an IEEE 754 binary number in the form of Coq's standard library
    (Coq.Floats.SpecFloat), with one NaN.  Arithmetic is that of IEEE 754 with rounding to
    nearest even in the type of the operands (no wider intermediate results, no
    -ffast-math; /repo/src/CMakeLists.txt sets neither). *)
From Coq Require Import ZArith Floats.SpecFloat.
From Verif Require Import Base.
Local Open Scope Z_scope.

Inductive ftype : Type := CFloat | CDouble.

(** Significant bits, and the exponent of the first power of 2 that is too large. *)
Definition prec (t : ftype) : Z := match t with CFloat => 24 | CDouble => 53 end.
Definition emax (t : ftype) : Z := match t with CFloat => 128 | CDouble => 1024 end.

Definition fval : Type := spec_float.
Definition fbin : Type := ftype -> fval -> fval -> fval.

(** Values of 0, 1, infinity; an integer converted to [t]. *)
Definition f0 : fval := S754_zero false.
Definition f1 (t : ftype) : fval := SFone (prec t) (emax t).
Definition finf : fval := S754_infinity false.
Definition fninf : fval := S754_infinity true.
Definition of_int (t : ftype) (z : Z) : fval := binary_normalize (prec t) (emax t) z 0 false.

(** ** Operators *)

(** [Plus], [Minus], [Times], [Div], algebra.hpp:310-332. *)
Definition FPlus : fbin := fun t a b => SFadd (prec t) (emax t) a b.
Definition FMinus : fbin := fun t a b => SFsub (prec t) (emax t) a b.
Definition FTimes : fbin := fun t a b => SFmul (prec t) (emax t) a b.
Definition FDiv : fbin := fun t a b => SFdiv (prec t) (emax t) a b.
(** [Min], [Max], 289-299. *)
Definition FMin : fbin := fun t a b => if SFltb a b then a else b.
Definition FMax : fbin := fun t a b => if SFltb a b then b else a.
(** [First], [Second], 274-285. *)
Definition FFirst : fbin := fun t a b => a.
Definition FSecond : fbin := fun t a b => b.

(** [Identity], [Abs] ([fabsf], [fabs]), [AdditiveInverse], [MultiplicativeInverse], 53-57 and
    81-110. *)
Definition FIdentity (t : ftype) (a : fval) : fval := a.
Definition FAbs (t : ftype) (a : fval) : fval := SFabs a.
Definition FAdditiveInverse (t : ftype) (a : fval) : fval := SFopp a.
Definition FMultiplicativeInverse (t : ftype) (a : fval) : fval :=
  SFdiv (prec t) (emax t) (f1 t) a.

(** [Equal] to [LessEqual] with result [bool], 236-270. *)
Definition FEqual (a b : fval) : bool := SFeqb a b.
Definition FNotEqual (a b : fval) : bool := negb (SFeqb a b).
Definition FGreaterThan (a b : fval) : bool := SFltb b a.
Definition FLessThan (a b : fval) : bool := SFltb a b.
Definition FGreaterEqual (a b : fval) : bool := SFleb b a.
Definition FLessEqual (a b : fval) : bool := SFleb a b.

(** ** Monoids, 361-378, 383-384; [MaxMonoid] and [MinMonoid] for floating point, 417-433 and
    462-478. *)
Record fmonoid : Type := mkFMonoid { fm_op : fbin; fm_id : ftype -> fval }.
Definition FPlusMonoid : fmonoid := mkFMonoid FPlus (fun t => f0).
Definition FTimesMonoid : fmonoid := mkFMonoid FTimes f1.
Definition FMaxMonoid : fmonoid := mkFMonoid FMax (fun t => fninf).
Definition FMinMonoid : fmonoid := mkFMonoid FMin (fun t => finf).

(** ** Semirings, 495-570. *)
Record fsemiring : Type := mkFSemiring { fs_add : fmonoid; fs_mult : fbin }.
Definition fs_zero (s : fsemiring) (t : ftype) : fval := fm_id (fs_add s) t.
Definition FArithmeticSemiring : fsemiring := mkFSemiring FPlusMonoid FTimes.
Definition FMinPlusSemiring : fsemiring := mkFSemiring FMinMonoid FPlus.
Definition FMaxPlusSemiring : fsemiring := mkFSemiring FMaxMonoid FPlus.
Definition FMinTimesSemiring : fsemiring := mkFSemiring FMinMonoid FTimes.
Definition FMaxTimesSemiring : fsemiring := mkFSemiring FMaxMonoid FTimes.
Definition FMinMaxSemiring : fsemiring := mkFSemiring FMinMonoid FMax.
Definition FMaxMinSemiring : fsemiring := mkFSemiring FMaxMonoid FMin.
Definition FMinFirstSemiring : fsemiring := mkFSemiring FMinMonoid FFirst.
Definition FMinSecondSemiring : fsemiring := mkFSemiring FMinMonoid FSecond.
Definition FMaxFirstSemiring : fsemiring := mkFSemiring FMaxMonoid FFirst.
Definition FMaxSecondSemiring : fsemiring := mkFSemiring FMaxMonoid FSecond.
