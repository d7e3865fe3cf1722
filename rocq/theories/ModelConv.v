(** Model of the predefined operators, monoids and semirings over any of the built-in scalar types: [bool], the integers of
    8 to 64 bits, [float] and [double], also with different types of the operands and of the result.
    /repo/src/graphblas/algebra.hpp.  Every parameter and result of an operator has a declared type, so that calling it
    converts: [op] below is the body of [operator()], applied to operands that already have the types [t1] and [t2].
    [Power] (334-339) is not modelled. *)
From Coq Require Import ZArith Floats.SpecFloat.
From Verif Require Import Base ModelAlgebra ModelOps ModelFloat.
Local Open Scope Z_scope.

Inductive stype : Type := SI (t : ctype) | SF (t : ftype).
(** A value: of an integer type or [bool], or of a floating point type. *)
Inductive scalar : Type := VI (z : Z) | VF (x : fval).

(** ** Conversions (C++ [conv.integral], [conv.bool], [conv.fpint], [conv.double]) *)

(** Truncation of a finite number m 2^e towards 0. *)
Definition truncate (x : fval) : option Z :=
  match x with
  | S754_zero _ => Some 0
  | S754_finite s m e => Some (cond_Zopp s (Z.shiftl (Zpos m) e))
  | _ => None
  end.
(** To an integer type: truncated, undefined if the result does not fit, also for infinities and NaN; to [bool]: whether
    the number differs from 0, which NaN does. *)
Definition float_to_int (t : ctype) (x : fval) : res Z :=
  match t with
  | CBool => Ok (ofbool (negb (SFeqb x f0)))
  | _ => match truncate x with
         | Some z => if (tmin t <=? z) && (z <=? tmax t) then Ok z else UB
         | None => UB
         end
  end.
(** Between floating point types: to the nearest number of the type, to an infinity if the number is too large. *)
Definition float_to_float (t : ftype) (x : fval) : fval :=
  match x with
  | S754_finite s m e => binary_normalize (prec t) (emax t) (cond_Zopp s (Zpos m)) e s
  | _ => x
  end.
Definition cast (to : stype) (v : scalar) : res scalar :=
  match to, v with
  | SI t, VI z => Ok (VI (convert t z))
  | SF t, VI z => Ok (VF (of_int t z))
  | SI t, VF x => z <- float_to_int t x ;; Ok (VI z)
  | SF t, VF x => Ok (VF (float_to_float t x))
  end.

(** The usual arithmetic conversions (C++ [expr.arith.conv]): [double] if one operand is [double], else [float] if one is
    [float], else the type chosen for integers. *)
Definition usual (t1 t2 : stype) : stype :=
  match t1, t2 with
  | SF CDouble, _ | _, SF CDouble => SF CDouble
  | SF CFloat, _ | _, SF CFloat => SF CFloat
  | SI a, SI b => SI (common a b)
  end.

(** ** Unary operators from type [t1] to type [t2] *)

Definition sunop : Type := stype -> stype -> scalar -> res scalar.

(** [Identity], algebra.hpp:81-85. *)
Definition SIdentity : sunop := fun t1 t2 a => cast t2 a.
(** [Abs], 41-67 and 87-94. *)
Definition SAbs : sunop := fun t1 t2 a =>
  match t1, a with
  | SI t, VI x => r <- my_abs t x ;; cast t2 (VI r)
  | SF t, VF x => cast t2 (VF (FAbs t x))
  | _, _ => UB
  end.
(** [AdditiveInverse], 97-101. *)
Definition SAdditiveInverse : sunop := fun t1 t2 a =>
  match t1, a with
  | SI t, VI x => r <- arith (promote t) (- x) ;; cast t2 (VI r)
  | SF t, VF x => cast t2 (VF (FAdditiveInverse t x))
  | _, _ => UB
  end.
(** The condition [a] of [!a] or [a || b]. *)
Definition strue (a : scalar) : bool :=
  match a with VI z => istrue z | VF x => negb (SFeqb x f0) end.
Definition sbool (b : bool) : scalar := VI (ofbool b).
(** [LogicalNot], 114-118. *)
Definition SLogicalNot : sunop := fun t1 t2 a => cast t2 (sbool (negb (strue a))).
(** [BitwiseNot], 120-126, for integral types only. *)
Definition SBitwiseNot : sunop := fun t1 t2 a =>
  match t1, a with
  | SI t, VI x => cast t2 (VI (complement (promote t) x))
  | _, _ => UB
  end.

(** ** Binary operators from types [t1] and [t2] to type [t3] *)

Definition sbinop : Type := stype -> stype -> stype -> scalar -> scalar -> res scalar.

(** Both operands converted to the common type, combined by [fi] or [ff]. *)
Definition in_common (fi : ctype -> Z -> Z -> res Z) (ff : fbin) (t1 t2 : stype) (a b : scalar) : res scalar :=
  a <- cast (usual t1 t2) a ;;
  b <- cast (usual t1 t2) b ;;
  match usual t1 t2, a, b with
  | SI c, VI x, VI y => r <- fi c x y ;; Ok (VI r)
  | SF c, VF x, VF y => Ok (VF (ff c x y))
  | _, _, _ => UB
  end.
Definition sarith (fi : ctype -> Z -> Z -> res Z) (ff : fbin) : sbinop :=
  fun t1 t2 t3 a b => r <- in_common fi ff t1 t2 a b ;; cast t3 r.
(** A comparison in the common type. *)
Definition scompare (fi : Z -> Z -> bool) (ff : fval -> fval -> bool) : sbinop :=
  fun t1 t2 t3 a b =>
    a <- cast (usual t1 t2) a ;;
    b <- cast (usual t1 t2) b ;;
    match a, b with
    | VI x, VI y => cast t3 (sbool (fi x y))
    | VF x, VF y => cast t3 (sbool (ff x y))
    | _, _ => UB
    end.
Definition slogical (f : bool -> bool -> bool) : sbinop :=
  fun t1 t2 t3 a b => cast t3 (sbool (f (strue a) (strue b))).

(** [LogicalOr], [LogicalAnd], [LogicalXor], [LogicalXnor], 160-193. *)
Definition SLogicalOr : sbinop := slogical (fun a b => a || b).
Definition SLogicalAnd : sbinop := slogical (fun a b => a && b).
Definition SLogicalXor : sbinop := slogical (fun a b => (a && negb b) || (negb a && b)).
Definition SLogicalXnor : sbinop := slogical (fun a b => (a && b) || (negb a && negb b)).

(** [Equal], [NotEqual], [GreaterThan], [LessThan], [GreaterEqual], [LessEqual], 236-270. *)
Definition SEqual : sbinop := scompare Z.eqb FEqual.
Definition SNotEqual : sbinop := scompare (fun x y => negb (x =? y)) FNotEqual.
Definition SGreaterThan : sbinop := scompare (fun x y => y <? x) FGreaterThan.
Definition SLessThan : sbinop := scompare Z.ltb FLessThan.
Definition SGreaterEqual : sbinop := scompare (fun x y => y <=? x) FGreaterEqual.
Definition SLessEqual : sbinop := scompare Z.leb FLessEqual.

(** [First], [Second], 273-285. *)
Definition SFirst : sbinop := fun t1 t2 t3 a b => cast t3 a.
Definition SSecond : sbinop := fun t1 t2 t3 a b => cast t3 b.

(** [Min], [Max], 288-299: the conditional expression has the common type. *)
Definition SMin : sbinop := sarith (fun c x y => Ok (if x <? y then x else y)) FMin.
Definition SMax : sbinop := sarith (fun c x y => Ok (if x <? y then y else x)) FMax.
(** [Plus], [Minus], [Times], [Div], 309-332. *)
Definition SPlus : sbinop := sarith (fun c x y => arith c (x + y)) FPlus.
Definition SMinus : sbinop := sarith (fun c x y => arith c (x - y)) FMinus.
Definition STimes : sbinop := sarith (fun c x y => arith c (x * y)) FTimes.
Definition SDiv : sbinop := sarith quotient FDiv.

(** [MultiplicativeInverse], 103-110: [static_cast<D2>(1) / input]. *)
Definition SMultiplicativeInverse : sunop := fun t1 t2 a =>
  one <- cast t2 (VI 1) ;; SDiv t2 t1 t2 one a.

(** ** Monoids, 361-478 *)

Record smonoid : Type := mkSMonoid { sm_op : sbinop; sm_id : stype -> scalar }.
(** [static_cast<ScalarT>(IDENTITY)] for IDENTITY 0 or 1. *)
Definition constant (z : Z) (t : stype) : scalar := match t with SI c => VI (convert c z) | SF c => VF (of_int c z) end.
Definition SPlusMonoid : smonoid := mkSMonoid SPlus (constant 0).
Definition STimesMonoid : smonoid := mkSMonoid STimes (constant 1).
Definition SLogicalOrMonoid : smonoid := mkSMonoid SLogicalOr (constant 0).
Definition SLogicalAndMonoid : smonoid := mkSMonoid SLogicalAnd (constant 1).
Definition SLogicalXorMonoid : smonoid := mkSMonoid SLogicalXor (constant 0).
Definition SLogicalXnorMonoid : smonoid := mkSMonoid SLogicalXnor (constant 1).
Definition SMaxMonoid : smonoid := mkSMonoid SMax (fun t => match t with SI c => VI (tmin c) | SF c => VF fninf end).
Definition SMinMonoid : smonoid := mkSMonoid SMin (fun t => match t with SI c => VI (tmax c) | SF c => VF finf end).
(** [operator()] of a monoid over [t]. *)
Definition sm_apply (m : smonoid) (t : stype) : scalar -> scalar -> res scalar := sm_op m t t t.

(** ** Semirings, 495-570: [add] and [zero] over [D3], [mult] from [D1] and [D2] to [D3] *)

Record ssemiring : Type := mkSSemiring { ss_add : smonoid; ss_mult : sbinop }.
Definition ss_zero (s : ssemiring) (t3 : stype) : scalar := sm_id (ss_add s) t3.

Definition SArithmeticSemiring : ssemiring := mkSSemiring SPlusMonoid STimes.
Definition SMinPlusSemiring : ssemiring := mkSSemiring SMinMonoid SPlus.
Definition SMaxPlusSemiring : ssemiring := mkSSemiring SMaxMonoid SPlus.
Definition SMinTimesSemiring : ssemiring := mkSSemiring SMinMonoid STimes.
Definition SMaxTimesSemiring : ssemiring := mkSSemiring SMaxMonoid STimes.
Definition SMinMaxSemiring : ssemiring := mkSSemiring SMinMonoid SMax.
Definition SMaxMinSemiring : ssemiring := mkSSemiring SMaxMonoid SMin.
Definition SPlusMinSemiring : ssemiring := mkSSemiring SPlusMonoid SMin.
Definition SLogicalSemiring : ssemiring := mkSSemiring SLogicalOrMonoid SLogicalAnd.
Definition SAndOrSemiring : ssemiring := mkSSemiring SLogicalAndMonoid SLogicalOr.
Definition SXorAndSemiring : ssemiring := mkSSemiring SLogicalXorMonoid SLogicalAnd.
Definition SXnorOrSemiring : ssemiring := mkSSemiring SLogicalXnorMonoid SLogicalOr.
Definition SMinFirstSemiring : ssemiring := mkSSemiring SMinMonoid SFirst.
Definition SMinSecondSemiring : ssemiring := mkSSemiring SMinMonoid SSecond.
Definition SMaxFirstSemiring : ssemiring := mkSSemiring SMaxMonoid SFirst.
Definition SMaxSecondSemiring : ssemiring := mkSSemiring SMaxMonoid SSecond.
