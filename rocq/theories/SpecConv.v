(** Exact values of scalars, and rounding. *)
From Coq Require Import ZArith QArith Qabs Floats.SpecFloat.
From Verif Require Import Base ModelAlgebra ModelOps ModelFloat ModelConv SpecFloats.

(** The rational number a finite floating point value stands for, m 2^e. *)
Definition real (x : fval) : Q :=
  match x with
  | S754_finite s m e => inject_Z (cond_Zopp s (Zpos m)) * (2 # 1) ^ e
  | _ => 0
  end.
Definition exact (v : scalar) : Q := match v with VI z => inject_Z z | VF x => real x end.

(** [v] is a value of type [t]. *)
Definition has_type (t : stype) (v : scalar) : Prop :=
  match t, v with
  | SI c, VI z => (tmin c <= z <= tmax c)%Z
  | SF c, VF x => value c x
  | _, _ => False
  end.
Definition finite_scalar (v : scalar) : Prop := match v with VI _ => True | VF x => finite x end.

(** The rational number [q] rounds to [x] in type [t]: no number of type [t] lies strictly between [q] and [x], so that [x] is
    [q] if [q] can be represented and otherwise one of the two neighbours of [q] in the type, which may be an infinity; and
    no finite number of the type is closer to [q] than a finite [x]. *)
Definition rounds_to (t : ftype) (q : Q) (x : fval) : Prop :=
  number t x /\
  (forall y, value t y -> finite y -> (real y <= q -> fle y x) /\ (q <= real y -> fle x y)) /\
  (finite x -> forall y, value t y -> finite y -> Qabs (real x - q) <= Qabs (real y - q)).

(** [z] is [q] without its fraction. *)
Definition truncates_to (q : Q) (z : Z) : Prop :=
  (0 <= q -> inject_Z z <= q < inject_Z (z + 1)) /\ (q <= 0 -> inject_Z (z - 1) < q <= inject_Z z).

(** The order of the numbers with infinities: -infinity < rational numbers < infinity. *)
Definition sless (a b : scalar) : Prop :=
  match a, b with
  | VF (S754_infinity true), VF (S754_infinity true) => False
  | VF (S754_infinity true), _ => True
  | VF (S754_infinity false), _ => False
  | _, VF (S754_infinity s) => s = false
  | _, _ => exact a < exact b
  end.
Definition sequal (a b : scalar) : Prop := ~ sless a b /\ ~ sless b a.

(** An integer operand is not too large to be exact in type [t]; a floating point operand is not NaN. *)
Definition fits (t : ftype) (v : scalar) : Prop :=
  match v with VI z => (Z.abs z <= 2 ^ prec t)%Z | VF x => x <> S754_nan end.

(** [x] stands for the same number as [v]. *)
Definition same (v : scalar) (x : fval) : Prop :=
  match v with
  | VF (S754_infinity s) => x = S754_infinity s
  | _ => finite x /\ real x == exact v
  end.

(** An operator agrees with one of ModelAlgebra.v, ModelOps.v or ModelFloat.v on operands of integer or of floating point
    types. *)
Definition lift (r : res Z) : res scalar := z <- r ;; Ok (VI z).
Definition int_agrees3 (s : sbinop) (op : binop3) : Prop :=
  forall t1 t2 t3 x y, s (SI t1) (SI t2) (SI t3) (VI x) (VI y) = lift (op t1 t2 t3 x y).
Definition int_agrees (s : sbinop) (op : binop) : Prop :=
  forall t x y, s (SI t) (SI t) (SI t) (VI x) (VI y) = lift (op t x y).
Definition int_agrees1 (s : sunop) (op : unop) : Prop :=
  forall t1 t2 x, s (SI t1) (SI t2) (VI x) = lift (op t1 t2 x).
Definition float_agrees (s : sbinop) (op : fbin) : Prop :=
  forall t x y, value t x -> value t y -> s (SF t) (SF t) (SF t) (VF x) (VF y) = Ok (VF (op t x y)).
Definition float_compares (s : sbinop) (op : fval -> fval -> bool) : Prop :=
  forall t x y, value t x -> value t y -> s (SF t) (SF t) (SI CBool) (VF x) (VF y) = Ok (VI (ofbool (op x y))).

(** [v] converted to type [t] is [x]. *)
Definition converts (t : stype) (v x : scalar) : Prop := cast t v = Ok x.
