(** Laws of operators over floating point numbers.  [SFeqb], [SFleb], [SFltb] are the IEEE
    comparisons of the standard library: what C++ [==], [<=], [<] compute. *)
From Coq Require Import ZArith Floats.SpecFloat.
From Verif Require Import Base ModelFloat.
Local Open Scope Z_scope.

(** A value of type [t]: a zero, an infinity, NaN, or a finite number that [t] can hold. *)
Definition value (t : ftype) (x : fval) : Prop := valid_binary (prec t) (emax t) x = true.
(** A value that is not NaN. *)
Definition number (t : ftype) (x : fval) : Prop := value t x /\ x <> S754_nan.
Definition finite (x : fval) : Prop :=
  match x with S754_zero _ | S754_finite _ _ _ => True | _ => False end.
(** C++ [a == b] and [a <= b]. *)
Definition feq (a b : fval) : Prop := SFeqb a b = true.
Definition fle (a b : fval) : Prop := SFleb a b = true.

Definition f_closed (op : fbin) (t : ftype) : Prop :=
  forall a b, number t a -> number t b -> number t (op t a b).
(** [==] up to the sign of a zero. *)
Definition f_commutative (op : fbin) (t : ftype) : Prop :=
  forall a b, number t a -> number t b -> feq (op t a b) (op t b a).
Definition f_associative (op : fbin) (t : ftype) : Prop :=
  forall a b c, number t a -> number t b -> number t c ->
    op t (op t a b) c = op t a (op t b c).
Definition f_identity (op : fbin) (e : fval) (t : ftype) : Prop :=
  number t e /\ forall a, number t a -> op t e a = a /\ op t a e = a.

Definition fmonoid_laws (m : fmonoid) (t : ftype) : Prop :=
  f_closed (fm_op m) t /\ f_commutative (fm_op m) t /\ f_associative (fm_op m) t /\
  f_identity (fm_op m) (fm_id m t) t.

(** Distributivity for multipliers in [P], when no product is NaN. *)
Definition f_left_distributive (P : fval -> Prop) (s : fsemiring) (t : ftype) : Prop :=
  forall a b c, number t a -> number t b -> number t c -> P a ->
    fs_mult s t a b <> S754_nan -> fs_mult s t a c <> S754_nan ->
    feq (fs_mult s t a (fm_op (fs_add s) t b c))
        (fm_op (fs_add s) t (fs_mult s t a b) (fs_mult s t a c)).
Definition f_right_distributive (P : fval -> Prop) (s : fsemiring) (t : ftype) : Prop :=
  forall a b c, number t a -> number t b -> number t c -> P a ->
    fs_mult s t b a <> S754_nan -> fs_mult s t c a <> S754_nan ->
    feq (fs_mult s t (fm_op (fs_add s) t b c) a)
        (fm_op (fs_add s) t (fs_mult s t b a) (fs_mult s t c a)).
Definition anything (a : fval) : Prop := True.
Definition nonnegative (a : fval) : Prop := fle f0 a.

Definition fsemiring_laws (s : fsemiring) (t : ftype) : Prop :=
  fmonoid_laws (fs_add s) t /\ f_closed (fs_mult s) t /\ f_associative (fs_mult s) t /\
  f_left_distributive anything s t /\ f_right_distributive anything s t /\
  forall a, number t a ->
    fs_mult s t (fs_zero s t) a = fs_zero s t /\ fs_mult s t a (fs_zero s t) = fs_zero s t.
