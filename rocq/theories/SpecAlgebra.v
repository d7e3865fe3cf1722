(** The monoid and semiring laws, for partial operators: an operation whose C++ evaluation
    is undefined is not [Ok]. *)
From Verif Require Import Base ModelAlgebra.
Local Open Scope Z_scope.

(** [z] is a value of type [t]. *)
Definition inty (t : ctype) (z : Z) : Prop := tmin t <= z <= tmax t.

(** Results are values of the type. *)
Definition closed (op : binop) (t : ctype) : Prop :=
  forall a b c, inty t a -> inty t b -> op t a b = Ok c -> inty t c.
(** The same result, and defined together. *)
Definition commutative (op : binop) (t : ctype) : Prop :=
  forall a b, inty t a -> inty t b -> op t a b = op t b a.
(** [(a b) c] and [a (b c)] agree when both are defined. *)
Definition associative (op : binop) (t : ctype) : Prop :=
  forall a b c ab bc x y, inty t a -> inty t b -> inty t c ->
    op t a b = Ok ab -> op t ab c = Ok x -> op t b c = Ok bc -> op t a bc = Ok y -> x = y.
Definition is_identity (op : binop) (e : Z) (t : ctype) : Prop :=
  inty t e /\ forall a, inty t a -> op t e a = Ok a /\ op t a e = Ok a.
(** Never undefined. *)
Definition total (op : binop) (t : ctype) : Prop :=
  forall a b, inty t a -> inty t b -> exists c, op t a b = Ok c.

Definition monoid_laws (m : monoid) (t : ctype) : Prop :=
  closed (m_op m) t /\ commutative (m_op m) t /\ associative (m_op m) t /\
  is_identity (m_op m) (m_id m t) t.

(** [a * (b + c)] and [a * b + a * c] agree when both are defined; same on the right. *)
Definition left_distributive (s : semiring) (t : ctype) : Prop :=
  forall a b c bc ab ac x y, inty t a -> inty t b -> inty t c ->
    m_op (s_add s) t b c = Ok bc -> s_mult s t a bc = Ok x ->
    s_mult s t a b = Ok ab -> s_mult s t a c = Ok ac -> m_op (s_add s) t ab ac = Ok y -> x = y.
Definition right_distributive (s : semiring) (t : ctype) : Prop :=
  forall a b c bc ba ca x y, inty t a -> inty t b -> inty t c ->
    m_op (s_add s) t b c = Ok bc -> s_mult s t bc a = Ok x ->
    s_mult s t b a = Ok ba -> s_mult s t c a = Ok ca -> m_op (s_add s) t ba ca = Ok y -> x = y.
Definition left_annihilates (s : semiring) (t : ctype) : Prop :=
  forall a, inty t a -> s_mult s t (s_zero s t) a = Ok (s_zero s t).
Definition right_annihilates (s : semiring) (t : ctype) : Prop :=
  forall a, inty t a -> s_mult s t a (s_zero s t) = Ok (s_zero s t).

(** All the laws of a semiring, except that the multiplication need not have a unit. *)
Definition semiring_laws (s : semiring) (t : ctype) : Prop :=
  monoid_laws (s_add s) t /\ closed (s_mult s) t /\ associative (s_mult s) t /\
  left_distributive s t /\ right_distributive s t /\
  left_annihilates s t /\ right_annihilates s t.

(** Types whose [+] and [*] are computed without wrap-around when they are defined. *)
Definition exact_type (t : ctype) : Prop := t = CInt true W32 \/ t = CInt true W64.
Definition unsigned_type (t : ctype) : Prop := exists w, t = CInt false w.
