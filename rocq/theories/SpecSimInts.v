(** Programs over machine integers beside the same programs over unbounded integers.  A scalar is a flag ([bool], the
    element of a mask) or a number. *)
From Coq Require Import ZArith.
From Verif Require Import Base ModelLil ModelVec ModelAlgebra ModelInts ModelMachine Spec SpecAlgebra SpecRel SpecInts.

(** Equal flags, or numbers related by [R]. *)
Definition flag_or {A A' : Type} (R : A -> A' -> Prop) (x : bool + A) (x' : bool + A') : Prop :=
  match x, x' with
  | inl b, inl b' => b = b'
  | inr a, inr a' => R a a'
  | _, _ => False
  end.
(** Operators on the numbers (applied to a flag they give the flag [false]) and the test of a flag. *)
Definition num1 {A : Type} (f : A -> A) (x : bool + A) : bool + A :=
  match x with inr a => inr (f a) | inl _ => inl false end.
Definition num2 {A : Type} (f : A -> A -> A) (x y : bool + A) : bool + A :=
  match x, y with inr a, inr b => inr (f a b) | _, _ => inl false end.
Definition flag {A : Type} (x : bool + A) : bool := match x with inl b => b | inr _ => false end.

(** The types in which an overflow is undefined. *)
Definition overflow_undefined (t : ctype) : Prop := t = CInt true W32 \/ t = CInt true W64.
(** [x] is the integer [z], which then is a value of type [t], or the outcome of an undefined operation. *)
Definition exact_or_undefined (t : ctype) (z : Z) (x : ival) : Prop := x = UB \/ x = Ok z /\ inty t z.

(** No element of the containers is the outcome of an undefined operation. *)
Definition settled (x : bool + ival) : Prop := x <> inr UB.
Definition settled_store (st : store (bool + ival)) : Prop :=
  (forall k M i j x, nth_error (mats st) k = Some M -> mget M i j = Some x -> settled x) /\
  (forall k u i x, nth_error (vecs st) k = Some u -> vget u i = Some x -> settled x).

(** The same elements at the same positions, as far as the API shows them. *)
Definition shows (x : bool + Z) (x' : bool + ival) : Prop :=
  match x, x' with
  | inl b, inl b' => b = b'
  | inr z, inr v => v = Ok z
  | _, _ => False
  end.
Definition store_shows (st : store (bool + Z)) (st' : store (bool + ival)) : Prop :=
  length (mats st) = length (mats st') /\ length (vecs st) = length (vecs st') /\
  (forall k M M', nth_error (mats st) k = Some M -> nth_error (mats st') k = Some M' ->
     nrows M = nrows M' /\ ncols M = ncols M' /\ nvals M = nvals M' /\ forall i j, orel shows (mget M i j) (mget M' i j)) /\
  (forall k u u', nth_error (vecs st) k = Some u -> nth_error (vecs st') k = Some u' ->
     vsize u = vsize u' /\ vnvals u = vnvals u' /\ forall i, orel shows (vget u i) (vget u' i)).
