(** Programs over float and double beside the same programs over integers that are kept while they are small. *)
From Coq Require Import ZArith QArith.
From Verif Require Import Base ModelLil ModelVec ModelAlgebra ModelFloat ModelMachine Spec SpecFloats SpecConv SpecRel SpecSimInts.
Local Open Scope Z_scope.

(** An integer, or [None] once some result exceeded [K] in absolute value. *)
Definition small (K z : Z) : option Z := if Z.abs z <=? K then Some z else None.
Definition small1 (K : Z) (f : Z -> Z) (a : option Z) : option Z :=
  match a with Some a => small K (f a) | None => None end.
Definition small2 (K : Z) (f : Z -> Z -> Z) (a b : option Z) : option Z :=
  match a, b with Some a, Some b => small K (f a b) | _, _ => None end.

(** The floating point number [x] is the integer [z]; nothing is said of a lost integer. *)
Definition is_integer (t : ftype) (z : option Z) (x : fval) : Prop :=
  match z with
  | Some z => Z.abs z <= 2 ^ prec t /\ value t x /\ finite x /\ (real x == inject_Z z)%Q
  | None => True
  end.

(** No element of the containers is lost. *)
Definition kept (x : bool + option Z) : Prop := x <> inr None.
Definition kept_store (st : store (bool + option Z)) : Prop :=
  (forall k M i j x, nth_error (mats st) k = Some M -> mget M i j = Some x -> kept x) /\
  (forall k u i x, nth_error (vecs st) k = Some u -> vget u i = Some x -> kept x).
(** The same positions hold the same integers. *)
Definition shows_float (x : bool + option Z) (y : bool + fval) : Prop :=
  match x, y with
  | inl b, inl b' => b = b'
  | inr (Some z), inr v => finite v /\ (real v == inject_Z z)%Q
  | _, _ => False
  end.
Definition store_shows_float (st : store (bool + option Z)) (st' : store (bool + fval)) : Prop :=
  length (mats st) = length (mats st') /\ length (vecs st) = length (vecs st') /\
  (forall k M M', nth_error (mats st) k = Some M -> nth_error (mats st') k = Some M' ->
     nrows M = nrows M' /\ ncols M = ncols M' /\ nvals M = nvals M' /\ forall i j, orel shows_float (mget M i j) (mget M' i j)) /\
  (forall k u u', nth_error (vecs st) k = Some u -> nth_error (vecs st') k = Some u' ->
     vsize u = vsize u' /\ vnvals u = vnvals u' /\ forall i, orel shows_float (vget u i) (vget u' i)).
