(** Machine integers and the integers they stand for. *)
From Verif Require Import Base ModelLil ModelVec ModelAlgebra ModelInts Spec SpecAlgebra SpecRel.
Local Open Scope Z_scope.

(** [x] is the value of type [t] that is [z] modulo 2^bits ([z] itself when [z] is a value of the type). *)
Definition wrapped (t : ctype) (z : Z) (x : ival) : Prop := x = Ok (convert t z).
(** [x] is [z], a value of type [t] of absolute value at most [K]. *)
Definition exactly (t : ctype) (K z : Z) (x : ival) : Prop := x = Ok z /\ inty t z /\ Z.abs z <= K.

(** The types whose [Plus] ([Times]) wraps around instead of being undefined. *)
Definition plus_wraps (t : ctype) : Prop := exists s w, t = CInt s w /\ (s = true -> w = W8 \/ w = W16).
Definition times_wraps (t : ctype) : Prop := plus_wraps t /\ t <> CInt false W16.
Definition integer_type (t : ctype) : Prop := exists s w, t = CInt s w.
