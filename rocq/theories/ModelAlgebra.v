(** Model of the predefined operators, monoids and semirings over the built-in integer
    types and [bool].  /repo/src/graphblas/algebra.hpp.
    A value of such a type is the integer it represents; [bool] is 0 or 1.  Floating point
    types are in ModelFloat.v. *)
From Verif Require Import Base.
Local Open Scope Z_scope.

(** The types: [bool] and two's complement integers of 8 to 64 bits. *)
Inductive ctype : Type := CBool | CInt (signed : bool) (w : iwidth)
with iwidth : Type := W8 | W16 | W32 | W64.

Definition bits (w : iwidth) : Z :=
  match w with W8 => 8 | W16 => 16 | W32 => 32 | W64 => 64 end.

(** [std::numeric_limits<T>::min()] and [max()]. *)
Definition tmin (t : ctype) : Z :=
  match t with
  | CBool => 0
  | CInt false _ => 0
  | CInt true w => - 2 ^ (bits w - 1)
  end.
Definition tmax (t : ctype) : Z :=
  match t with
  | CBool => 1
  | CInt false w => 2 ^ bits w - 1
  | CInt true w => 2 ^ (bits w - 1) - 1
  end.

(** Conversion of an integer to type [t] (C++ [conv.integral], [conv.bool]): to [bool] by
    comparison with 0, else modulo 2^bits (implementation-defined before C++20 for signed
    types; every compiler wraps). *)
Definition wrapu (w : iwidth) (z : Z) : Z := z mod 2 ^ bits w.
Definition wraps (w : iwidth) (z : Z) : Z :=
  (z + 2 ^ (bits w - 1)) mod 2 ^ bits w - 2 ^ (bits w - 1).
Definition convert (t : ctype) (z : Z) : Z :=
  match t with
  | CBool => if z =? 0 then 0 else 1
  | CInt false w => wrapu w z
  | CInt true w => wraps w z
  end.

(** The type in which [lhs + rhs] and [lhs * rhs] are computed: types narrower than [int]
    are promoted to [int] (32 bits). *)
Definition promote (t : ctype) : ctype :=
  match t with
  | CBool | CInt _ W8 | CInt _ W16 => CInt true W32
  | _ => t
  end.

(** Arithmetic in a promoted type: signed overflow is undefined, unsigned wraps. *)
Definition arith (t : ctype) (z : Z) : res Z :=
  match t with
  | CInt false w => Ok (wrapu w z)
  | _ => if (tmin t <=? z) && (z <=? tmax t) then Ok z else UB
  end.

(** ** Binary operators, all arguments and the result of type [t] *)

Definition binop : Type := ctype -> Z -> Z -> res Z.

(** [Plus], algebra.hpp:310-314. *)
Definition Plus : binop := fun t a b => r <- arith (promote t) (a + b) ;; Ok (convert t r).
(** [Minus], 316-320. *)
Definition Minus : binop := fun t a b => r <- arith (promote t) (a - b) ;; Ok (convert t r).
(** [Times], 322-326. *)
Definition Times : binop := fun t a b => r <- arith (promote t) (a * b) ;; Ok (convert t r).
(** [Min], 289-293 and [Max], 295-299. *)
Definition Min : binop := fun t a b => Ok (if a <? b then a else b).
Definition Max : binop := fun t a b => Ok (if a <? b then b else a).
(** [First], 274-278 and [Second], 281-285. *)
Definition First : binop := fun t a b => Ok a.
Definition Second : binop := fun t a b => Ok b.

Definition istrue (z : Z) : bool := negb (z =? 0).
Definition ofbool (b : bool) : Z := if b then 1 else 0.
(** [LogicalOr], [LogicalAnd], [LogicalXor], [LogicalXnor], 162-193. *)
Definition LogicalOr : binop := fun t a b => Ok (ofbool (istrue a || istrue b)).
Definition LogicalAnd : binop := fun t a b => Ok (ofbool (istrue a && istrue b)).
Definition LogicalXor : binop :=
  fun t a b => Ok (ofbool ((istrue a && negb (istrue b)) || (negb (istrue a) && istrue b))).
Definition LogicalXnor : binop :=
  fun t a b => Ok (ofbool ((istrue a && istrue b) || (negb (istrue a) && negb (istrue b)))).

(** ** Monoids.  The macro, algebra.hpp:361-378; instances 383-390; [MaxMonoid] and
    [MinMonoid] for integral types (which include [bool]), 399-414 and 444-459. *)

Record monoid : Type := mkMonoid { m_op : binop; m_id : ctype -> Z }.

Definition PlusMonoid : monoid := mkMonoid Plus (fun t => convert t 0).
Definition TimesMonoid : monoid := mkMonoid Times (fun t => convert t 1).
Definition LogicalOrMonoid : monoid := mkMonoid LogicalOr (fun t => convert t 0).
Definition LogicalAndMonoid : monoid := mkMonoid LogicalAnd (fun t => convert t 1).
Definition LogicalXorMonoid : monoid := mkMonoid LogicalXor (fun t => convert t 0).
Definition LogicalXnorMonoid : monoid := mkMonoid LogicalXnor (fun t => convert t 1).
Definition MaxMonoid : monoid := mkMonoid Max tmin.
Definition MinMonoid : monoid := mkMonoid Min tmax.

(** ** Semirings.  The macro, algebra.hpp:495-512; instances 521-570.  [zero()] is the
    identity of the additive monoid. *)

Record semiring : Type := mkSemiring { s_add : monoid; s_mult : binop }.
Definition s_zero (s : semiring) (t : ctype) : Z := m_id (s_add s) t.

Definition ArithmeticSemiring : semiring := mkSemiring PlusMonoid Times.
Definition MinPlusSemiring : semiring := mkSemiring MinMonoid Plus.
Definition MaxPlusSemiring : semiring := mkSemiring MaxMonoid Plus.
Definition MinTimesSemiring : semiring := mkSemiring MinMonoid Times.
Definition MaxTimesSemiring : semiring := mkSemiring MaxMonoid Times.
Definition MinMaxSemiring : semiring := mkSemiring MinMonoid Max.
Definition MaxMinSemiring : semiring := mkSemiring MaxMonoid Min.
Definition PlusMinSemiring : semiring := mkSemiring PlusMonoid Min.
Definition LogicalSemiring : semiring := mkSemiring LogicalOrMonoid LogicalAnd.
Definition AndOrSemiring : semiring := mkSemiring LogicalAndMonoid LogicalOr.
Definition XorAndSemiring : semiring := mkSemiring LogicalXorMonoid LogicalAnd.
Definition XnorOrSemiring : semiring := mkSemiring LogicalXnorMonoid LogicalOr.
Definition MinFirstSemiring : semiring := mkSemiring MinMonoid First.
Definition MinSecondSemiring : semiring := mkSemiring MinMonoid Second.
Definition MaxFirstSemiring : semiring := mkSemiring MaxMonoid First.
Definition MaxSecondSemiring : semiring := mkSemiring MaxMonoid Second.
