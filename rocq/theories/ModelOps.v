(** Model of the remaining predefined operators over [bool] and the built-in integer types:
    the unary operators, the bitwise and comparison operators, division, and all binary
    operators with three different domains.  /repo/src/graphblas/algebra.hpp.
    [Power] (334-339) is not modelled: it calls [std::pow] on [double] values. *)
From Verif Require Import Base ModelAlgebra.
Local Open Scope Z_scope.

(** The usual arithmetic conversions (C++ [expr.arith.conv]) of the operands of a binary
    operator: both are promoted; of two types of the same width the unsigned one is chosen,
    else the wider one ([int] has 32 bits, [long] 64). *)
Definition common (t1 t2 : ctype) : ctype :=
  match promote t1, promote t2 with
  | CInt s1 w1, CInt s2 w2 =>
      if bits w1 =? bits w2 then CInt (s1 && s2) w1
      else if bits w1 <? bits w2 then CInt s2 w2 else CInt s1 w1
  | p, _ => p
  end.

(** ** Unary operators from type [t1] to type [t2] *)

Definition unop : Type := ctype -> ctype -> Z -> res Z.

(** [Identity], algebra.hpp:81-85. *)
Definition Identity : unop := fun t1 t2 x => Ok (convert t2 x).

(** [detail::MyAbs], 41-67: [abs] of the argument converted to [int], [labs] for [int64_t]
    (undefined when the result does not fit), nothing for unsigned types and [bool]. *)
Definition my_abs (t1 : ctype) (x : Z) : res Z :=
  match t1 with
  | CInt true _ => arith (promote t1) (Z.abs x)
  | _ => Ok x
  end.
(** [Abs], 87-94. *)
Definition Abs : unop := fun t1 t2 x => r <- my_abs t1 x ;; Ok (convert t2 r).

(** [AdditiveInverse], 97-101. *)
Definition AdditiveInverse : unop :=
  fun t1 t2 x => r <- arith (promote t1) (- x) ;; Ok (convert t2 r).

(** Division of two values of type [c]: undefined for divisor 0 and when the quotient,
    truncated towards 0, does not fit. *)
Definition quotient (c : ctype) (x y : Z) : res Z :=
  if y =? 0 then UB else arith c (Z.quot x y).

(** [MultiplicativeInverse], 103-110: [static_cast<D2>(1) / input]. *)
Definition MultiplicativeInverse : unop :=
  fun t1 t2 x =>
    r <- quotient (common t2 t1) (convert (common t2 t1) (convert t2 1))
           (convert (common t2 t1) x) ;;
    Ok (convert t2 r).

(** [LogicalNot], 114-118. *)
Definition LogicalNot : unop := fun t1 t2 x => Ok (ofbool (negb (istrue x))).

(** [~] on the promoted operand. *)
Definition complement (c : ctype) (x : Z) : Z := convert c (Z.lnot x).
(** [BitwiseNot], 120-126. *)
Definition BitwiseNot : unop := fun t1 t2 x => Ok (convert t2 (complement (promote t1) x)).

(** ** Binary operators from types [t1] and [t2] to type [t3] *)

Definition binop3 : Type := ctype -> ctype -> ctype -> Z -> Z -> res Z.

(** Both operands converted to the common type, combined, converted to [t3]. *)
Definition pure3 (f : ctype -> Z -> Z -> Z) : binop3 :=
  fun t1 t2 t3 a b =>
    let c := common t1 t2 in Ok (convert t3 (f c (convert c a) (convert c b))).
Definition arith3 (f : Z -> Z -> Z) : binop3 :=
  fun t1 t2 t3 a b =>
    let c := common t1 t2 in
    r <- arith c (f (convert c a) (convert c b)) ;; Ok (convert t3 r).

(** [BitwiseOr], [BitwiseAnd], [BitwiseXor], [BitwiseXnor], 198-233. *)
Definition BitwiseOr : binop3 := pure3 (fun _ => Z.lor).
Definition BitwiseAnd : binop3 := pure3 (fun _ => Z.land).
Definition BitwiseXor : binop3 := pure3 (fun _ => Z.lxor).
Definition BitwiseXnor : binop3 := pure3 (fun c x y => complement c (Z.lxor x y)).

(** [Equal], [NotEqual], [GreaterThan], [LessThan], [GreaterEqual], [LessEqual], 236-270. *)
Definition Equal : binop3 := pure3 (fun _ x y => ofbool (x =? y)).
Definition NotEqual : binop3 := pure3 (fun _ x y => ofbool (negb (x =? y))).
Definition GreaterThan : binop3 := pure3 (fun _ x y => ofbool (y <? x)).
Definition LessThan : binop3 := pure3 (fun _ x y => ofbool (x <? y)).
Definition GreaterEqual : binop3 := pure3 (fun _ x y => ofbool (y <=? x)).
Definition LessEqual : binop3 := pure3 (fun _ x y => ofbool (x <=? y)).

(** [First], [Second], 274-285: no conversion to the common type. *)
Definition First3 : binop3 := fun t1 t2 t3 a b => Ok (convert t3 a).
Definition Second3 : binop3 := fun t1 t2 t3 a b => Ok (convert t3 b).

(** [Min], [Max], 289-299. *)
Definition Min3 : binop3 := pure3 (fun _ x y => if x <? y then x else y).
Definition Max3 : binop3 := pure3 (fun _ x y => if x <? y then y else x).

(** [Plus], [Minus], [Times], [Div], 310-332. *)
Definition Plus3 : binop3 := arith3 Z.add.
Definition Minus3 : binop3 := arith3 Z.sub.
Definition Times3 : binop3 := arith3 Z.mul.
Definition Div : binop3 :=
  fun t1 t2 t3 a b =>
    let c := common t1 t2 in
    r <- quotient c (convert c a) (convert c b) ;; Ok (convert t3 r).

(** ** Operators of a semiring: [multiply_op] and [add_monoid], algebra.hpp:580-643. *)
Definition multiply_op (s : semiring) : binop := fun t a b => s_mult s t a b.
Definition add_monoid (s : semiring) : monoid :=
  mkMonoid (fun t a b => m_op (s_add s) t a b) (fun t => s_zero s t).
