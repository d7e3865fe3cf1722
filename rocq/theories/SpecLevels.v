(** What it takes for a scalar type to hold a level. *)
From Coq Require Import ZArith.
From Verif Require Import Base ModelAlgebra ModelFloat ModelLevels.
Local Open Scope Z_scope.

(** The integer [z] survives the conversion to the scalar type and back, and is not taken for
    false. *)
Definition holds_int (s : scalar) (z : Z) : Prop := s_to s (s_of s z) = z /\ s_true s (s_of s z) = true.
(** The scalar type's version of [z] is not taken for false, and survives the conversion [conv] to an
    unsigned integer type and back. *)
Definition keeps_level (conv : Z -> Z) (s : scalar) (z : Z) : Prop :=
  s_true s (s_of s z) = true /\ s_of s (conv (s_to s (s_of s z))) = s_of s z.

(** The level [z] in a container of type [lt] is not stored as zero; for floating point, it is an exact
    integer of the type. *)
Definition level_fits (lt : ltype) (z : Z) : Prop :=
  match lt with
  | LInt t => convert t z <> 0
  | LFloat t => z <= 2 ^ prec t
  end.
