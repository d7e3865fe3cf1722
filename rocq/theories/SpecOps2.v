(** Vocabulary for the operator properties. *)
From Verif Require Import Base ModelAlgebra SpecAlgebra.
Local Open Scope Z_scope.

(** An unsigned type of at least the width of [int], and a signed type that is not wider:
    C++ converts values of the second to the first before an operation on both. *)
Definition swallows (u s : ctype) : Prop :=
  exists w w', u = CInt false w /\ s = CInt true w' /\ 32 <= bits w /\ bits w' <= bits w.

(** The values [a] of type [t1] and [b] of type [t2] keep their values in an operation on
    both. *)
Definition compatible (t1 t2 : ctype) (a b : Z) : Prop :=
  (0 <= a /\ 0 <= b) \/ (~ swallows t1 t2 /\ ~ swallows t2 t1).

(** Quotient and remainder of a division that truncates towards 0. *)
Definition truncated_division (a b q : Z) : Prop :=
  exists r, a = b * q + r /\ Z.abs r < Z.abs b /\ (r = 0 \/ Z.sgn r = Z.sgn a).

(** The value of type [t] whose bits are all 1. *)
Definition all_ones (t : ctype) : Z :=
  match t with CBool => 1 | CInt true _ => -1 | CInt false w => 2 ^ bits w - 1 end.
