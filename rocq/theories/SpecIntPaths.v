(** Floating point numbers that are integers of bounded magnitude. *)
From Coq Require Import ZArith.
From Verif Require Import Base ModelFloat SpecFloats SpecFpaths.

(** [x] is [z], of absolute value at most [K] (the counterpart of [exactly] of SpecInts). *)
Definition fexactly (t : ftype) (K z : Z) (x : fval) : Prop := is_int t z x /\ (Z.abs z <= K)%Z.

(** A stored value [o] of a machine type holds, in the sense of [R], the integer that [P] describes; it is absent if there is no
    such integer. *)
Definition holds {D : Type} (R : Z -> D -> Prop) (P : Z -> Prop) (o : option D) : Prop :=
  match o with
  | Some y => exists x, R x y /\ P x
  | None => forall x, ~ P x
  end.
