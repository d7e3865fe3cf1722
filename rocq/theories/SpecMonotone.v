(** Comparing two graphs with the same vertices. *)
From Verif Require Import Base.

(** [w'] has the edges of [w], with weights that are not higher, and perhaps others. *)
Definition no_dearer (w w' : nat -> nat -> option Z) : Prop :=
  forall u v g, w u v = Some g -> exists g', w' u v = Some g' /\ (g' <= g)%Z.

(** [D'] gives every vertex of [D] a distance that is not higher, and perhaps others. *)
Definition no_later (D D' : nat -> option Z) : Prop :=
  forall v a, D v = Some a -> exists a', D' v = Some a' /\ (a' <= a)%Z.
