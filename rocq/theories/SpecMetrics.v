(** What the metrics of a weighted graph mean. *)
From Verif Require Import Base SpecPaths.
Local Open Scope Z_scope.

(** The largest distance from [u] to a vertex that can be reached from it. *)
Definition eccentricity (w : nat -> nat -> option Z) (u : nat) (e : Z) : Prop :=
  (exists v, distance w u v e) /\ forall v x, distance w u v x -> x <= e.

(** The smallest eccentricity of a vertex below [N]. *)
Definition radius (w : nat -> nat -> option Z) (N : nat) (r : Z) : Prop :=
  (exists u, (u < N)%nat /\ eccentricity w u r) /\
  forall u e, (u < N)%nat -> eccentricity w u e -> r <= e.

(** The largest distance between two connected vertices. *)
Definition diameter (w : nat -> nat -> option Z) (N : nat) (d : Z) : Prop :=
  (exists u v, (u < N)%nat /\ distance w u v d) /\
  forall u v x, (u < N)%nat -> distance w u v x -> x <= d.

(** The sum of the values that [D] gives to the vertices below [N]. *)
Definition sum_values (N : nat) (D : nat -> option Z) : Z :=
  fold_right Z.add 0 (map (fun v => match D v with Some x => x | None => 0 end) (seq 0 N)).

(** No cycle has a negative cost. *)
Definition no_negative_cycle (w : nat -> nat -> option Z) : Prop :=
  forall v k c, wwalk w v v k c -> 0 <= c.
