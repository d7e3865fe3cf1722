(** Flows in a network with vertices below [N], as net flows: [f u v] is what goes from [u] to [v]
    minus what goes back. *)
From Verif Require Import Base ModelLil Spec.
Local Open Scope Z_scope.

Definition zsum (N : nat) (f : nat -> Z) : Z := fold_right Z.add 0 (map f (seq 0 N)).

(** An edge that is not stored has no capacity. *)
Definition capacity (G : lil Z) (u v : nat) : Z :=
  match mget G u v with Some c => c | None => 0 end.

(** Nothing is created or lost except at the source and the sink. *)
Definition is_flow (N : nat) (cap : nat -> nat -> Z) (source sink : nat) (f : nat -> nat -> Z) : Prop :=
  (forall u v, (u < N)%nat -> (v < N)%nat -> f u v = - f v u) /\
  (forall u v, (u < N)%nat -> (v < N)%nat -> f u v <= cap u v) /\
  (forall v, (v < N)%nat -> v <> source -> v <> sink -> zsum N (fun u => f u v) = 0).

(** What arrives at the sink. *)
Definition flow_value (N : nat) (sink : nat) (f : nat -> nat -> Z) : Z := zsum N (fun u => f u sink).

Definition is_max_flow (N : nat) (cap : nat -> nat -> Z) (source sink : nat) (x : Z) : Prop :=
  (exists f, is_flow N cap source sink f /\ flow_value N sink f = x) /\
  forall f, is_flow N cap source sink f -> flow_value N sink f <= x.

(** A set of vertices that contains the source and not the sink, and the capacity that leaves it. *)
Definition is_cut (N source sink : nat) (S : nat -> bool) : Prop := S source = true /\ S sink = false.
Definition cut_capacity (N : nat) (cap : nat -> nat -> Z) (S : nat -> bool) : Z :=
  zsum N (fun u => zsum N (fun v => if S u && negb (S v) then cap u v else 0)).
