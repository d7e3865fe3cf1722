(** The modularity of a clustering, independently of the model. *)
From Coq Require Import QArith Qcanon.
From Verif Require Import Base ModelLil Spec SpecRank.
Local Open Scope nat_scope.
Local Open Scope Qc_scope.

Section Modularity.
(** An undirected graph with vertices [0 .. N-1] and weights [A]. *)
Context (N : nat) (A : nat -> nat -> Qc).

Definition degree (v : nat) : Qc := qsum N (A v).
(** Twice the weight of all edges. *)
Definition total_weight : Qc := qsum N degree.
(** The share of the weight that lies inside clusters, less what would be expected there if the edges
    were drawn at random with the same degrees.  [c v] is the cluster of [v]. *)
Definition modularity (c : nat -> nat) : Qc :=
  qsum N (fun u => qsum N (fun v =>
    if (c u =? c v)%nat then A u v - degree u * degree v / total_weight else 0)) / total_weight.

(** The same clustering, but [i] is in the cluster [d]. *)
Definition move (c : nat -> nat) (i d v : nat) : nat := if (v =? i)%nat then d else c v.
(** No vertex can be moved to another cluster, or to a new one, with a gain. *)
Definition locally_best (c : nat -> nat) : Prop :=
  forall i d, (i < N)%nat -> modularity (move c i d) <= modularity c.
End Modularity.

(** The matrix returned: row [v] stores only [true], in column [c v]. *)
Definition assigns (N : nat) (M : lil bool) (c : nat -> nat) : Prop :=
  wfm M /\ nrows M = N /\ ncols M = N /\
  forall v, (v < N)%nat -> (c v < N)%nat /\ forall d, mget M v d = if (d =? c v)%nat then Some true else None.
