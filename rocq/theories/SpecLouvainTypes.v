(** Clusterings that are almost local optima of the modularity. *)
From Coq Require Import QArith Qcanon.
From Verif Require Import Base SpecRank SpecLouvain.

(** No vertex can be moved to another cluster, or to a new one, with a gain of more than [eps]. *)
Definition nearly_best (N : nat) (A : nat -> nat -> Qc) (eps : Qc) (c : nat -> nat) : Prop :=
  forall i d, (i < N)%nat -> (modularity N A (move c i d) <= modularity N A c + eps)%Qc.
