(** Page rank, independently of the model. *)
From Coq Require Import QArith Qcanon.
From Verif Require Import Base ModelLil Spec.
Local Open Scope nat_scope.
Local Open Scope Qc_scope.

Definition nat_q (n : nat) : Qc := Q2Qc (Z.of_nat n # 1).
Fixpoint qsum (N : nat) (f : nat -> Qc) : Qc :=
  match N with O => 0 | S n => qsum n f + f n end.

(** The weight of the edge from [u] to [v]; 0 when there is none. *)
Definition weight {T} (tr : T -> Qc) (G : lil T) (u v : nat) : Qc :=
  match mget G u v with Some g => tr g | None => 0 end.

(** One step of the random surfer: follow an edge with probability [d], chosen according to the
    weights, or jump to any vertex. *)
Definition rank_step (N : nat) (A : nat -> nat -> Qc) (d : Qc) (r : nat -> Qc) (v : nat) : Qc :=
  (1 - d) / nat_q N + d * qsum N (fun u => r u * (A u v / qsum N (A u))).
Fixpoint rank_iter (N : nat) (A : nat -> nat -> Qc) (d : Qc) (k : nat) : nat -> Qc :=
  match k with
  | O => fun _ => 1 / nat_q N
  | S j => rank_step N A d (rank_iter N A d j)
  end.

(** The mean squared change. *)
Definition mean_square (N : nat) (r s : nat -> Qc) : Qc :=
  qsum N (fun v => (r v - s v) * (r v - s v)) / nat_q N.
