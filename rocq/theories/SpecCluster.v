(** Clustering, independently of the model. *)
From Coq Require Import QArith Qcanon.
From Verif Require Import Base ModelLil Spec SpecRank.
Local Open Scope nat_scope.

(** ** Peer pressure *)

(** [m i v]: vertex [v] belongs to cluster [i]. *)
Definition member (C : lil bool) (i v : nat) : bool := match mget C i v with Some b => b | None => false end.
(** A cluster matrix stores no [false]. *)
Definition clustering (N : nat) (C : lil bool) : Prop :=
  wfm C /\ nrows C = N /\ ncols C = N /\ forall i v, mget C i v <> Some false.
(** The votes of the members of cluster [i] for vertex [v]; [w u v] is the weight of the vote of
    [u] for [v], 0 when there is none. *)
Definition votes (N : nat) (w : nat -> nat -> Qc) (m : nat -> nat -> bool) (i v : nat) : Qc :=
  qsum N (fun u => if m i u then w u v else 0%Qc).
(** Cluster [i] wins [v]: it has the most votes; ties are won by the greatest cluster number. *)
Definition wins (N : nat) (w : nat -> nat -> Qc) (m : nat -> nat -> bool) (i v : nat) : Prop :=
  (0 < votes N w m i v)%Qc /\
  forall i', i' < N -> (votes N w m i' v < votes N w m i v)%Qc \/ (votes N w m i' v = votes N w m i v /\ i' <= i).
(** One round of voting, and [k] rounds. *)
Definition round (N : nat) (w : nat -> nat -> Qc) (m m' : nat -> nat -> bool) : Prop :=
  forall i v, i < N -> v < N -> (m' i v = true <-> wins N w m i v).
Fixpoint rounds (N : nat) (w : nat -> nat -> Qc) (k : nat) (m m' : nat -> nat -> bool) : Prop :=
  match k with
  | O => forall i v, i < N -> v < N -> m' i v = m i v
  | S j => exists m1, round N w m m1 /\ rounds N w j m1 m'
  end.

(** The weights divided by their sum over all edges that leave the vertex. *)
Definition share (N : nat) (w : nat -> nat -> Qc) (u v : nat) : Qc := (w u v / qsum N (w u))%Qc.

(** ** Markov clustering *)

Section Markov.
Context (N : nat).
(** The columns divided by their sums. *)
Definition normal (A : nat -> nat -> Qc) (i j : nat) : Qc := (A i j / qsum N (fun k => A k j))%Qc.
(** One product of the expansion: only the elements of [B] that are not 0 get a new value. *)
Definition expand1 (A B : nat -> nat -> Qc) (i j : nat) : Qc :=
  if Qc_eq_dec (B i j) 0 then 0%Qc else qsum N (fun k => B i k * A k j)%Qc.
Fixpoint expand (n : nat) (A B : nat -> nat -> Qc) : nat -> nat -> Qc :=
  match n with O => B | S n' => expand n' A (expand1 A B) end.
(** One iteration: expansion, inflation, normalisation. *)
Definition mcl_step (e r : nat) (A : nat -> nat -> Qc) : nat -> nat -> Qc :=
  normal (fun i j => expand (e - 1) A A i j ^ r)%Qc.
Fixpoint mcl (e r k : nat) (A : nat -> nat -> Qc) : nat -> nat -> Qc :=
  match k with O => A | S j => mcl e r j (mcl_step e r A) end.
(** The mean squared difference of two matrices. *)
Definition mean_diff (A B : nat -> nat -> Qc) : Qc :=
  (qsum N (fun i => qsum N (fun j => (A i j - B i j) * (A i j - B i j))) / (nat_q N * nat_q N))%Qc.
(** The matrix product. *)
Definition mat_mul (A B : nat -> nat -> Qc) (i j : nat) : Qc := qsum N (fun k => A i k * B k j)%Qc.
End Markov.
