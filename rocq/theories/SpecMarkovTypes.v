(** How many roundings can have been made in an element of Markov clustering. *)
From Coq Require Import QArith Qcanon.
From Verif Require Import Base SpecCluster.

(** One iteration with the powers [e] and [r] on a matrix of [N] columns, whose elements carry [K] roundings:
    [e - 1] products with [N] terms each, [r - 1] products of elements, and the division by the sum of a column. *)
Definition mcl_grow (N e r K : nat) : nat := 2 * (r * (e * (K + N + 1) + 1)) + N + 2.
Fixpoint mcl_after (N e r k K : nat) : nat := match k with O => K | S j => mcl_after N e r j (mcl_grow N e r K) end.
(** The division by the sums before the first iteration makes [N + 2] roundings. *)
Definition mcl_roundings (N e r k : nat) : nat := mcl_after N e r k (N + 2).

(** No underflow: in the first [n] iterations the numbers of the exact computation up to the powers are 0 or at least 2^-l. *)
Definition mcl_range (N e r n : nat) (l : Z) (A : nat -> nat -> Qc) : Prop :=
  forall k m i j, (k < n)%nat -> (m < e)%nat -> (i < N)%nat -> (j < N)%nat ->
    let x := expand N m (mcl N e r k A) (mcl N e r k A) i j in x = 0%Qc \/ (2 ^ (- l) <= this x)%Q.
