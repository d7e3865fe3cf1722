(** How the modularity changes when a vertex moves. *)
From Coq Require Import QArith Qcanon.
From Coq Require Import Lia Lqa.
From Verif Require Import Base ModelLil Spec SpecRank ProofRank SpecLouvain.
Local Open Scope nat_scope.
Local Open Scope Qc_scope.

(** As [qlra], for nested terms. *)
Ltac qlin := qc_q; repeat progress rewrite ?minus_q, ?plus_q, ?mult_q, ?opp_q, ?zero_q, ?one_q in *; lra.

Lemma qsum_split N f i : (i < N)%nat -> qsum N f = f i + qsum N (fun u => if (u =? i)%nat then 0 else f u).
Proof.
  induction N as [|N IH]; intro H; [lia|]. cbn [qsum]. destruct (Nat.eq_dec i N) as [->|Ne].
  - rewrite Nat.eqb_refl. rewrite (qsum_ext N (fun u => if (u =? N)%nat then 0 else f u) f).
    + ring.
    + intros j Hj. destruct (Nat.eqb_spec j N); [lia|auto].
  - rewrite IH by lia. destruct (Nat.eqb_spec N i); [lia|]. ring.
Qed.
Lemma qsum_pos_exists N f : 0 < qsum N f -> exists i, (i < N)%nat /\ 0 < f i.
Proof.
  induction N as [|N IH]; cbn [qsum]; intro H; [qlra|].
  destruct (Qclt_le_dec 0 (f N)) as [P|L]; [exists N; split; [lia|auto]|].
  destruct IH as (i & Hi & P); [qlra|]. exists i. split; [lia|auto].
Qed.
Lemma qsum_pick N (x : Qc) e : (e < N)%nat -> qsum N (fun d => if (e =? d)%nat then x else 0) = x.
Proof.
  intro H. rewrite (qsum_split N _ e) by auto. rewrite Nat.eqb_refl, qsum_zero; [ring|].
  intros i _. rewrite (Nat.eqb_sym e i). destruct (i =? e)%nat; auto.
Qed.

Section Modularity.
Context (N : nat) (A : nat -> nat -> Qc).
Hypothesis sym : forall u v, A u v = A v u.
Hypothesis loopless : forall v, A v v = 0.
Hypothesis nonneg : forall u v, 0 <= A u v.

Definition excess (u v : nat) : Qc := A u v - degree N A u * degree N A v / total_weight N A.
Definition raw (c : nat -> nat) : Qc :=
  qsum N (fun u => qsum N (fun v => if (c u =? c v)%nat then excess u v else 0)).
Definition gain (c : nat -> nat) (i d : nat) : Qc :=
  qsum N (fun j => if negb (j =? i)%nat && (c j =? d)%nat then excess i j + excess i j else 0).

Lemma excess_sym u v : excess u v = excess v u.
Proof. unfold excess. rewrite sym. unfold Qcdiv. ring. Qed.
Lemma degree_nonneg v : 0 <= degree N A v.
Proof. apply qsum_nonneg. auto. Qed.
Lemma total_nonneg : 0 <= total_weight N A.
Proof. apply qsum_nonneg. intros. apply degree_nonneg. Qed.
Lemma degree_zero v u : (v < N)%nat -> (u < N)%nat -> degree N A v = 0 -> A v u = 0.
Proof.
  intros Hv Hu D. destruct (Qclt_le_dec 0 (A v u)) as [P|L].
  - assert (0 < degree N A v) by (apply (qsum_pos N (A v) u); auto). rewrite D in H. qlra.
  - pose proof (nonneg v u). qlra.
Qed.
Lemma total_pos v : (v < N)%nat -> 0 < degree N A v -> 0 < total_weight N A.
Proof. intros. apply (qsum_pos N _ v); auto. intros. apply degree_nonneg. Qed.

Definition rest (c : nat -> nat) (i : nat) : Qc :=
  qsum N (fun u => if (u =? i)%nat then 0 else
    qsum N (fun v => if (v =? i)%nat then 0 else if (c u =? c v)%nat then excess u v else 0)).
Lemma raw_split c i : (i < N)%nat -> raw c = excess i i + gain c i (c i) + rest c i.
Proof.
  intro H. unfold raw. rewrite (qsum_split N _ i) by auto. cbv beta.
  rewrite (qsum_split N (fun v => if (c i =? c v)%nat then excess i v else 0) i) by auto. rewrite Nat.eqb_refl.
  rewrite (qsum_ext N (fun u => if (u =? i)%nat then 0 else qsum N (fun v => if (c u =? c v)%nat then excess u v else 0))
    (fun u => (if (u =? i)%nat then 0 else if (c u =? c i)%nat then excess u i else 0) +
      (if (u =? i)%nat then 0 else qsum N (fun v => if (v =? i)%nat then 0 else if (c u =? c v)%nat then excess u v else 0)))).
  - rewrite qsum_add. fold (rest c i).
    unfold gain. rewrite (qsum_ext N (fun j => if negb (j =? i)%nat && (c j =? c i)%nat then excess i j + excess i j else 0)
      (fun j => (if (j =? i)%nat then 0 else if (c i =? c j)%nat then excess i j else 0) +
                (if (j =? i)%nat then 0 else if (c j =? c i)%nat then excess j i else 0))).
    + rewrite qsum_add. ring.
    + intros j _. rewrite (Nat.eqb_sym (c i) (c j)), (excess_sym j i). destruct (j =? i)%nat, (c j =? c i)%nat; cbn [negb andb]; ring.
  - intros u Hu. destruct (u =? i)%nat; [ring|]. rewrite (qsum_split N _ i) by auto. reflexivity.
Qed.
Lemma raw_ext c c' : (forall v, (v < N)%nat -> c v = c' v) -> raw c = raw c'.
Proof. intro H. apply qsum_ext. intros. apply qsum_ext. intros. rewrite !H by auto. reflexivity. Qed.
Lemma gain_ext c c' i d : (forall v, (v < N)%nat -> v <> i -> c v = c' v) -> gain c i d = gain c' i d.
Proof. intro H. apply qsum_ext. intros j Hj. destruct (Nat.eqb_spec j i); [auto|]. rewrite H by auto. reflexivity. Qed.
Lemma raw_move c i d : (i < N)%nat -> raw (move c i d) = raw c + (gain c i d - gain c i (c i)).
Proof.
  intro H. rewrite (raw_split (move c i d) i), (raw_split c i) by auto.
  replace (move c i d i) with d by (unfold move; rewrite Nat.eqb_refl; auto).
  rewrite (gain_ext (move c i d) c).
  2:{ intros v _ Hv. unfold move. destruct (Nat.eqb_spec v i); [contradiction|auto]. }
  replace (rest (move c i d) i) with (rest c i); [ring|]. unfold rest. apply qsum_ext. intros u _.
  destruct (Nat.eqb_spec u i) as [|Hu]; auto. apply qsum_ext. intros v _. destruct (Nat.eqb_spec v i) as [|Hv]; auto.
  unfold move. destruct (Nat.eqb_spec u i); [contradiction|]. destruct (Nat.eqb_spec v i); [contradiction|]. reflexivity.
Qed.
Lemma modularity_raw c : modularity N A c = raw c / total_weight N A.
Proof. reflexivity. Qed.
Lemma modularity_le c c' : raw c <= raw c' -> modularity N A c <= modularity N A c'.
Proof.
  intro H. rewrite !modularity_raw. unfold Qcdiv. apply Qc_mult_le; auto. pose proof total_nonneg as T.
  destruct (Qclt_le_dec 0 (total_weight N A)) as [P|L].
  - apply Qclt_le_weak. apply Qc_inv_pos. auto.
  - replace (total_weight N A) with 0 by qlra. discriminate.
Qed.

(** The excesses of a vertex add up to nothing. *)
Lemma excess_sum i : (i < N)%nat -> qsum N (excess i) = 0.
Proof.
  intro H. unfold excess. rewrite qsum_sub. fold (degree N A i).
  rewrite (qsum_ext N _ (fun j => (degree N A i / total_weight N A) * degree N A j)) by (intros; unfold Qcdiv; ring).
  rewrite qsum_scale. fold (total_weight N A). destruct (Qc_eq_dec (total_weight N A) 0) as [E|NE].
  - rewrite E. assert (D : degree N A i = 0).
    { destruct (Qclt_le_dec 0 (degree N A i)) as [P|L]; [|pose proof (degree_nonneg i); qlra].
      pose proof (total_pos i H P). rewrite E in *. qlra. }
    rewrite D. unfold Qcdiv. ring.
  - field. auto.
Qed.
Lemma gain_sum c i : (i < N)%nat -> (forall j, (j < N)%nat -> (c j < N)%nat) ->
  qsum N (gain c i) = (degree N A i * degree N A i / total_weight N A) + (degree N A i * degree N A i / total_weight N A).
Proof.
  intros H C. unfold gain. rewrite qsum_swap.
  rewrite (qsum_ext N _ (fun j => if (j =? i)%nat then 0 else excess i j + excess i j)).
  - pose proof (excess_sum i H) as E. rewrite (qsum_split N _ i) in E by auto.
    rewrite (qsum_ext N _ (fun j => (if (j =? i)%nat then 0 else excess i j) + (if (j =? i)%nat then 0 else excess i j)))
      by (intros j _; destruct (j =? i)%nat; ring).
    rewrite qsum_add. set (r := qsum N (fun u => if (u =? i)%nat then 0 else excess i u)) in *.
    unfold excess in E. rewrite loopless in E.
    assert (X : forall x y : Qc, 0 - x + y = 0 -> y = x) by (intros x y Q; replace y with ((0 - x + y) + x) by ring; rewrite Q; ring). rewrite (X _ _ E). reflexivity.
  - intros j Hj. destruct (j =? i)%nat; cbn [negb andb]; [apply qsum_zero; auto|]. apply qsum_pick. auto.
Qed.
(** So one of the clusters of the others attracts it. *)
Lemma gain_some c i : (i < N)%nat -> (forall j, (j < N)%nat -> (c j < N)%nat) -> 0 < degree N A i ->
  exists d, (d < N)%nat /\ 0 < gain c i d.
Proof.
  intros H C D. apply qsum_pos_exists. rewrite gain_sum by auto.
  assert (P : 0 < degree N A i * degree N A i / total_weight N A).
  { apply Qc_mult_pos; [apply Qc_mult_pos; auto|]. apply Qc_inv_pos, (total_pos i); auto. }
  generalize dependent (degree N A i * degree N A i / total_weight N A). intros. qlra.
Qed.
Lemma gain_isolated c i d : (i < N)%nat -> degree N A i = 0 -> gain c i d = 0.
Proof.
  intros H D. apply qsum_zero. intros j Hj. destruct (negb (j =? i)%nat && (c j =? d)%nat); auto.
  unfold excess. rewrite (degree_zero i j), D by auto. unfold Qcdiv. ring.
Qed.
(** A cluster without neighbours does not attract it. *)
Lemma gain_far c i d : (i < N)%nat -> (forall j, (j < N)%nat -> j <> i -> c j = d -> A i j = 0) -> gain c i d <= 0.
Proof.
  intros H F. rewrite <- (qsum_zero N (fun _ => 0)) by auto. apply qsum_le. intros j Hj.
  destruct (Nat.eqb_spec j i) as [|NE]; cbn [negb andb]; [apply Qcle_refl|]. destruct (Nat.eqb_spec (c j) d) as [E|]; [|apply Qcle_refl].
  unfold excess. rewrite F by auto.
  assert (P : 0 <= degree N A i * degree N A j / total_weight N A).
  { apply Qc_mult_nonneg; [apply Qc_mult_nonneg; apply degree_nonneg|]. pose proof total_nonneg as T.
    destruct (Qclt_le_dec 0 (total_weight N A)) as [P|L]; [apply Qclt_le_weak, Qc_inv_pos; auto|].
    replace (total_weight N A) with 0 by qlra. discriminate. }
  generalize dependent (degree N A i * degree N A j / total_weight N A). intros. qlin.
Qed.
End Modularity.
