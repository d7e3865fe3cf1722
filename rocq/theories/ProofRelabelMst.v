(** What a renumbering of the vertices does to spanning trees. *)
From Coq Require Import Lia.
From Verif Require Import Base ModelLil ModelVec ModelBfs Spec SpecGraph SpecMst SpecRelabel
  ProofBase ProofLil ProofViews ProofVis ProofVec ProofGraph ProofAgree ProofRelabel PropBfs.
Local Open Scope nat_scope.

Definition move_edges (p : nat -> nat) (es : list (nat * nat)) : list (nat * nat) :=
  map (fun e => (p (fst e), p (snd e))) es.

Lemma move_in p es a b : In (a, b) es -> In (p a, p b) (move_edges p es).
Proof. intros H. apply (in_map (fun e => (p (fst e), p (snd e)))) in H. exact H. Qed.
Lemma move_joined p es u v : joined es u v -> joined (move_edges p es) (p u) (p v).
Proof.
  induction 1 as [|a b _ IH [H|H]]; [constructor| |].
  - eapply joined_step; [exact IH|]. left. now apply move_in.
  - eapply joined_step; [exact IH|]. right. now apply move_in.
Qed.

Section Moved.
Context (N : nat) (p q : nat -> nat) (G G' : lil Z) (RN : renumbered N p q G G').

Lemma move_spanning es :
  spanning_tree N (mget G) es -> spanning_tree N (mget G') (move_edges p es).
Proof.
  intros (L & E & J). assert (R : renumbering N p q) by apply RN.
  split; [unfold move_edges; now rewrite map_length|]. split.
  - intros a b H. apply in_map_iff in H. destruct H as ((c & d) & Q & H). simpl in Q. inversion Q; subst.
    destruct (E c d H) as (Hc & Hd & X). split; [now apply (p_lt N p q R)|]. split; [now apply (p_lt N p q R)|].
    destruct RN as (_ & _ & _ & _ & _ & _ & _ & Q1). now rewrite Q1.
  - intros u v Hu Hv. rewrite <- (pq N p q R u Hu), <- (pq N p q R v Hv).
    apply move_joined, J; now apply (q_lt N p q R).
Qed.
Lemma move_weight es :
  (forall a b, In (a, b) es -> a < N /\ b < N) ->
  tree_weight (mget G') (move_edges p es) = tree_weight (mget G) es.
Proof.
  intros H. unfold tree_weight, move_edges. rewrite map_map. f_equal. apply map_ext_in. intros (a, b) I.
  destruct (H a b I) as (Ha & Hb). simpl. destruct RN as (_ & _ & _ & _ & _ & _ & _ & Q1). now rewrite Q1.
Qed.
Lemma move_symmetric : (forall i j, mget G i j = mget G j i) -> forall i j, mget G' i j = mget G' j i.
Proof.
  intros S i j. assert (R : renumbering N p q) by apply RN.
  destruct RN as (_ & _ & _ & _ & W & A & B & Q1).
  destruct (Nat.lt_ge_cases i N) as [Hi|Hi], (Nat.lt_ge_cases j N) as [Hj|Hj].
  2, 3, 4: rewrite !mget_oob by (auto; lia); reflexivity.
  rewrite <- (pq N p q R i Hi), <- (pq N p q R j Hj).
  rewrite !Q1 by (now apply (q_lt N p q R)). apply S.
Qed.
(** The lightest spanning trees of the two graphs weigh the same. *)
Lemma move_minimum es es' :
  minimum_spanning_tree N (mget G) es -> minimum_spanning_tree N (mget G') es' ->
  (tree_weight (mget G') es' <= tree_weight (mget G) es)%Z.
Proof.
  intros (S & _) (_ & M). rewrite <- move_weight.
  - apply M, move_spanning, S.
  - intros a b I. destruct S as (_ & S & _). destruct (S a b I) as (X & Y & _). auto.
Qed.

End Moved.

Lemma reach_trans e a b c :
  reachable e (eq a) b -> reachable e (eq b) c -> reachable e (eq a) c.
Proof.
  intros (j & W) (k & X). exists (k + j). revert c X. induction k as [|k IH]; simpl; intros c; [now intros <-|].
  intros (u & X & E). exists u. auto.
Qed.
Lemma reach_back e a b :
  (forall u v, e u v = e v u) -> reachable e (eq a) b -> reachable e (eq b) a.
Proof.
  intros S (k & W). revert b W. induction k as [|k IH]; simpl; intros b; [intros <-; now exists 0|].
  intros (u & W & E). apply (reach_trans e b u a); [|now apply IH].
  exists 1, b. split; [reflexivity|]. now rewrite S.
Qed.
Lemma reach_eq e s v : reachable e (fun u => u = s) v <-> reachable e (eq s) v.
Proof.
  assert (H : forall (R R' : nat -> Prop), (forall u, R u -> R' u) -> forall k u, walks e R k u -> walks e R' k u).
  { intros R R' I. induction k as [|k IH]; simpl; intros u; [apply I|]. intros (x & W & E). exists x. auto. }
  split; intros (k & W); exists k; revert W; apply H; congruence.
Qed.
Lemma not_at_distance e (R : nat -> Prop) v :
  (forall d, ~ at_distance e R d v) -> ~ reachable e R v.
Proof.
  intros H (k & W). revert W. induction k as [k IH] using lt_wf_ind. intros W.
  apply (H k). split; [exact W|]. intros j Hj X. now apply (IH j).
Qed.
(** The search decides which vertices can be reached. *)
Lemma reachable_decided (G : lil Z) N s v :
  wfm G -> nrows G = N -> ncols G = N -> s < N -> v < N ->
  reachable (edge G) (eq s) v \/ ~ reachable (edge G) (eq s) v.
Proof.
  intros W A B Hs Hv.
  destruct (vec_new_ok 0 N ltac:(lia)) as (w & _ & Ww & Sw & Ew).
  destruct (C41_bfs_level Z (fun _ => true) G N (S N) s w) as (r & _ & _ & _ & P); auto.
  destruct (vget r v) as [x|] eqn:E.
  - left. apply P in E; auto. destruct E as (d & _ & (X & _)). now exists d.
  - right. apply not_at_distance. intros d D.
    assert (X : vget r v = Some (S d)) by (apply P; eauto). congruence.
Qed.

Section Connected.
Context (N : nat) (p q : nat -> nat) (G G' : lil Z) (RN : renumbered N p q G G').
Context (S : forall i j, mget G i j = mget G j i).

Lemma edge_symmetric : forall u v, edge G u v = edge G v u.
Proof. intros. unfold edge. now rewrite S. Qed.
Lemma move_reachable s v : s < N -> v < N ->
  (reachable (edge G) (eq s) v <-> reachable (edge G') (eq (p s)) (p v)).
Proof.
  intros Hs Hv. split; intros (k & W); exists k; revert W; now apply (ren_walks N p q G G' RN).
Qed.
Lemma move_connected : N <> 0 ->
  (forall v, v < N -> reachable (edge G) (fun u => u = 0) v) ->
  forall v, v < N -> reachable (edge G') (fun u => u = 0) v.
Proof.
  intros Z C v Hv. assert (R : renumbering N p q) by apply RN.
  assert (H0 : 0 < N) by lia. pose proof (q_lt N p q R 0 H0) as Q0. pose proof (q_lt N p q R v Hv) as Qv.
  apply reach_eq.
  enough (X : reachable (edge G) (eq (q 0)) (q v)).
  { apply move_reachable in X; auto. now rewrite !(pq N p q R) in X by auto. }
  apply reach_trans with (b := 0); [apply reach_back; [exact edge_symmetric|]|]; apply reach_eq; auto.
Qed.
Lemma move_disconnected v : v < N -> ~ reachable (edge G) (fun u => u = 0) v ->
  exists v', v' < N /\ ~ reachable (edge G') (fun u => u = 0) v'.
Proof.
  intros Hv C. assert (R : renumbering N p q) by apply RN.
  assert (H0 : 0 < N) by lia. pose proof (p_lt N p q R 0 H0) as P0. pose proof (p_lt N p q R v Hv) as Pv.
  destruct RN as (_ & _ & _ & _ & W' & A' & B' & _).
  destruct (reachable_decided G' N 0 (p 0) W' A' B' H0 P0) as [D|D].
  - exists (p v). split; [exact Pv|]. intros X. apply C. apply reach_eq. apply move_reachable; auto.
    apply reach_trans with (b := 0); [|now apply reach_eq].
    apply reach_back; [|exact D]. intros a b. unfold edge. now rewrite (move_symmetric N p q G G' RN S a b).
  - exists (p 0). split; [exact P0|]. intros X. apply D. now apply reach_eq.
Qed.
End Connected.
