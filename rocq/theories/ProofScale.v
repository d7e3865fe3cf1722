(** Multiplying all weights by a positive number, and reversing all edges. *)
From Coq Require Import Lia.
From Verif Require Import Base ModelLil Spec SpecPaths SpecMetrics SpecFlow SpecMst ProofBase ProofFlow ProofMinCut.
Local Open Scope Z_scope.

Section Scale.
Context (c : Z) (Hc : 0 < c).

Section Walks.
Context (w w' : nat -> nat -> option Z) (E : forall u v, w' u v = option_map (Z.mul c) (w u v)).

Lemma scale_walk u v k x : wwalk w u v k x -> wwalk w' u v k (c * x).
Proof.
  induction 1 as [|v t k x g _ IH G]; [rewrite Z.mul_0_r; constructor|].
  replace (c * (x + g)) with (c * x + c * g) by lia. econstructor; [exact IH|]. rewrite E, G. reflexivity.
Qed.
Lemma scale_walk_back u v k y : wwalk w' u v k y -> exists x, y = c * x /\ wwalk w u v k x.
Proof.
  induction 1 as [|v t k y g _ (x & -> & IH) G]; [exists 0; split; [lia|constructor]|].
  rewrite E in G. destruct (w v t) as [h|] eqn:X; [|discriminate]. injection G as <-.
  exists (x + h). split; [lia|]. econstructor; eauto.
Qed.
Lemma scale_no_negative : no_negative_cycle w -> no_negative_cycle w'.
Proof. intros H v k y W. apply scale_walk_back in W. destruct W as (x & -> & W). apply H in W. nia. Qed.
Lemma scale_distance u v x : distance w u v x <-> distance w' u v (c * x).
Proof.
  split.
  - intros ((k & W) & M). split; [exists k; now apply scale_walk|]. intros j y Y. apply scale_walk_back in Y.
    destruct Y as (z & -> & Y). apply M in Y. nia.
  - intros ((k & W) & M). split.
    + exists k. apply scale_walk_back in W. destruct W as (z & Q & W). assert (z = x) by nia. now subst.
    + intros j y Y. apply scale_walk, M in Y. nia.
Qed.
Lemma scale_distance_back u v y : distance w' u v y -> exists x, y = c * x /\ distance w u v x.
Proof.
  intros D. pose proof D as ((k & W) & _). apply scale_walk_back in W. destruct W as (x & -> & _).
  exists x. split; [reflexivity|]. now apply scale_distance.
Qed.

Context (D D' : nat -> option Z) (ED : forall v, D' v = option_map (Z.mul c) (D v)).
Lemma scale_from k v x : walk_from w D k v x -> walk_from w' D' k v (c * x).
Proof.
  intros (u & a & z & A & W & ->). exists u, (c * a), (c * z). rewrite ED, A. split; [reflexivity|].
  split; [now apply scale_walk|lia].
Qed.
Lemma scale_from_back k v y : walk_from w' D' k v y -> exists x, y = c * x /\ walk_from w D k v x.
Proof.
  intros (u & a & z & A & W & ->). rewrite ED in A. destruct (D u) as [b|] eqn:B; [|discriminate]. injection A as <-.
  apply scale_walk_back in W. destruct W as (x & -> & W). exists (b + x). split; [lia|]. exists u, b, x. auto.
Qed.
Lemma scale_negative : negative_cycle w D <-> negative_cycle w' D'.
Proof.
  split.
  - intros (k & v & x & m & z & F & W & L). exists k, v, (c * x), m, (c * z).
    split; [now apply scale_from|]. split; [now apply scale_walk|nia].
  - intros (k & v & x & m & z & F & W & L). apply scale_from_back in F. destruct F as (x0 & -> & F).
    apply scale_walk_back in W. destruct W as (z0 & -> & W). exists k, v, x0, m, z0. split; [auto|]. split; [auto|nia].
Qed.
Lemma scale_shortest v x : shortest w D v x <-> shortest w' D' v (c * x).
Proof.
  split.
  - intros ((k & W) & M). split; [exists k; now apply scale_from|]. intros j y Y. apply scale_from_back in Y.
    destruct Y as (z & -> & Y). apply M in Y. nia.
  - intros ((k & W) & M). split.
    + exists k. apply scale_from_back in W. destruct W as (z & Q & W). assert (z = x) by nia. now subst.
    + intros j y Y. apply scale_from, M in Y. nia.
Qed.
Lemma scale_shortest_back v y : shortest w' D' v y -> exists x, y = c * x /\ shortest w D v x.
Proof.
  intros S. pose proof S as ((k & W) & _). apply scale_from_back in W. destruct W as (x & -> & _).
  exists x. split; [reflexivity|]. now apply scale_shortest.
Qed.

(** Spanning trees. *)
Lemma scale_spanning N es : spanning_tree N w es <-> spanning_tree N w' es.
Proof.
  assert (X : forall a b, w' a b <> None <-> w a b <> None).
  { intros a b. rewrite E. destruct (w a b); simpl; split; congruence. }
  unfold spanning_tree. split; intros (A & B & C); (split; [exact A|]); (split; [|exact C]);
    intros a b I; destruct (B a b I) as (Ha & Hb & Y); apply X in Y; auto.
Qed.
Lemma scale_weight es : tree_weight w' es = c * tree_weight w es.
Proof.
  unfold tree_weight. induction es as [|(a, b) es IH]; simpl; [lia|]. rewrite IH, E. destruct (w a b); simpl; lia.
Qed.
Lemma scale_tree N es es' : minimum_spanning_tree N w es -> minimum_spanning_tree N w' es' ->
  tree_weight w' es' = c * tree_weight w es.
Proof.
  intros (A & M) (A' & M'). apply Z.le_antisymm.
  - rewrite <- scale_weight. apply M'. now apply scale_spanning.
  - rewrite scale_weight. apply Z.mul_le_mono_nonneg_l; [lia|]. apply M. now apply scale_spanning.
Qed.
End Walks.

(** Flows. *)
Lemma scale_cut N cap cap' S : (forall u v, cap' u v = c * cap u v) -> cut_capacity N cap' S = c * cut_capacity N cap S.
Proof.
  intros E. unfold cut_capacity. rewrite <- zsum_scale. apply zsum_ext. intros u _. rewrite <- zsum_scale.
  apply zsum_ext. intros v _. rewrite E. destruct (_ && _)%bool; lia.
Qed.
Lemma scale_flow N cap cap' s t x x' : (s < N)%nat -> (t < N)%nat -> s <> t ->
  (forall u v, cap' u v = c * cap u v) -> is_max_flow N cap s t x -> is_max_flow N cap' s t x' -> x' = c * x.
Proof.
  intros Hs Ht Ne E M M'.
  destruct (max_flow_min_cut N cap s t x Hs Ht Ne M) as ((S & CU & C1) & L1).
  destruct (max_flow_min_cut N cap' s t x' Hs Ht Ne M') as ((S' & CU' & C2) & L2).
  pose proof (L2 S CU) as Y. pose proof (L1 S' CU') as Y'.
  rewrite (scale_cut N cap cap' S' E) in C2. rewrite (scale_cut N cap cap' S E) in Y. rewrite C1 in Y. rewrite <- C2.
  assert (c * x <= c * cut_capacity N cap S') by (apply Z.mul_le_mono_nonneg_l; lia). lia.
Qed.
End Scale.

(** Reversal. *)
Lemma walk_first w a b g : w a b = Some g -> forall u k y, wwalk w b u k y -> wwalk w a u (S k) (g + y).
Proof.
  intros G u k y W. induction W as [|v t k y h _ IH X].
  - replace (g + 0) with (0 + g) by lia. econstructor; [constructor|exact G].
  - replace (g + (y + h)) with (g + y + h) by lia. econstructor; eauto.
Qed.
Lemma reverse_walk w w' u v k x : (forall u v, w' u v = w v u) -> wwalk w u v k x -> wwalk w' v u k x.
Proof.
  intros E H. induction H as [|v t k x g _ IH G]; [constructor|].
  rewrite Z.add_comm. apply (walk_first w' t v); [now rewrite E|exact IH].
Qed.
Lemma reverse_distance w w' u v x : (forall u v, w' u v = w v u) -> distance w u v x -> distance w' v u x.
Proof.
  intros E ((k & W) & M). split; [exists k; now apply (reverse_walk w w')|].
  intros j y Y. apply (M j). now apply (reverse_walk w' w).
Qed.
Lemma reverse_flow_le N cap cap' s t x x' : (s < N)%nat -> (t < N)%nat -> s <> t ->
  (forall u v, cap' u v = cap v u) -> is_max_flow N cap s t x -> is_max_flow N cap' t s x' -> x <= x'.
Proof.
  intros Hs Ht Ne E M M'.
  destruct (max_flow_min_cut N cap' t s x' Ht Hs ltac:(auto) M') as ((S & (C1 & C2) & Q) & _).
  destruct (max_flow_min_cut N cap s t x Hs Ht Ne M) as (_ & L).
  specialize (L (fun v => negb (S v))). rewrite <- Q.
  replace (cut_capacity N cap' S) with (cut_capacity N cap (fun v => negb (S v))).
  - apply L. split; [now rewrite C2|now rewrite C1].
  - unfold cut_capacity. rewrite zsum_swap. apply zsum_ext. intros u _. apply zsum_ext. intros v _.
    rewrite E. destruct (S u), (S v); reflexivity.
Qed.
