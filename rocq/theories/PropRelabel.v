(** Property C164: the numbering of the vertices does not matter. *)
From Coq Require Import Lia QArith Qcanon.
From Verif Require Import Base ModelLil ModelVec ModelViews ModelIndex ModelAlgoBase ModelBfs ModelSssp ModelMetrics
  ModelTriangle ModelTruss ModelPush ModelRank ModelBc
  Spec SpecOps SpecRank SpecBc SpecGraph SpecPaths SpecMetrics SpecTriangle SpecTruss SpecFlow SpecRelabel
  ProofLil ProofVec ProofViews ProofVis ProofGraph ProofPaths ProofAgree ProofRelabel
  PropBfs PropSssp PropMetrics PropTriangle PropTruss PropPush PropBc.
Local Open Scope nat_scope.

(** Each theorem runs a function on a graph and on the same graph with the vertices renumbered by
    [p]: the answers are the same, up to the renumbering. *)

Theorem C164_bfs_level :
  forall (T : Type) (tb : T -> bool) (p q : nat -> nat) (G G' : lil T) (N n s : nat) (levels levels' : bvec nat),
    renumbered N p q G G' ->
    (forall u v g, mget G u v = Some g -> tb g = true) ->
    wfv levels -> vsize levels = N -> (forall v, vget levels v = None) ->
    wfv levels' -> vsize levels' = N -> (forall v, vget levels' v = None) ->
    s < N -> N < n ->
    exists l l', bfs_level tb n G s levels = Ok (Some l) /\ bfs_level tb n G' (p s) levels' = Ok (Some l') /\
      forall v, v < N -> vget l' (p v) = vget l v.
Proof.
  intros T tb p q G G' N n s levels levels' RN TB WL SL EL WL' SL' EL' Hs Hn.
  assert (R : renumbering N p q) by apply RN.
  destruct (C41_bfs_level T tb G N n s levels) as (l & R1 & _ & _ & P1); auto; try apply RN.
  destruct (C41_bfs_level T tb G' N n (p s) levels') as (l' & R2 & _ & _ & P2); auto; try apply RN; auto.
  { intros u v g E. eapply TB. eapply ren_get; [apply renumbered_sym; exact RN|exact E]. }
  exists l, l'. repeat split; auto. intros v Hv. pose proof (p_lt N p q R v Hv).
  apply (same_option _ _ (fun x => exists d, x = S d /\ at_distance (edge G) (eq s) d v)); intro x; auto.
  rewrite P2 by auto. split; intros (d & -> & A); exists d; (split; [reflexivity|]); revert A; now apply (ren_at_distance N p q G G' RN).
Qed.
Print Assumptions C164_bfs_level.

(** The flag and, if it is set, the distances.  The initial distances are renumbered too. *)
Theorem C164_sssp :
  forall (p q : nat -> nat) (G G' : lil Z) (dist dist' : bvec Z) (N : nat),
    renumbered N p q G G' -> N <> 0 ->
    wfv dist -> vsize dist = N -> wfv dist' -> vsize dist' = N ->
    (forall v, v < N -> vget dist' (p v) = vget dist v) ->
    exists b d d', sssp G dist = Ok (b, d) /\ sssp G' dist' = Ok (b, d') /\
      (b = true -> forall v, v < N -> vget d' (p v) = vget d v).
Proof.
  intros p q G G' dist dist' N RN N0 WD SD WD' SD' E.
  assert (R : renumbering N p q) by apply RN.
  destruct (C43_sssp G dist N) as (b & d & R1 & _ & _ & T1 & F1 & P1); auto; try apply RN.
  destruct (C43_sssp G' dist' N) as (b' & d' & R2 & _ & _ & T2 & F2 & P2); auto; try apply RN.
  assert (I : forall (w : bvec Z), wfv w -> vsize w = N -> forall u, (N <= u)%nat -> vget w u = None)
    by (intros w Ww Sw u Hu; apply vget_oob; [apply Ww|lia]).
  assert (E' : forall v, v < N -> vget dist (q v) = vget dist' v).
  { intros v Hv. rewrite <- E by (eapply q_lt; eauto). f_equal. eapply pq; eauto. }
  assert (b' = b) as ->.
  { destruct b, b'; auto; exfalso.
    - apply (proj1 T1); auto. apply (ren_neg1 N q p G' G (renumbered_sym _ _ _ _ _ RN) (vget dist')); auto. now apply F2.
    - apply (proj1 T2); auto. apply (ren_neg1 N p q G G' RN (vget dist)); auto. now apply F1. }
  exists b, d, d'. repeat split; auto. intros B v Hv.
  apply (same_option _ _ (shortest (mget G) (vget dist) v)); intro x; [|apply P1; auto].
  rewrite P2 by auto. symmetry. apply (ren_shortest N p q G G' RN); auto.
Qed.
Print Assumptions C164_sssp.

Theorem C164_apsp :
  forall (p q : nat -> nat) (G G' : lil Z) (N : nat),
    renumbered N p q G G' -> no_negative_cycle (mget G) ->
    exists D D', apsp G = Ok D /\ apsp G' = Ok D' /\
      forall u v, u < N -> v < N -> u <> v -> mget D' (p u) (p v) = mget D u v.
Proof.
  intros p q G G' N RN NC. assert (R : renumbering N p q) by apply RN.
  destruct (C45_apsp G N) as (D & R1 & _ & _ & _ & P1 & _); auto; try apply RN.
  destruct (C45_apsp G' N) as (D' & R2 & _ & _ & _ & P2 & _); try apply RN.
  { intros v m c W. destruct (Nat.lt_ge_cases v N) as [Hv|Hv].
    - apply (ren_wwalk1 N q p G' G (renumbered_sym _ _ _ _ _ RN)) in W; auto. eapply NC, W.
    - destruct m; inversion W; subst; [lia|].
      match goal with H : mget G' _ _ = Some _ |- _ => apply (ren_inside N q p G' G (renumbered_sym _ _ _ _ _ RN)) in H end. lia. }
  exists D, D'. repeat split; auto. intros u v Hu Hv Ne.
  apply (same_option _ _ (distance (mget G) u v)); intro x; auto.
  rewrite P2 by (intro A; apply Ne; eapply p_inj; eauto). symmetry. apply (ren_distance N p q G G' RN); auto.
Qed.
Print Assumptions C164_apsp.

Theorem C164_triangle_count :
  forall (p q : nat -> nat) (G G' : lil Z) (N : nat),
    renumbered N p q G G' -> simple_graph N G -> simple_graph N G' ->
    exists t, triangle_count G = Ok t /\ triangle_count G' = Ok t.
Proof.
  intros p q G G' N RN SG SG'. assert (R : renumbering N p q) by apply RN.
  exists (Z.of_nat (triangles N (edge G))). split; [now apply C46_triangle_count|].
  rewrite (C46_triangle_count N G' SG'). f_equal. f_equal.
  assert (Y : forall H : lil Z, simple_graph N H -> forall u v, edge H u v = edge H v u).
  { intros H (_ & _ & _ & _ & S & _) u v. unfold edge. rewrite S. reflexivity. }
  apply Nat.le_antisymm.
  - apply (tri_le N q p); auto; [now apply renumbering_sym|]. intros u v Hu Hv.
    apply (ren_edge N q p G' G (renumbered_sym _ _ _ _ _ RN)); auto.
  - apply (tri_le N p q); auto. intros u v Hu Hv. apply (ren_edge N p q G G' RN); auto.
Qed.
Print Assumptions C164_triangle_count.

Theorem C164_k_truss2 :
  forall (p q : nat -> nat) (G G' : lil Z) (N k n : nat),
    renumbered N p q G G' -> simple_graph N G -> simple_graph N G' -> 3 <= k ->
    (nvals G < Z.of_nat n)%Z -> (nvals G' < Z.of_nat n)%Z ->
    exists H H', k_truss2 n G k = Ok (Some H) /\ k_truss2 n G' k = Ok (Some H') /\
      forall u v, u < N -> v < N -> edge H' (p u) (p v) = edge H u v.
Proof.
  intros p q G G' N k n RN SG SG' K NV NV'. assert (R : renumbering N p q) by apply RN.
  destruct (C54_k_truss2 N k n G) as (H & R1 & _ & L1); auto.
  destruct (C54_k_truss2 N k n G') as (H' & R2 & _ & L2); auto.
  exists H, H'. repeat split; auto. intros u v Hu Hv.
  pose proof (ren_largest N p q G G' _ _ _ RN L1 L2 u v Hu Hv) as A.
  pose proof (ren_largest N q p G' G _ _ _ (renumbered_sym _ _ _ _ _ RN) L2 L1 (p u) (p v)
    (p_lt N p q R u Hu) (p_lt N p q R v Hv)) as B.
  rewrite !(qp N p q R) in B by auto.
  destruct (edge H u v), (edge H' (p u) (p v)); auto; symmetry; auto.
Qed.
Print Assumptions C164_k_truss2.

Theorem C164_max_flow :
  forall (p q : nat -> nat) (inf : Z) (G G' : lil Z) (N n source sink : nat),
    renumbered N p q G G' -> (Z.of_nat N < 2 ^ 64)%Z -> source < N -> sink < N -> source <> sink ->
    (forall i j c, mget G i j = Some c -> (0 <= c)%Z) ->
    (2 * Z.of_nat N <= inf)%Z -> (zsum N (fun v => capacity G source v) <= inf)%Z ->
    4 * (N + 1) * (N + 1) * (N + 1) <= n ->
    exists x, maxflow_push_relabel inf n G source sink = Ok (Some x) /\
      maxflow_push_relabel inf n G' (p source) (p sink) = Ok (Some x).
Proof.
  intros p q inf G G' N n s t RN NW Hs Ht Ne PG I1 I2 Hn. assert (R : renumbering N p q) by apply RN.
  assert (C : forall u v, u < N -> v < N -> capacity G' (p u) (p v) = capacity G u v).
  { intros u v Hu Hv. unfold capacity. destruct RN as (_ & _ & _ & _ & _ & _ & _ & M). rewrite M; auto. }
  destruct (C73_push_relabel_max inf G N n s t) as (x & R1 & M1); auto; try apply RN.
  destruct (C73_push_relabel_max inf G' N n (p s) (p t)) as (y & R2 & M2); auto; try apply RN; auto.
  { intro A. apply Ne. eapply p_inj; eauto. }
  { intros i j c E. eapply PG. eapply ren_get; [apply renumbered_sym; exact RN|exact E]. }
  { rewrite (zsum_perm N p q R (fun v => capacity G s v)); auto. }
  exists x. split; auto. rewrite R2. repeat f_equal. symmetry. apply (ren_max_flow N p q (capacity G) (capacity G') s t); auto.
Qed.
Print Assumptions C164_max_flow.

Theorem C164_betweenness :
  forall (T : Type) (ti : T -> Z) (tq : T -> Qc) (p q : nat -> nat) (A A' : lil T) (src : list nat) (N n : nat),
    renumbered N p q A A' -> src <> [] -> Forall (fun s => s < N) src ->
    (forall u v x, mget A u v = Some x -> ti x = 1%Z /\ tq x = 1%Qc) -> S N < n ->
    exists r r', bc_batch ti tq n A src = Ok (Some r) /\ bc_batch ti tq n A' (map p src) = Ok (Some r') /\
      forall v, v < N -> nth (p v) r' 0%Qc = nth v r 0%Qc.
Proof.
  intros T ti tq p q A A' src N n RN Ne Hs U Hn. assert (R : renumbering N p q) by apply RN.
  destruct (C76_betweenness_batch T ti tq A src N n) as (_ & _ & B & _); auto; try apply RN.
  destruct (C76_betweenness_batch T ti tq A' (map p src) N n) as (_ & _ & B' & _); auto; try apply RN.
  { destruct src; [congruence|discriminate]. }
  { apply Forall_forall. intros s Hin. apply in_map_iff in Hin. destruct Hin as (s0 & <- & Hin).
    rewrite Forall_forall in Hs. eapply p_lt; eauto. }
  { intros u v x E. eapply U. eapply ren_get; [apply renumbered_sym; exact RN|exact E]. }
  do 2 eexists. split; [exact B|]. split; [exact B'|]. intros v Hv.
  assert (NT : forall f i, i < N -> nth i (map f (seq 0 N)) 0%Qc = f i).
  { intros f i Hi. rewrite (nth_indep _ _ (f 0)) by (rewrite map_length, seq_length; lia).
    rewrite map_nth, seq_nth by lia. reflexivity. }
  rewrite !NT by (auto; eapply p_lt; eauto).
  apply (betweenness_perm N p q); auto. intros u w Hu Hw. apply (ren_edge N p q A A' RN); auto.
Qed.
Print Assumptions C164_betweenness.

(** 0 - 1 - 2 - 0, 2 - 3, renumbered by 0 -> 2 -> 1 -> 3 -> 0. *)
Definition er_o : Z := 1%Z.
Definition er_G : lil Z :=
  mkLil 4 4 8%Z [[(1, er_o); (2, er_o)]; [(0, er_o); (2, er_o)]; [(0, er_o); (1, er_o); (3, er_o)]; [(2, er_o)]].
Definition er_H : lil Z :=
  mkLil 4 4 8%Z [[(1, er_o)]; [(0, er_o); (2, er_o); (3, er_o)]; [(1, er_o); (3, er_o)]; [(1, er_o); (2, er_o)]].
Definition er_p (u : nat) : nat := nth u [2; 3; 1; 0] u.
Definition er_q (u : nat) : nat := nth u [3; 2; 0; 1] u.
Definition er_0 : bvec nat := mkVec 4 0%Z (repeat 0 4) (repeat false 4).
Definition er_simple (M : lil Z) : bool :=
  forallb (fun i => forallb (fun j =>
    match mget M i j, mget M j i with
    | None, None => true | Some a, Some b => (a =? 1)%Z && (b =? 1)%Z && negb (i =? j) | _, _ => false end) (seq 0 4)) (seq 0 4).
Lemma er_simple_ok M : wfm M -> nrows M = 4 -> ncols M = 4 -> er_simple M = true -> simple_graph 4 M.
Proof.
  intros W A B C. split; [exact W|]. split; [exact A|]. split; [exact B|].
  assert (X : forall i j, i < 4 -> j < 4 ->
    match mget M i j, mget M j i with
    | None, None => true | Some a, Some b => ((a =? 1)%Z && (b =? 1)%Z && negb (i =? j))%bool | _, _ => false end = true).
  { intros i j Hi Hj. unfold er_simple in C. rewrite forallb_forall in C.
    specialize (C i ltac:(apply in_seq; lia)). rewrite forallb_forall in C. apply C. apply in_seq; lia. }
  assert (O : forall i j, ~ (i < 4 /\ j < 4) -> mget M i j = None) by (intros; apply mget_oob; auto; lia).
  split; [|split].
  - intros i j v E. destruct (Nat.lt_ge_cases i 4), (Nat.lt_ge_cases j 4); [|rewrite O in E by lia; discriminate ..].
    specialize (X i j ltac:(auto) ltac:(auto)). rewrite E in X. destruct (mget M j i); [|discriminate].
    apply Bool.andb_true_iff in X. destruct X as (X & _). apply Bool.andb_true_iff in X. apply Z.eqb_eq, X.
  - intros i j. destruct (Nat.lt_ge_cases i 4), (Nat.lt_ge_cases j 4); [|rewrite !O by lia; reflexivity ..].
    specialize (X i j ltac:(auto) ltac:(auto)). destruct (mget M i j), (mget M j i); try discriminate; auto.
    apply Bool.andb_true_iff in X. destruct X as (X & _). apply Bool.andb_true_iff in X. rewrite !Z.eqb_eq in X. f_equal. lia.
  - intros i. destruct (Nat.lt_ge_cases i 4); [|apply O; lia].
    specialize (X i i ltac:(auto) ltac:(auto)). destruct (mget M i i); auto.
    rewrite Nat.eqb_refl, Bool.andb_false_r in X. discriminate.
Qed.
Example C164_example :
  renumbered 4 er_p er_q er_G er_H /\ simple_graph 4 er_G /\ simple_graph 4 er_H /\
  triangle_count er_G = Ok 1%Z /\ triangle_count er_H = Ok 1%Z /\
  (exists l l', bfs_level ztrue 5 er_G 3 er_0 = Ok (Some l) /\ bfs_level ztrue 5 er_H 0 er_0 = Ok (Some l') /\
     vget l 1 = Some 3 /\ vget l' 3 = Some 3) /\
  maxflow_push_relabel 100 500 er_G 0 3 = Ok (Some 1%Z) /\ maxflow_push_relabel 100 500 er_H 2 0 = Ok (Some 1%Z).
Proof.
  assert (W : wfm er_G) by wf_mat. assert (W' : wfm er_H) by wf_mat.
  split; [|split; [apply er_simple_ok; auto|split; [apply er_simple_ok; auto|]]].
  - split; [split; intros u Hu; do 4 (destruct u as [|u]; [split; [unfold er_p, er_q; simpl; lia|reflexivity]|]); lia|].
    split; [exact W|]. do 2 (split; [reflexivity|]). split; [exact W'|]. do 2 (split; [reflexivity|]).
    intros u v Hu Hv. do 4 (destruct u as [|u]; [do 4 (destruct v as [|v]; [reflexivity|]); lia|]). lia.
  - do 2 (split; [vm_compute; reflexivity|]). split; [|split; vm_compute; reflexivity].
    do 2 eexists. do 2 (split; [vm_compute; reflexivity|]). split; reflexivity.
Qed.
