(** Property C183: a larger graph never has a longer distance, fewer triangles, a smaller truss, a
    smaller maximum flow or a heavier minimum spanning tree. *)
From Coq Require Import Lia.
From Verif Require Import Base ModelLil ModelVec ModelViews ModelIndex ModelAlgoBase ModelBfs ModelSssp ModelMetrics
  ModelTriangle ModelTruss ModelPush ModelMst
  Spec SpecOps SpecGraph SpecPaths SpecMetrics SpecTriangle SpecTruss SpecFlow SpecMst SpecMonotone
  ProofLil ProofVec ProofViews ProofMetrics ProofRelabelMst ProofMonotone
  PropBfs PropSssp PropMetrics PropTriangle PropTruss PropPush PropMst.
Local Open Scope nat_scope.

(** Each theorem runs a function on a graph [G] and on a graph [G'] with the same vertices that has
    all edges of [G] and perhaps more. *)

Theorem C183_bfs_level :
  forall (T : Type) (tb : T -> bool) (G G' : lil T) (N n s : nat) (levels levels' : bvec nat),
    wfm G -> nrows G = N -> ncols G = N -> wfm G' -> nrows G' = N -> ncols G' = N ->
    subgraph (edge G) (edge G') ->
    (forall u v g, mget G u v = Some g -> tb g = true) -> (forall u v g, mget G' u v = Some g -> tb g = true) ->
    wfv levels -> vsize levels = N -> (forall v, vget levels v = None) ->
    wfv levels' -> vsize levels' = N -> (forall v, vget levels' v = None) ->
    s < N -> N < n ->
    exists l l', bfs_level tb n G s levels = Ok (Some l) /\ bfs_level tb n G' s levels' = Ok (Some l') /\
      forall v x, v < N -> vget l v = Some x -> exists x', vget l' v = Some x' /\ x' <= x.
Proof.
  intros T tb G G' N n s levels levels' W A B W' A' B' S TB TB' WL SL EL WL' SL' EL' Hs Hn.
  destruct (C41_bfs_level T tb G N n s levels) as (l & R1 & _ & _ & P1); auto.
  destruct (C41_bfs_level T tb G' N n s levels') as (l' & R2 & _ & _ & P2); auto.
  exists l, l'. split; [exact R1|]. split; [exact R2|]. intros v x Hv E.
  apply P1 in E; auto. destruct E as (d & -> & (X & _)). apply (more_walks _ _ _ _ _ S) in X.
  destruct (vget l' v) as [y|] eqn:E'.
  - exists y. split; [reflexivity|]. apply P2 in E'; auto. destruct E' as (d' & -> & (_ & M)).
    destruct (Nat.le_gt_cases d' d); [lia|]. exfalso. now apply (M d).
  - exfalso. apply (not_at_distance (edge G') (eq s) v); [|now exists d].
    intros d' D. assert (Y : vget l' v = Some (Datatypes.S d')) by (apply P2; eauto). congruence.
Qed.
Print Assumptions C183_bfs_level.

(** Lower weights and lower initial distances: the flag can only turn from true to false, and while
    it is true the distances can only become lower. *)
Theorem C183_sssp :
  forall (G G' : lil Z) (dist dist' : bvec Z) (N : nat),
    wfm G -> nrows G = N -> ncols G = N -> wfm G' -> nrows G' = N -> ncols G' = N -> N <> 0 ->
    wfv dist -> vsize dist = N -> wfv dist' -> vsize dist' = N ->
    no_dearer (mget G) (mget G') -> no_later (vget dist) (vget dist') ->
    exists b d b' d', sssp G dist = Ok (b, d) /\ sssp G' dist' = Ok (b', d') /\
      (b' = true -> b = true /\ no_later (vget d) (vget d')).
Proof.
  intros G G' dist dist' N W A B W' A' B' Z0 WD SD WD' SD' L LD.
  destruct (C43_sssp G dist N) as (b & d & R1 & _ & _ & T1 & F1 & P1); auto.
  destruct (C43_sssp G' dist' N) as (b' & d' & R2 & _ & _ & T2 & F2 & P2); auto.
  exists b, d, b', d'. split; [exact R1|]. split; [exact R2|]. intros E.
  assert (NC : ~ negative_cycle (mget G') (vget dist')) by now apply T2.
  assert (Eb : b = true).
  { apply T1. intro X. apply NC. now apply (cheaper_negative (mget G) (mget G') (vget dist) (vget dist')). }
  split; [exact Eb|]. intros v x X. apply P1 in X; auto.
  destruct (cheaper_shortest N (mget G) (mget G') (vget dist) (vget dist') v x) as (x' & X' & Lx); auto.
  - intros u t g. now apply mget_bound.
  - intros u a Ha. destruct (Nat.lt_ge_cases u N); auto. rewrite vget_oob in Ha by (try apply WD'; lia). discriminate.
  - exists x'. split; [now apply P2|exact Lx].
Qed.
Print Assumptions C183_sssp.

Theorem C183_apsp :
  forall (G G' : lil Z) (N : nat),
    wfm G -> nrows G = N -> ncols G = N -> wfm G' -> nrows G' = N -> ncols G' = N ->
    no_dearer (mget G) (mget G') -> no_negative_cycle (mget G') ->
    exists D D', apsp G = Ok D /\ apsp G' = Ok D' /\
      forall u v x, u <> v -> mget D u v = Some x -> exists x', mget D' u v = Some x' /\ (x' <= x)%Z.
Proof.
  intros G G' N W A B W' A' B' L NC.
  destruct (C45_apsp G' N W' A' B' NC) as (D' & R2 & _ & _ & _ & P2 & _).
  destruct (C45_apsp G N W A B) as (D & R1 & WD & AD & BD & P1 & _).
  { intros v m c X. destruct (cheaper_walk _ _ v v m c L X) as (c' & X' & Lc). specialize (NC v m c' X'). lia. }
  exists D, D'. split; [exact R1|]. split; [exact R2|]. intros u v x Ne E.
  pose proof (mget_bound D N u v x WD AD BD E) as (Hu & _).
  apply P1 in E; auto. set (D0 := fun t => if t =? u then Some 0%Z else None).
  apply (shortest_source (mget G) D0 u v x) in E; [|reflexivity].
  destruct (cheaper_shortest N (mget G) (mget G') D0 D0 v x) as (x' & X' & Lx); auto.
  - intros a b g. now apply mget_bound.
  - intros a y. unfold D0. destruct (Nat.eqb_spec a u); [now subst|discriminate].
  - intros a y Ey. exists y. split; [exact Ey|lia].
  - now apply no_negative.
  - exists x'. split; [|exact Lx]. apply P2; auto. now apply (shortest_source (mget G') D0 u v x').
Qed.
Print Assumptions C183_apsp.

Theorem C183_triangle_count :
  forall (G G' : lil Z) (N : nat),
    simple_graph N G -> simple_graph N G' -> subgraph (edge G) (edge G') ->
    exists t t', triangle_count G = Ok t /\ triangle_count G' = Ok t' /\ (t <= t')%Z.
Proof.
  intros G G' N SG SG' S. do 2 eexists. split; [exact (C46_triangle_count N G SG)|].
  split; [exact (C46_triangle_count N G' SG')|]. pose proof (more_triangles N _ _ S). lia.
Qed.
Print Assumptions C183_triangle_count.

Theorem C183_k_truss2 :
  forall (G G' : lil Z) (N k n : nat),
    simple_graph N G -> simple_graph N G' -> subgraph (edge G) (edge G') -> 3 <= k ->
    (nvals G < Z.of_nat n)%Z -> (nvals G' < Z.of_nat n)%Z ->
    exists H H', k_truss2 n G k = Ok (Some H) /\ k_truss2 n G' k = Ok (Some H') /\
      subgraph (edge H) (edge H').
Proof.
  intros G G' N k n SG SG' S K NV NV'.
  destruct (C54_k_truss2 N k n G) as (H & R1 & _ & L1); auto.
  destruct (C54_k_truss2 N k n G') as (H' & R2 & _ & L2); auto.
  exists H, H'. split; [exact R1|]. split; [exact R2|]. exact (more_truss N _ _ _ _ _ S L1 L2).
Qed.
Print Assumptions C183_k_truss2.

(** The trusses of one graph are nested: a larger [k] gives a smaller truss. *)
Theorem C183_k_truss2_nested :
  forall (G : lil Z) (N k k' n : nat),
    simple_graph N G -> 3 <= k <= k' -> (nvals G < Z.of_nat n)%Z ->
    exists H H', k_truss2 n G k = Ok (Some H) /\ k_truss2 n G k' = Ok (Some H') /\
      subgraph (edge H') (edge H).
Proof.
  intros G N k k' n SG K NV.
  destruct (C54_k_truss2 N k n G) as (H & R1 & _ & L1); auto; [lia|].
  destruct (C54_k_truss2 N k' n G) as (H' & R2 & _ & L2); auto; [lia|].
  exists H, H'. split; [exact R1|]. split; [exact R2|]. apply (less_truss N (k - 2) (k' - 2) _ _ (edge G)); auto. lia.
Qed.
Print Assumptions C183_k_truss2_nested.

(** Larger capacities. *)
Theorem C183_max_flow :
  forall (inf : Z) (G G' : lil Z) (N n source sink : nat),
    wfm G -> nrows G = N -> ncols G = N -> wfm G' -> nrows G' = N -> ncols G' = N ->
    (Z.of_nat N < 2 ^ 64)%Z -> source < N -> sink < N -> source <> sink ->
    (forall i j c, mget G i j = Some c -> (0 <= c)%Z) -> (forall i j c, mget G' i j = Some c -> (0 <= c)%Z) ->
    (forall u v, (capacity G u v <= capacity G' u v)%Z) ->
    (2 * Z.of_nat N <= inf)%Z -> (zsum N (fun v => capacity G source v) <= inf)%Z ->
    (zsum N (fun v => capacity G' source v) <= inf)%Z ->
    4 * (N + 1) * (N + 1) * (N + 1) <= n ->
    exists x x', maxflow_push_relabel inf n G source sink = Ok (Some x) /\
      maxflow_push_relabel inf n G' source sink = Ok (Some x') /\ (x <= x')%Z.
Proof.
  intros inf G G' N n s t W A B W' A' B' NW Hs Ht Ne PG PG' L I1 I2 I3 Hn.
  destruct (C73_push_relabel_max inf G N n s t) as (x & R1 & M1); auto.
  destruct (C73_push_relabel_max inf G' N n s t) as (x' & R2 & M2); auto.
  exists x, x'. split; [exact R1|]. split; [exact R2|]. apply (more_flow N (capacity G) (capacity G') s t); auto.
Qed.
Print Assumptions C183_max_flow.

Theorem C183_mst :
  forall (G G' : lil Z) (N n : nat) (parents parents' : bvec nat),
    wfm G -> nrows G = N -> ncols G = N -> wfm G' -> nrows G' = N -> ncols G' = N -> N <> 0 ->
    (forall i j, mget G i j = mget G j i) -> (forall i j, mget G' i j = mget G' j i) ->
    (forall v, v < N -> reachable (edge G) (fun u => u = 0) v) ->
    no_dearer (mget G) (mget G') ->
    wfv0 parents -> vsize parents = N -> wfv0 parents' -> vsize parents' = N -> N < n ->
    exists x r x' r', mst n G parents = Ok (Some (x, r)) /\ mst n G' parents' = Ok (Some (x', r')) /\ (x' <= x)%Z.
Proof.
  intros G G' N n parents parents' W A B W' A' B' Z0 S S' C L WP SP WP' SP' Hn.
  destruct (C65_mst G N n parents) as (x & r & R1 & _ & _ & _ & _ & M1 & ->); auto.
  destruct (C65_mst G' N n parents') as (x' & r' & R2 & _ & _ & _ & _ & M2 & ->); auto.
  { intros v Hv. apply (more_reachable (edge G) (edge G')); auto. intros u t E. unfold edge in *.
    destruct (mget G u t) as [g|] eqn:X; [|discriminate]. destruct (L u t g X) as (g' & -> & _). reflexivity. }
  do 4 eexists. split; [exact R1|]. split; [exact R2|]. now apply (cheaper_tree N (mget G) (mget G')).
Qed.
Print Assumptions C183_mst.

(** A path 0-1-2-3, and the same with the edges 0-2 and 1-3 added. *)
Definition emo_G : lil Z := mkLil 4 4 6%Z [[(1, 1%Z)]; [(0, 1%Z); (2, 1%Z)]; [(1, 1%Z); (3, 1%Z)]; [(2, 1%Z)]].
Definition emo_H : lil Z :=
  mkLil 4 4 10%Z [[(1, 1%Z); (2, 1%Z)]; [(0, 1%Z); (2, 1%Z); (3, 1%Z)]; [(0, 1%Z); (1, 1%Z); (3, 1%Z)]; [(1, 1%Z); (2, 1%Z)]].
Definition emo_l : bvec nat := mkVec 4 0%Z (repeat 0 4) (repeat false 4).
Definition emo_d : bvec Z := mkVec 4 1%Z (repeat 0%Z 4) [true; false; false; false].

Lemma emo_wf : wfm emo_G /\ wfm emo_H.
Proof. split; wf_mat. Qed.
Lemma emo_sub : no_dearer (mget emo_G) (mget emo_H).
Proof.
  destruct emo_wf as (W & _). intros u v g E. destruct (mget_bound emo_G 4 u v g W eq_refl eq_refl E) as (Hu & Hv).
  do 4 (destruct u as [|u]; [do 4 (destruct v as [|v];
    [vm_compute in E; first [discriminate|injection E as <-; exists 1%Z; split; [reflexivity|lia]]|]); lia|]). lia.
Qed.
Lemma emo_simple : simple_graph 4 emo_G /\ simple_graph 4 emo_H.
Proof.
  destruct emo_wf as (W & W').
  assert (X : forall M, wfm M -> nrows M = 4 -> ncols M = 4 ->
    (forall i, i < 4 -> forall j, j < 4 -> mget M i j = mget M j i /\ (mget M i j = None \/ mget M i j = Some 1%Z /\ i <> j)) ->
    simple_graph 4 M).
  { intros M WM A B H. assert (O : forall i j, ~ (i < 4 /\ j < 4) -> mget M i j = None) by (intros; apply mget_oob; auto; lia).
    split; [exact WM|]. split; [exact A|]. split; [exact B|]. split; [|split].
    - intros i j v E. destruct (mget_bound M 4 i j v WM A B E) as (Hi & Hj). destruct (H i Hi j Hj) as (_ & [Y|(Y & _)]); congruence.
    - intros i j. destruct (Nat.lt_ge_cases i 4), (Nat.lt_ge_cases j 4); [|rewrite !O by lia; reflexivity ..]. now apply H.
    - intros i. destruct (Nat.lt_ge_cases i 4) as [Hi|]; [|apply O; lia]. destruct (H i Hi i Hi) as (_ & [Y|(_ & Y)]); congruence. }
  split; apply X; auto; intros i Hi j Hj;
    do 4 (destruct i as [|i]; [do 4 (destruct j as [|j];
      [split; [reflexivity|]; first [left; reflexivity|right; split; [reflexivity|discriminate]]|]); lia|]); lia.
Qed.

Example C183_example :
  simple_graph 4 emo_G /\ simple_graph 4 emo_H /\ no_dearer (mget emo_G) (mget emo_H) /\
  subgraph (edge emo_G) (edge emo_H) /\
  (exists l l', bfs_level ztrue 5 emo_G 0 emo_l = Ok (Some l) /\ bfs_level ztrue 5 emo_H 0 emo_l = Ok (Some l') /\
     vget l 3 = Some 4 /\ vget l' 3 = Some 3) /\
  (exists d d', sssp emo_G emo_d = Ok (true, d) /\ sssp emo_H emo_d = Ok (true, d') /\
     vget d 3 = Some 3%Z /\ vget d' 3 = Some 2%Z) /\
  triangle_count emo_G = Ok 0%Z /\ triangle_count emo_H = Ok 2%Z /\
  maxflow_push_relabel 100 500 emo_G 0 3 = Ok (Some 1%Z) /\ maxflow_push_relabel 100 500 emo_H 0 3 = Ok (Some 2%Z) /\
  (exists r r', mst 5 emo_G emo_l = Ok (Some (3%Z, r)) /\ mst 5 emo_H emo_l = Ok (Some (3%Z, r'))).
Proof.
  destruct emo_simple as (S & S'). split; [exact S|]. split; [exact S'|]. split; [exact emo_sub|]. split.
  { intros u v E. unfold edge in *. destruct (mget emo_G u v) as [g|] eqn:X; [|discriminate].
    destruct (emo_sub u v g X) as (g' & -> & _). reflexivity. }
  split; [do 2 eexists; do 2 (split; [vm_compute; reflexivity|]); split; reflexivity|].
  split; [do 2 eexists; do 2 (split; [vm_compute; reflexivity|]); split; reflexivity|].
  do 4 (split; [vm_compute; reflexivity|]).
  do 2 eexists. split; vm_compute; reflexivity.
Qed.
