(** Property C163: functions that answer the same question give the same answer. *)
From Coq Require Import Lia QArith Qcanon.
From Verif Require Import Base ModelLil ModelVec ModelViews ModelAlgoBase ModelBfs ModelSssp ModelMetrics ModelDelta
  ModelTriangle ModelTruss ModelFlow ModelPush ModelRank ModelBc ModelAppendix
  Spec SpecOps SpecRank SpecBc SpecGraph SpecPaths SpecMetrics SpecTriangle SpecTruss SpecFlow
  ProofLil ProofViews ProofVis ProofGraph ProofPaths ProofAgree
  PropBfs PropSssp PropMetrics PropDelta PropTriangle PropTruss PropFlow PropPush PropBc PropAppendix.
Local Open Scope nat_scope.

(** ** Levels: the vector forms, each row of the batch forms, and those of the appendix *)
Theorem C163_levels_agree :
  forall (T : Type) (tb : T -> bool) (G : lil T) (N n source row : nat)
         (levels roots : bvec nat) (mlevels mroots : lil nat),
    wfm G -> nrows G = N -> ncols G = N ->
    (forall u v g, mget G u v = Some g -> tb g = true) ->
    wfv levels -> vsize levels = N -> (forall v, vget levels v = None) ->
    wfv roots -> vsize roots = N -> (forall v, vget roots v = if v =? source then Some 1 else None) ->
    wfm mroots -> ncols mroots = N -> (forall r v x, mget mroots r v = Some x -> x = 1) ->
    row < nrows mroots -> (forall v, mget mroots row v = if v =? source then Some 1 else None) ->
    wfm mlevels -> nrows mlevels = nrows mroots -> ncols mlevels = N ->
    (forall r v, mget mlevels r v = None) ->
    source < N -> N < n ->
    exists r1 r2 r3 r4 r5 l1 l2,
      bfs_level tb n G source levels = Ok (Some r1) /\
      bfs_level_masked tb n G roots levels = Ok (Some r2) /\
      bfs_level_masked_v2 tb n G roots levels = Ok (Some r3) /\
      bfs_level_appendixB1 tb n levels G source = Ok (Some r4) /\
      bfs_level_appendixB2 tb n levels G source = Ok (Some r5) /\
      batch_bfs_level_masked tb n G mroots mlevels = Ok (Some l1) /\
      bfs_level_m tb n G mroots mlevels = Ok (Some l2) /\
      forall v, v < N ->
        vget r2 v = vget r1 v /\ vget r3 v = vget r1 v /\ vget r4 v = vget r1 v /\ vget r5 v = vget r1 v /\
        mget l1 row v = vget r1 v /\ mget l2 row v = vget r1 v.
Proof.
  intros T tb G N n s row levels roots ml mr WG NR NC TB WL SL EL WR SR ER WM CM OM Hr EM WML NML CML EML Hs Hn.
  destruct (C41_bfs_level T tb G N n s levels) as (r1 & R1 & _ & _ & P1); auto.
  destruct (C41_bfs_level_masked T tb G N n roots levels) as [(r2 & R2 & _ & _ & P2) (r3 & R3 & _ & _ & P3)]; auto.
  { intros v x. rewrite ER. destruct (v =? s); congruence. }
  destruct (C82_appendix_bfs_level T tb G N n s levels) as [(r4 & R4 & _ & _ & P4) (r5 & R5 & _ & _ & P5)]; auto; [lia|].
  destruct (C41_batch_bfs_level T tb G N n mr ml) as [(l1 & L1 & _ & _ & _ & Q1) (l2 & L2 & _ & _ & _ & Q2)]; auto.
  exists r1, r2, r3, r4, r5, l1, l2. repeat split; auto;
    apply (same_option _ _ (fun x => exists d, x = S d /\ at_distance (edge G) (eq s) d v)); intro x; auto.
  - rewrite P2; auto. split; intros (d & E & A); exists d; (split; [exact E|]); revert A; apply at_distance_roots;
      intro u; rewrite ER; destruct (Nat.eqb_spec u s); split; congruence.
  - rewrite P3; auto. split; intros (d & E & A); exists d; (split; [exact E|]); revert A; apply at_distance_roots;
      intro u; rewrite ER; destruct (Nat.eqb_spec u s); split; congruence.
  - rewrite Q1; auto. split; intros (d & E & A); exists d; (split; [exact E|]); revert A; apply at_distance_roots;
      intro u; rewrite EM; destruct (Nat.eqb_spec u s); split; congruence.
  - rewrite Q2; auto. split; intros (d & E & A); exists d; (split; [exact E|]); revert A; apply at_distance_roots;
      intro u; rewrite EM; destruct (Nat.eqb_spec u s); split; congruence.
Qed.
Print Assumptions C163_levels_agree.

(** The parents fit the levels: the same vertices are reached, and a parent is one level up and has
    an edge to the child.  The parent search of the appendix finds the same parents. *)
Theorem C163_parents_agree :
  forall (T : Type) (tb : T -> bool) (G : lil T) (N n source : nat) (levels parents parents' : bvec nat),
    wfm G -> nrows G = N -> ncols G = N ->
    (forall u v g, mget G u v = Some g -> tb g = true) ->
    wfv levels -> vsize levels = N -> (forall v, vget levels v = None) ->
    wfv0 parents -> vsize parents = N -> wfv0 parents' -> vsize parents' = N ->
    source < N -> N < n ->
    exists l p q,
      bfs_level tb n G source levels = Ok (Some l) /\
      bfs n G source parents = Ok (Some p) /\
      bfs_parent_appendixB3 n parents' G source = Ok (Some q) /\
      forall v, v < N ->
        vget q v = vget p v /\
        (vget p v = None <-> vget l v = None) /\
        forall u, vget p v = Some u -> u <> v ->
          edge G u v = true /\ exists x, vget l u = Some x /\ vget l v = Some (S x).
Proof.
  intros T tb G N n s levels pa pa' WG NR NC TB WL SL EL WP SP WP' SP' Hs Hn.
  destruct (C41_bfs_level T tb G N n s levels) as (l & R1 & _ & _ & P1); auto.
  destruct (C42_bfs_parents T G N n s pa) as (p & R2 & _ & _ & P2); auto.
  destruct (C42_bfs_reaches T G N n s pa) as (p' & R2' & P2'); auto.
  rewrite R2 in R2'. injection R2' as <-.
  destruct (C82_appendix_bfs_parent T G N n s pa') as (q & R3 & _ & _ & P3); auto.
  exists l, p, q. repeat split; auto.
  - apply (same_option _ _ (fun x => v = s /\ x = s \/ best_parent (edge G) (eq s) x v)); intro x; auto.
  - intros E. destruct (vget l v) as [x|] eqn:El; auto. apply P1 in El; auto. destruct El as (d & _ & W & _).
    elim (proj2 (P2' v H)); auto. exists d; auto.
  - intros E. destruct (vget p v) as [x|] eqn:Ep; auto. apply P2 in Ep; auto. exfalso.
    assert (exists d, at_distance (edge G) (eq s) d v) as (d & Hd).
    { destruct Ep as [(-> & _)|(d & A & _)]; [|eauto]. exists 0. split; [reflexivity|]. intros k' L. lia. }
    assert (vget l v = Some (S d)) by (apply P1; eauto). congruence.
  - apply P2 in H0; auto. destruct H0 as [(-> & ->)|(d & _ & _ & E & _)]; [congruence|exact E].
  - apply P2 in H0; auto. destruct H0 as [(-> & ->)|(d & A & B & E & _)]; [congruence|].
    assert (u < N).
    { destruct (Nat.lt_ge_cases u N) as [l0|g]; auto. unfold edge in E. rewrite mget_oob in E by (auto; lia). discriminate. }
    exists (S d). split; apply P1; eauto.
Qed.
Print Assumptions C163_parents_agree.

(** ** Distances, for positive weights *)
Theorem C163_distances_agree :
  forall (G dists : lil Z) (dist paths result : bvec Z) (delta : Z) (N s row : nat),
    wfm G -> nrows G = N -> ncols G = N -> s < N ->
    (forall u v g, mget G u v = Some g -> (0 < g)%Z) -> (0 < delta)%Z ->
    wfv dist -> vsize dist = N -> (forall v, vget dist v = if v =? s then Some 0%Z else None) ->
    wfm dists -> ncols dists = N -> row < nrows dists ->
    (forall v, mget dists row v = if v =? s then Some 0%Z else None) ->
    wfv0 paths -> vsize paths = N -> wfv0 result -> vsize result = N ->
    exists d1 d2 d3 m n0,
      sssp G dist = Ok (true, d1) /\
      filtered_sssp G dist = Ok (true, d2) /\
      graph_distance G s result = Ok d3 /\
      batch_sssp G dists = Ok (true, m) /\
      (forall v, v < N -> vget d2 v = vget d1 v /\ vget d3 v = vget d1 v /\ mget m row v = vget d1 v) /\
      (forall n, n0 <= n -> exists d4, sssp_delta_step n G delta s paths = Ok (Some d4) /\
         forall v, v < N -> vget d4 v = vget d1 v) /\
      exists D, apsp G = Ok D /\ forall v, v < N -> v <> s -> mget D s v = vget d1 v.
Proof.
  intros G dists dist paths result delta N s row WG NR NC Hs PG Dp WD SD ED WM CM Hr EM WP SP WR SR.
  assert (CY : forall v m c, wwalk (mget G) v v m c -> (0 <= c)%Z) by (intros; eapply wwalk_pos; eauto).
  destruct (C43_sssp_source G dist N s) as (d1 & R1 & P1); auto.
  { intros; eapply CY; eauto. }
  destruct (C44_filtered_sssp_positive G dist N) as (d2 & R2 & P2); auto; [lia| |].
  { intros v x. rewrite ED. destruct (v =? s); [intros E; injection E as <-; lia|discriminate]. }
  destruct (C60_graph_distance G result N s) as (d3 & R3 & _ & _ & P3); auto.
  destruct (C43_batch_sssp G dists N) as (b & m & R4 & _ & _ & _ & B & _ & P4); auto; [lia|].
  assert (Hb : b = true).
  { apply B. intros r Hr' (k & v & x & m' & c & _ & W & Neg). apply CY in W. lia. }
  subst b.
  destruct (C68_sssp_delta_step_ends G N s delta paths) as (n0 & P5); auto.
  destruct (C45_apsp G N) as (D & R6 & _ & _ & _ & P6 & _); auto.
  exists d1, d2, d3, m, n0. split; [auto|]. split; [auto|]. split; [auto|]. split; [auto|].
  split; [|split].
  - intros v Hv. repeat split; apply (same_option _ _ (distance (mget G) s v)); intro x; auto.
    + rewrite P2. apply shortest_distance; auto.
    + rewrite (P4 eq_refl). apply shortest_distance; auto.
  - intros n Hn. destruct (P5 n Hn) as (d4 & R5 & _ & _ & Q). exists d4. split; auto.
    intros v Hv. apply (same_option _ _ (distance (mget G) s v)); intro x; auto.
  - exists D. split; auto. intros v Hv Ne. apply (same_option _ _ (distance (mget G) s v)); intro x; auto.
Qed.
Print Assumptions C163_distances_agree.

(** With unit weights the distance is the level minus one. *)
Theorem C163_levels_are_distances :
  forall (tb : Z -> bool) (G : lil Z) (dist : bvec Z) (levels : bvec nat) (N n s : nat),
    wfm G -> nrows G = N -> ncols G = N -> s < N -> N < n ->
    (forall u v g, mget G u v = Some g -> g = 1%Z) -> tb 1%Z = true ->
    wfv dist -> vsize dist = N -> (forall v, vget dist v = if v =? s then Some 0%Z else None) ->
    wfv levels -> vsize levels = N -> (forall v, vget levels v = None) ->
    exists d l, sssp G dist = Ok (true, d) /\ bfs_level tb n G s levels = Ok (Some l) /\
      forall v, v < N -> vget d v = option_map (fun x => (Z.of_nat x - 1)%Z) (vget l v).
Proof.
  intros tb G dist levels N n s WG NR NC Hs Hn U T1 WD SD ED WL SL EL.
  destruct (C43_sssp_source G dist N s) as (d & R1 & P1); auto.
  { intros. eapply wwalk_pos; [|eauto]. intros a b g E. apply U in E. lia. }
  destruct (C41_bfs_level Z tb G N n s levels) as (l & R2 & _ & _ & P2); auto.
  { intros u v g E. apply U in E. subst. exact T1. }
  exists d, l. repeat split; auto. intros v Hv.
  apply (same_option _ _ (distance (mget G) s v)); intro x; auto.
  rewrite (unit_distance _ _ _ _ U). split.
  - destruct (vget l v) as [y|] eqn:El; [|discriminate]. intros E. injection E as <-.
    apply P2 in El; auto. destruct El as (k & -> & A). exists k. split; [lia|exact A].
  - intros (k & -> & A). assert (vget l v = Some (S k)) as -> by (apply P2; eauto).
    cbn [option_map]. f_equal. lia.
Qed.
Print Assumptions C163_levels_are_distances.

(** ** Triangles *)
Theorem C163_triangles_agree :
  forall (N : nat) (G L U : lil Z),
    simple_graph N G ->
    wfm L -> nrows L = N -> ncols L = N -> (forall i j, mget L i j = lower (mget G) i j) ->
    wfm U -> nrows U = N -> ncols U = N -> (forall i j, mget U i j = upper (mget G) i j) ->
    exists t, triangle_count G = Ok t /\ triangle_count_masked L = Ok t /\
      triangle_count_masked_noT L = Ok t /\ triangle_count_masked_LU L U = Ok t /\
      triangle_count_newGBTL (Mat L) U = Ok t /\ triangle_count_appendixB7 L = Ok t.
Proof.
  intros N G L U SG WL RL CL EL WU RU CU EU. exists (Z.of_nat (triangles N (edge G))).
  destruct (C46_triangle_count_masked N G L U) as (A & B & C); auto.
  repeat split; auto.
  - apply C46_triangle_count; auto.
  - apply C46_triangle_count_newGBTL; auto.
  - apply (C88_appendix_triangle_count N G); auto.
Qed.
Print Assumptions C163_triangles_agree.

(** ** Trusses: the two representations of a graph *)
Theorem C163_trusses_agree :
  forall (N k n : nat) (G E : lil Z),
    simple_graph N G -> incidence N E -> (forall u v, joined E u v = edge G u v) ->
    3 <= k -> 0 < nrows E -> (nvals G < Z.of_nat n)%Z -> nrows E < n ->
    exists H F, k_truss2 n G k = Ok (Some H) /\ k_truss n E k = Ok (Some F) /\
      forall u v, joined F u v = edge H u v.
Proof.
  intros N k n G E SG IE EQ K P NV NR.
  destruct (C54_k_truss2 N k n G) as (H & R1 & _ & L1); auto.
  destruct (C63_k_truss N k n E) as (F & R2 & _ & _ & L2); auto; [lia|].
  exists H, F. repeat split; auto. apply (largest_unique N (k - 2) _ _ (edge G)); auto.
  apply (largest_ext _ _ _ (joined E)); auto.
Qed.
Print Assumptions C163_trusses_agree.

(** ** Maximum flow, where both functions are right (see C66, C67 and C73) *)
Theorem C163_flows_agree :
  forall (inf : Z) (G : lil Z) (N n source sink : nat) (S : nat -> bool),
    wfm G -> nrows G = N -> ncols G = N -> (Z.of_nat N < 2 ^ 64)%Z ->
    source < N -> sink < N -> source <> sink ->
    (forall i j c, mget G i j = Some c -> (1 <= c)%Z) ->
    is_cut N source sink S -> (cut_capacity N (capacity G) S <= nvals G)%Z ->
    (1 <= inf)%Z -> (2 * Z.of_nat N <= inf)%Z -> (zsum N (fun v => capacity G source v) <= inf)%Z ->
    4 * (N + 1) * (N + 1) * (N + 1) <= n -> (nvals G < Z.of_nat n)%Z ->
    exists x, maxflow_ford_fulk inf n G source sink = Ok (Some x) /\
      maxflow_push_relabel inf n G source sink = Ok (Some x).
Proof.
  intros inf G N n s t S WG NR NC HN Hs Ht Ne PG CS CC I1 I2 I3 Hn NV.
  destruct (C66_ford_fulkerson_max inf G N n s t S) as (x & R1 & M1); auto; [nia|].
  destruct (C73_push_relabel_max inf G N n s t) as (y & R2 & M2); auto.
  { intros i j c E. apply PG in E. lia. }
  exists x. split; auto. rewrite R2. repeat f_equal. eapply max_flow_unique; eauto.
Qed.
Print Assumptions C163_flows_agree.

(** ** Betweenness centrality: all vertices as a batch, one by one, and by the appendix *)
Theorem C163_betweenness_agrees :
  forall (A : lil Qc) (ti : Qc -> Z) (N n : nat),
    wfm A -> nrows A = N -> ncols A = N -> N <> 0 -> ti 1%Qc = 1%Z ->
    (forall u v x, mget A u v = Some x -> x = 1%Qc) -> S N < n ->
    exists r, vertex_betweenness_centrality Qcplus Qcminus Qcmult Qcinv qn qtrue n A = Ok (Some r) /\
      let all := seq 0 N in
      bc_batch_alt_trans ti idc n A all = Ok (Some r) /\ bc_batch_alt ti idc n A all = Ok (Some r) /\
      bc_batch ti idc n A all = Ok (Some r) /\ bc_batch_old ti idc n A all = Ok (Some r) /\
      (forall delta, wfv delta -> vsize delta = N ->
         exists d, BC_update_appendixB5 ti idc n delta A all = Ok (Some d) /\
           forall v, v < N -> vget d v = Some (nth v r 0%Qc)).
Proof.
  intros A ti N n WA NR NC N0 T1 U Hn.
  assert (U' : forall u v x, mget A u v = Some x -> ti x = 1%Z /\ idc x = 1%Qc)
    by (intros u v x E; apply U in E; subst x; split; auto).
  assert (Hall : Forall (fun s => s < N) (seq 0 N)) by (apply Forall_forall; intros x Hx; apply in_seq in Hx; lia).
  assert (Hne : seq 0 N <> []) by (destruct N; [lia|discriminate]).
  exists (map (betweenness N (fun u v => is_some (mget A u v)) (seq 0 N)) (seq 0 N)).
  split; [apply C77_betweenness_vertex; auto; lia|]. cbv zeta.
  destruct (C76_betweenness_batch Qc ti idc A (seq 0 N) N n) as (B1 & B2 & B3 & B4); auto.
  repeat split; auto. intros delta WD SD.
  destruct (C86_appendix_bc_batch_partial Qc ti idc A (seq 0 N) N n delta) as (d & R & _ & _ & P); auto.
  { left. apply seq_length. }
  exists d. split; auto. intros v Hv. rewrite P; auto. f_equal.
  rewrite (nth_indep _ _ (betweenness N (fun u v => is_some (mget A u v)) (seq 0 N) 0)) by (rewrite map_length, seq_length; lia).
  rewrite map_nth, seq_nth by lia. reflexivity.
Qed.
Print Assumptions C163_betweenness_agrees.

(** The dependencies of one source, from the batch functions and from the appendix. *)
Theorem C163_dependencies_agree :
  forall (T : Type) (ti : T -> Z) (tq : T -> Qc) (A : lil T) (N n s : nat) (delta : bvec Qc),
    wfm A -> nrows A = N -> ncols A = N -> s < N -> S N < n ->
    (forall u v x, mget A u v = Some x -> ti x = 1%Z /\ tq x = 1%Qc) ->
    wfv delta -> vsize delta = N -> (forall v, v < N -> stored delta v = 0%Qc) ->
    exists r d, bc_batch ti tq n A [s] = Ok (Some r) /\ BC_appendixB4 ti tq n delta A s = Ok (Some d) /\
      forall v, v < N -> stored d v = nth v r 0%Qc.
Proof.
  intros T ti tq A N n s delta WA NR NC Hs Hn U WD SD ED.
  destruct (C76_betweenness_batch T ti tq A [s] N n) as (_ & _ & B3 & _); auto; [discriminate|].
  destruct (C84_appendix_bc_source T ti tq A N n s delta) as (d & R & _ & _ & P); auto; [lia|].
  eexists; exists d. split; [exact B3|]. split; [exact R|].
  intros v Hv. rewrite P; auto.
  rewrite (nth_indep _ _ (betweenness N (fun u v => is_some (mget A u v)) [s] 0)) by (rewrite map_length, seq_length; lia).
  rewrite map_nth, seq_nth by lia. unfold betweenness. cbn [map fold_right]. rewrite Qcplus_0_r. reflexivity.
Qed.
Print Assumptions C163_dependencies_agree.

(** ** Concrete cases *)

(** The networks and graphs of C54, C63, C66 and C68.  [ea_G] is the graph of the incidence matrix
    [ek_E]. *)
Definition ea_G : lil Z :=
  mkLil 5 5 10%Z [[(1, 1%Z); (2, 1%Z); (3, 1%Z)]; [(0, 1%Z); (2, 1%Z)]; [(0, 1%Z); (1, 1%Z)]; [(0, 1%Z); (4, 1%Z)]; [(3, 1%Z)]].
Definition ea_dist : bvec Z := mkVec 5 1%Z [0; 7; 7; 7; 7]%Z [true; false; false; false; false].
Definition ea_levels : bvec nat := mkVec 5 0%Z (repeat 0 5) (repeat false 5).
Lemma ea_simple : simple_graph 5 ea_G.
Proof.
  assert (W : wfm ea_G) by wf_mat.
  split; [exact W|]. do 2 (split; [reflexivity|]). split; [|split].
  - intros i j v. destruct (Nat.lt_ge_cases i 5), (Nat.lt_ge_cases j 5).
    2, 3, 4: rewrite mget_oob by (auto; simpl; lia); discriminate.
    do 5 (destruct i as [|i]; [do 5 (destruct j as [|j]; [intro E; vm_compute in E; congruence|]); lia|]). lia.
  - intros i j. destruct (Nat.lt_ge_cases i 5), (Nat.lt_ge_cases j 5).
    2, 3, 4: rewrite !mget_oob by (auto; simpl; lia); reflexivity.
    do 5 (destruct i as [|i]; [do 5 (destruct j as [|j]; [reflexivity|]); lia|]). lia.
  - intros i. destruct (Nat.lt_ge_cases i 5).
    2: rewrite mget_oob by (auto; simpl; lia); reflexivity.
    do 5 (destruct i as [|i]; [reflexivity|]). lia.
Qed.
Example C163_example :
  (simple_graph 5 ea_G /\ incidence 5 ek_E /\ (forall u v, joined ek_E u v = edge ea_G u v) /\
   exists H F, k_truss2 12 ea_G 3 = Ok (Some H) /\ k_truss 12 ek_E 3 = Ok (Some F) /\
     edge H 1 2 = true /\ joined F 1 2 = true /\ edge H 0 3 = false /\ joined F 0 3 = false) /\
  ((cut_capacity 8 (capacity eff_G) (Nat.eqb 0) <= nvals eff_G)%Z /\
   (zsum 8 (fun v => capacity eff_G 0 v) <= 100)%Z /\
   maxflow_ford_fulk 100 2916 eff_G 0 5 = Ok (Some 2%Z) /\ maxflow_push_relabel 100 2916 eff_G 0 5 = Ok (Some 2%Z)) /\
  (wfm ed_G /\ wfv ea_dist /\ (forall v, vget ea_dist v = if v =? 0 then Some 0%Z else None) /\
   exists d1 d2 d4 D, sssp ed_G ea_dist = Ok (true, d1) /\ filtered_sssp ed_G ea_dist = Ok (true, d2) /\
     sssp_delta_step 60 ed_G 2 0 ea_dist = Ok (Some d4) /\ apsp ed_G = Ok D /\
     vget d1 3 = Some 4%Z /\ vget d2 3 = Some 4%Z /\ vget d4 3 = Some 4%Z /\ mget D 0 3 = Some 4%Z) /\
  (exists d l, sssp ea_G ea_dist = Ok (true, d) /\ bfs_level ztrue 6 ea_G 0 ea_levels = Ok (Some l) /\
     vget d 4 = Some 2%Z /\ vget l 4 = Some 3).
Proof.
  split; [|split; [|split]].
  - split; [apply ea_simple|]. split; [apply C63_example|]. split.
    + intros u v. destruct (Nat.lt_ge_cases u 5), (Nat.lt_ge_cases v 5).
      * do 5 (destruct u as [|u]; [do 5 (destruct v as [|v]; [reflexivity|]); lia|]). lia.
      * unfold edge. rewrite mget_oob by (solve [apply ea_simple] || (simpl; lia)).
        unfold joined. cbn [nrows ek_E seq existsb]. rewrite !(mget_oob ek_E _ v) by (solve [apply C63_example] || (simpl; lia)).
        cbn [is_some]. rewrite !Bool.andb_false_r. reflexivity.
      * unfold edge. rewrite mget_oob by (solve [apply ea_simple] || (simpl; lia)).
        unfold joined. cbn [nrows ek_E seq existsb]. rewrite !(mget_oob ek_E _ u) by (solve [apply C63_example] || (simpl; lia)).
        cbn [is_some andb orb]. rewrite !Bool.andb_false_r. reflexivity.
      * unfold edge. rewrite mget_oob by (solve [apply ea_simple] || (simpl; lia)).
        unfold joined. cbn [nrows ek_E seq existsb]. rewrite !(mget_oob ek_E _ u) by (solve [apply C63_example] || (simpl; lia)).
        cbn [is_some andb orb]. rewrite !Bool.andb_false_r. reflexivity.
    + do 2 eexists. split; [vm_compute; reflexivity|]. split; [vm_compute; reflexivity|]. repeat split; reflexivity.
  - split; [vm_compute; discriminate|]. split; [vm_compute; discriminate|]. split; vm_compute; reflexivity.
  - split; [wf_mat|]. split; [repeat split; reflexivity|]. split.
    + intros v. do 5 (destruct v as [|v]; [reflexivity|]). destruct v; reflexivity.
    + do 4 eexists. do 4 (split; [vm_compute; reflexivity|]). repeat split; reflexivity.
  - do 2 eexists. do 2 (split; [vm_compute; reflexivity|]). repeat split; reflexivity.
Qed.
