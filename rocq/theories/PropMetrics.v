(** Properties of the graph metrics: C53, C60, C61, C62. *)
From Coq Require Import Lia.
From Verif Require Import Base ModelLil ModelVec ModelHelpers ModelViews ModelMul ModelElem
  ModelIndex ModelUtils ModelAlgoBase ModelSssp ModelMetrics Spec SpecOps SpecPaths SpecMetrics
  ProofLil ProofPaths ProofMetrics.

(** ** C53.  The results are the counts converted to the scalar type of the graph. *)
Theorem C53_vertex_degrees :
  forall (T : Type) (dflt : T) (ofcount : Z -> T) (tplus : T -> T -> T) (G : lil T) (N vid : nat),
    wfm G -> nrows G = N -> ncols G = N -> vid < N ->
    let into := vcount N (fun i => mget G i vid) in
    let out := vcount N (fun j => mget G vid j) in
    vertex_in_degree dflt ofcount G vid = Ok (ofcount (Z.of_nat into)) /\
    vertex_out_degree dflt ofcount G vid = Ok (ofcount (Z.of_nat out)) /\
    vertex_degree dflt ofcount tplus G vid =
      Ok (tplus (ofcount (Z.of_nat into)) (ofcount (Z.of_nat out))).
Proof.
  intros T dflt ofcount tplus G N vid W R C H into out. unfold vertex_degree.
  rewrite in_degree_ok by (auto; lia). rewrite out_degree_ok by (auto; lia).
  rewrite R. auto.
Qed.
Print Assumptions C53_vertex_degrees.

Theorem C53_vertex_degrees_exception :
  forall (T : Type) (dflt : T) (ofcount : Z -> T) (tplus : T -> T -> T) (G : lil T) (vid : nat),
    (ncols G <= vid -> vertex_in_degree dflt ofcount G vid = Throw DimensionException) /\
    (nrows G <= vid -> vertex_out_degree dflt ofcount G vid = Throw DimensionException) /\
    (nrows G = ncols G -> nrows G <= vid ->
     vertex_degree dflt ofcount tplus G vid = Throw DimensionException).
Proof.
  intros. unfold vertex_degree, vertex_in_degree, vertex_out_degree.
  split; [|split]; [intro H|intro H|intros E H].
  - destruct (Nat.leb_spec (ncols G) vid); [auto|lia].
  - destruct (Nat.leb_spec (nrows G) vid); [auto|lia].
  - destruct (Nat.leb_spec (ncols G) vid); [auto|lia].
Qed.
Print Assumptions C53_vertex_degrees_exception.

Definition em_G : lil Z :=
  mkLil 3 3 4%Z [[(1, 7%Z); (2, 0%Z)]; []; [(0, 5%Z); (2, 1%Z)]].
Example C53_example :
  wfm em_G /\ vertex_in_degree 0%Z idc em_G 2 = Ok 2%Z /\ vertex_out_degree 0%Z idc em_G 0 = Ok 2%Z /\
  vertex_degree 0%Z idc Z.add em_G 0 = Ok 3%Z.
Proof. split; [repeat split; try reflexivity; repeat constructor|]. repeat split. Qed.

(** ** C62.  Graphs of any shape.  Stored elements beyond column [nrows] are not counted among
    the outgoing edges. *)
Theorem C62_degrees_any_shape_partial :
  forall (T : Type) (dflt : T) (ofcount : Z -> T) (G : lil T) (vid : nat),
    wfm G -> nrows G <> 0 ->
    (vid < ncols G ->
     vertex_in_degree dflt ofcount G vid =
       Ok (ofcount (Z.of_nat (vcount (nrows G) (fun i => mget G i vid))))) /\
    (vid < nrows G -> ncols G <= nrows G ->
     vertex_out_degree dflt ofcount G vid =
       Ok (ofcount (Z.of_nat (vcount (ncols G) (fun j => mget G vid j))))).
Proof.
  intros T dflt ofcount G vid W H. split; [intro; apply in_degree_ok; auto|].
  intros Hv Hc. rewrite out_degree_ok by auto. do 3 f_equal.
  apply vcount_more; auto. intros j Hj. apply mget_oob; auto.
Qed.
Print Assumptions C62_degrees_any_shape_partial.

Example C62_example :
  vertex_in_degree 0%Z idc (mkLil 1 2 2%Z [[(0, 4%Z); (1, 5%Z)]]) 1 = Ok 1%Z /\
  vertex_out_degree 0%Z idc (mkLil 2 1 1%Z [[]; [(0, 4%Z)]]) 1 = Ok 1%Z.
Proof. split; reflexivity. Qed.

(** A vertex with two outgoing edges has out-degree 1. *)
Theorem C62_out_degree_wide_refuted :
  exists (G : lil Z) (vid : nat),
    wfm G /\ vid < nrows G /\ vcount (ncols G) (fun j => mget G vid j) = 2 /\
    vertex_out_degree 0%Z idc G vid = Ok 1%Z.
Proof.
  exists (mkLil 1 2 2%Z [[(0, 4%Z); (1, 5%Z)]]), 0.
  split; [repeat split; try reflexivity; repeat constructor|]. repeat split; auto.
Qed.
Print Assumptions C62_out_degree_wide_refuted.

(** In a graph whose scalar type is [bool], a vertex with two incoming edges has in-degree
    [true], that is 1. *)
Theorem C62_degree_bool_refuted :
  exists (G : lil bool) (vid : nat),
    wfm G /\ nrows G = ncols G /\ vid < nrows G /\
    vcount (nrows G) (fun i => mget G i vid) = 2 /\
    vertex_in_degree false ztrue G vid = Ok true /\ ztrue 1 = true.
Proof.
  exists (mkLil 2 2 2%Z [[(0, true)]; [(0, true)]]), 0.
  split; [repeat split; try reflexivity; repeat constructor|].
  split; [reflexivity|]. split; [simpl; lia|]. repeat split.
Qed.
Print Assumptions C62_degree_bool_refuted.

(** ** C60.  Distances and the metrics derived from them. *)
Theorem C60_graph_distance :
  forall (G : lil Z) (result : bvec Z) (N sid : nat),
    wfm G -> nrows G = N -> ncols G = N -> sid < N -> no_negative_cycle (mget G) ->
    wfv0 result -> vsize result = N ->
    exists d, graph_distance G sid result = Ok d /\ wfv d /\ vsize d = N /\
      forall v x, vget d v = Some x <-> distance (mget G) sid v x.
Proof. exact graph_distance_ok. Qed.
Print Assumptions C60_graph_distance.

Theorem C60_graph_distance_matrix :
  forall (G result : lil Z) (N : nat),
    wfm G -> nrows G = N -> ncols G = N -> N <> 0 -> no_negative_cycle (mget G) ->
    nrows result = N -> ncols result = N ->
    exists d, graph_distance_matrix G result = Ok d /\ wfm d /\ nrows d = N /\ ncols d = N /\
      forall u v x, mget d u v = Some x <-> u < N /\ distance (mget G) u v x.
Proof. exact graph_distance_matrix_ok. Qed.
Print Assumptions C60_graph_distance_matrix.

Theorem C60_vertex_eccentricity :
  forall (lowest : Z) (G : lil Z) (N vid : nat),
    wfm G -> nrows G = N -> ncols G = N -> vid < N -> no_negative_cycle (mget G) ->
    exists e, vertex_eccentricity lowest G vid = Ok e /\ eccentricity (mget G) vid e.
Proof. exact vertex_eccentricity_ok. Qed.
Print Assumptions C60_vertex_eccentricity.

Theorem C60_graph_radius :
  forall (highest : Z) (G : lil Z) (N : nat),
    wfm G -> nrows G = N -> ncols G = N -> N <> 0 -> no_negative_cycle (mget G) ->
    exists r, graph_radius highest G = Ok r /\ radius (mget G) N r.
Proof. exact graph_radius_ok. Qed.
Print Assumptions C60_graph_radius.

(** The identity of the maximum is not positive in any of the scalar types. *)
Theorem C60_graph_diameter :
  forall (lowest : Z) (G : lil Z) (N : nat),
    (lowest <= 0)%Z ->
    wfm G -> nrows G = N -> ncols G = N -> N <> 0 -> no_negative_cycle (mget G) ->
    exists d, graph_diameter lowest G = Ok d /\ diameter (mget G) N d.
Proof. exact graph_diameter_ok. Qed.
Print Assumptions C60_graph_diameter.

Theorem C60_dimension_exceptions :
  forall (lowest highest : Z) (G : lil Z) (v : nat) (r : bvec Z) (R : lil Z),
    (nrows G <> ncols G \/ nrows G <> vsize r -> graph_distance G v r = Throw DimensionException) /\
    (nrows G <> ncols G \/ nrows R <> nrows G \/ ncols R <> ncols G ->
     graph_distance_matrix G R = Throw DimensionException) /\
    (nrows G <> ncols G ->
     vertex_eccentricity lowest G v = Throw DimensionException /\
     graph_radius highest G = Throw DimensionException /\
     graph_diameter lowest G = Throw DimensionException).
Proof.
  intros lowest highest G v r R.
  unfold graph_distance, graph_distance_matrix, vertex_eccentricity, graph_radius, graph_diameter,
    graph_distance_matrix.
  split; [|split]; intro H.
  - destruct (Nat.eqb_spec (nrows G) (ncols G)), (Nat.eqb_spec (nrows G) (vsize r)); simpl; auto; lia.
  - destruct (Nat.eqb_spec (nrows G) (ncols G)), (Nat.eqb_spec (nrows R) (nrows G)),
      (Nat.eqb_spec (ncols R) (ncols G)); simpl; auto; lia.
  - destruct (Nat.eqb_spec (nrows G) (ncols G)); [lia|]. simpl. auto.
Qed.
Print Assumptions C60_dimension_exceptions.

(** 0 -4-> 1, 0 -2-> 2, 2 -(-1)-> 1, 1 -0-> 3, 3 -2-> 0. *)
Definition em_H : lil Z :=
  mkLil 4 4 5%Z [[(1, 4%Z); (2, 2%Z)]; [(3, 0%Z)]; [(1, (-1)%Z)]; [(0, 2%Z)]].
Lemma em_H_cycles : no_negative_cycle (mget em_H).
Proof.
  (* with the potential 0, 1, 2, 1 every edge has a cost that is not negative *)
  intros v k c Hw. set (h := fun u => nth u [0; 1; 2; 1]%Z 0%Z).
  enough (K : forall u v k c, wwalk (mget em_H) u v k c -> (h v <= h u + c)%Z).
  { specialize (K v v k c Hw). lia. }
  clear. intros u v k c Hw. induction Hw; [lia|].
  assert (B : v < 4).
  { destruct (Nat.lt_ge_cases v 4); auto. rewrite mget_oob in H; [discriminate| |simpl; lia].
    repeat split; try reflexivity; repeat constructor. }
  assert (Bt : t < 4).
  { destruct (Nat.lt_ge_cases t 4); auto. rewrite mget_oob in H; [discriminate| |simpl; lia].
    repeat split; try reflexivity; repeat constructor. }
  do 4 (destruct v as [|v]; [do 4 (destruct t as [|t];
    [vm_compute in H; try discriminate H; injection H as <-; unfold h in *; simpl in *; lia|]); lia|]).
  lia.
Qed.
Example C60_example :
  wfm em_H /\ no_negative_cycle (mget em_H) /\
  vertex_eccentricity (-100) em_H 1 = Ok 4%Z /\ graph_radius 100 em_H = Ok 1%Z /\
  graph_diameter (-100) em_H = Ok 4%Z /\
  (d <- graph_distance em_H 3 (mkVec 4 1%Z [0; 9; 0; 0]%Z [false; true; false; false]) ;;
   Ok (map (vget d) (seq 0 4))) = Ok [Some 2; Some 3; Some 4; Some 0]%Z.
Proof.
  split; [repeat split; try reflexivity; repeat constructor|]. split; [exact em_H_cycles|].
  repeat split; vm_compute; reflexivity.
Qed.

(** ** C61.  [closeness_centrality] returns the sum of the distances from the vertex. *)
Theorem C61_closeness_centrality_partial :
  forall (G : lil Z) (D : nat -> option Z) (N vid : nat),
    wfm G -> nrows G = N -> ncols G = N -> vid < N -> no_negative_cycle (mget G) ->
    (forall v x, D v = Some x <-> distance (mget G) vid v x) ->
    closeness_centrality G vid = Ok (sum_values N D).
Proof. exact closeness_ok. Qed.
Print Assumptions C61_closeness_centrality_partial.

Example C61_example :
  closeness_centrality em_H 3 = Ok 9%Z /\
  sum_values 4 (fun v => nth v [Some 2; Some 3; Some 4; Some 0] None)%Z = 9%Z.
Proof. split; vm_compute; reflexivity. Qed.

(** It is documented to return the inverse of the sum of the distances to the vertex: here that
    sum is 3, and the result is 2. *)
Theorem C61_closeness_centrality_refuted :
  exists (G : lil Z) (vid : nat) (F : nat -> option Z) (c : Z),
    wfm G /\ nrows G = ncols G /\ no_negative_cycle (mget G) /\
    (forall u x, F u = Some x <-> u < nrows G /\ distance (mget G) u vid x) /\
    closeness_centrality G vid = Ok c /\
    c <> sum_values (nrows G) F /\ (c * sum_values (nrows G) F <> 1)%Z.
Proof.
  set (G := mkLil 2 2 2%Z [[(1, 2%Z)]; [(0, 3%Z)]]).
  assert (W : wfm G) by (repeat split; try reflexivity; repeat constructor).
  assert (P : no_negative_cycle (mget G)).
  { intros v k c Hw. enough (K : forall u v k c, wwalk (mget G) u v k c -> (0 <= c)%Z) by eauto.
    clear v k c Hw. intros u v k c Hw. induction Hw; [lia|]. enough (0 <= g)%Z by lia.
    destruct v as [|[|v]]; [| |rewrite mget_oob in H; [discriminate|auto|simpl; lia]];
      (destruct t as [|[|t]]; [| |rewrite mget_oob in H; [discriminate|auto|simpl; lia]]);
      vm_compute in H; try discriminate; injection H as <-; lia. }
  destruct (graph_distance_matrix_ok G (lil_new 2 2) 2) as (d & E & Wd & Rd & Cd & H); auto.
  vm_compute in E. injection E as E. subst d.
  match type of H with forall u v x, mget ?d u v = _ <-> _ =>
    exists G, 0, (fun u => mget d u 0), 2%Z end.
  split; [auto|]. split; [auto|]. split; [auto|]. split; [intros; apply H|].
  split; [vm_compute; reflexivity|]. split; vm_compute; discriminate.
Qed.
Print Assumptions C61_closeness_centrality_refuted.
