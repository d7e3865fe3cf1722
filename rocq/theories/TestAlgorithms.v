(** The tests of the algorithms, /repo/src/test/test_{apsp,sssp,bfs,metrics,triangle_count,k_truss,mst,
    maxflow,mis,bc,page_rank,cluster,cluster_louvain}.cpp, run on the model.  Integral values of the
    tests of type [double] are integers here, other values rational numbers.  A loop gets [fuel]
    tests of its condition.  Not here: [markov_cluster], whose fractions double in size with every
    iteration. *)
From Coq Require Import QArith Qabs Qcanon.
From Verif Require Import Base ModelLil ModelVec ModelHelpers ModelViews ModelMul ModelElem
  ModelIndex ModelUtils ModelAlgoBase ModelSssp ModelDelta ModelBfs ModelMetrics ModelTriangle
  ModelTruss ModelMst ModelFlow ModelPush ModelMis ModelBc ModelRank ModelCluster ModelLouvain.
Local Open Scope nat_scope.

Definition fuel : nat := 1000.
Definition test (r : res bool) : bool := match r with Ok b => b | _ => false end.
Definition ended {X : Type} (r : res (option X)) : res X :=
  o <- r ;; match o with Some x => Ok x | None => UB end.
Definition zbuild (r c : nat) (ts : list (nat * nat * Z)) : res (lil Z) :=
  build_or_throw (lil_new r c) ts.
Definition same_m {T : Type} (eqb : T -> T -> bool) (A B : lil T) : bool := lil_eqb eqb A B.
Definition root {T : Type} (dflt : T) (n i : nat) (x : T) : res (bvec T) :=
  w <- vec_new dflt n ;; vec_setElement w i x.
(** A vector against a list of the expected elements. *)
Definition vec_is {T : Type} (eqb : T -> T -> bool) (w : bvec T) (l : list (option T)) : res bool :=
  if negb (vsize w =? length l) then Ok false
  else
    mfor (combine (seq 0 (length l)) l) (fun '(i, o) b =>
      h <- vec_hasElement w i ;;
      match o, h with
      | None, false => Ok b
      | Some x, true => y <- vec_extractElement w i ;; Ok (b && eqb x y)
      | _, _ => Ok false
      end) true.
(** A row of a matrix against a list of the expected elements. *)
Definition row_is {T : Type} (eqb : T -> T -> bool) (A : lil T) (r : nat) (l : list (option T)) : res bool :=
  if negb (ncols A =? length l) then Ok false
  else
    mfor (combine (seq 0 (length l)) l) (fun '(i, o) b =>
      h <- lil_hasElement A r i ;;
      match o, h with
      | None, false => Ok b
      | Some x, true => y <- lil_extractElement A r i ;; Ok (b && eqb x y)
      | _, _ => Ok false
      end) true.
Definition rows_are {T : Type} (eqb : T -> T -> bool) (A : lil T) (d : list (list (option T))) : res bool :=
  if negb (nrows A =? length d) then Ok false
  else mfor (combine (seq 0 (length d)) d) (fun '(r, l) b => c <- row_is eqb A r l ;; Ok (b && c)) true.
Definition somes {T : Type} (l : list T) : list (option T) := map Some l.
(** [BOOST_CHECK_CLOSE(x, y, percent)] *)
Definition close (percent : Q) (x : Qc) (y : Q) : bool :=
  let d := Qabs (this x - y)%Q in
  Qle_bool d (percent / 100 * Qabs y)%Q && Qle_bool d (percent / 100 * Qabs (this x))%Q.
Definition all_close (percent : Q) (l : list Qc) (a : list Q) : bool :=
  (length l =? length a) && forallb (fun '(x, y) => close percent x y) (combine l a).
Definition zc : Z -> Qc := fun z => Q2Qc (inject_Z z).
Definition znz (z : Z) : bool := negb (z =? 0)%Z.

(** The graphs of the "tech note" and of Gilbert, used by many tests. *)

Definition g_tn : res (lil Z) := zbuild 9 9
  [(0, 3, 1%Z); (1, 3, 1%Z); (1, 6, 1%Z); (2, 4, 1%Z); (2, 5, 1%Z); (2, 6, 1%Z); (2, 8, 1%Z);
  (3, 0, 1%Z); (3, 1, 1%Z); (3, 4, 1%Z); (3, 6, 1%Z); (4, 2, 1%Z); (4, 3, 1%Z); (4, 8, 1%Z);
  (5, 2, 1%Z); (6, 1, 1%Z); (6, 2, 1%Z); (6, 3, 1%Z); (8, 2, 1%Z); (8, 4, 1%Z)].

Definition g_gilbert : res (lil Z) := zbuild 7 7
  [(0, 1, 1%Z); (0, 3, 1%Z); (1, 4, 1%Z); (1, 6, 1%Z); (2, 5, 1%Z); (3, 0, 1%Z); (3, 2, 1%Z);
  (4, 5, 1%Z); (5, 2, 1%Z); (6, 2, 1%Z); (6, 3, 1%Z); (6, 4, 1%Z)].

(** test_sssp.cpp:51-85 and 87-115: the distances. *)

Definition tn_distances : list (list (option Z)) :=
  [[Some 0; Some 2; Some 3; Some 1; Some 2; Some 4; Some 2; None; Some 3];
   [Some 2; Some 0; Some 2; Some 1; Some 2; Some 3; Some 1; None; Some 3];
   [Some 3; Some 2; Some 0; Some 2; Some 1; Some 1; Some 1; None; Some 1];
   [Some 1; Some 1; Some 2; Some 0; Some 1; Some 3; Some 1; None; Some 2];
   [Some 2; Some 2; Some 1; Some 1; Some 0; Some 2; Some 2; None; Some 1];
   [Some 4; Some 3; Some 1; Some 3; Some 2; Some 0; Some 2; None; Some 2];
   [Some 2; Some 1; Some 1; Some 1; Some 2; Some 2; Some 0; None; Some 2];
   [None; None; None; None; None; None; None; Some 0; None];
   [Some 3; Some 3; Some 1; Some 2; Some 1; Some 2; Some 2; None; Some 0]]%Z.

Definition gilbert_distances : list (list (option Z)) :=
  [[Some 0; Some 1; Some 2; Some 1; Some 2; Some 3; Some 2];
   [Some 3; Some 0; Some 2; Some 2; Some 1; Some 2; Some 1];
   [None; None; Some 0; None; None; Some 1; None];
   [Some 1; Some 2; Some 1; Some 0; Some 3; Some 2; Some 3];
   [None; None; Some 2; None; Some 0; Some 1; None];
   [None; None; Some 1; None; None; Some 0; None];
   [Some 2; Some 3; Some 1; Some 1; Some 1; Some 2; Some 0]]%Z.

(** test_apsp.cpp:119-154 *)
Example apsp_basic :
 test (G <- g_tn ;;
  D <- apsp G ;;
  rows_are Z.eqb D tn_distances) = true.
Proof. vm_compute. reflexivity. Qed.

(** test_apsp.cpp:157-218 *)
Example apsp_gilbert :
 test (G <- g_gilbert ;;
  D <- apsp G ;;
  rows_are Z.eqb D gilbert_distances) = true.
Proof. vm_compute. reflexivity. Qed.

Definition g_negative : res (lil Z) := zbuild 4 4
  [(0, 1, 1%Z); (3, 1, (-5)%Z); (1, 2, 1%Z); (2, 3, 3%Z)].

Definition g_negative_f : res (lil Z) := zbuild 4 4
  [(0, 1, 1%Z); (3, 1, (-5)%Z); (1, 2, 1%Z); (2, 3, 2%Z)].

Definition g_mincost : res (lil Z) := zbuild 4 4
  [(0, 1, 1%Z); (0, 3, 5%Z); (1, 2, 1%Z); (2, 3, 1%Z)].

Definition g_mincost2 : res (lil Z) := zbuild 4 4
  [(0, 1, 1%Z); (0, 3, 2%Z); (1, 2, 1%Z); (2, 3, 1%Z)].

(** test_sssp.cpp:119-134, 155-170 *)
Example sssp_negative_cycle_detection :
 test (G <- g_negative ;;
  d <- root 0%Z 4 0 0%Z ;;
  r <- sssp G d ;;
  Ok (negb (fst r))) = true.
Proof. vm_compute. reflexivity. Qed.

(** test_sssp.cpp:119-134, 155-170 *)
Example filtered_sssp_negative_cycle_detection :
 test (G <- g_negative_f ;;
  d <- root 0%Z 4 0 0%Z ;;
  r <- filtered_sssp G d ;;
  Ok (negb (fst r))) = true.
Proof. vm_compute. reflexivity. Qed.

(** test_sssp.cpp:137-152 *)
Example batch_sssp_negative_cycle_detection :
 test (G <- g_negative ;;
  D <- scaled_identity 4 0%Z ;;
  r <- batch_sssp G D ;;
  Ok (negb (fst r))) = true.
Proof. vm_compute. reflexivity. Qed.

(** test_sssp.cpp:173-216, 342-385 *)
Example sssp_basic_mincost_one_root :
 test (G <- g_mincost ;;
  d <- root 0%Z 4 0 0%Z ;;
  r <- sssp G d ;;
  b <- vec_is Z.eqb (snd r) (somes [0; 1; 2; 3]%Z) ;;
  Ok (fst r && b)) = true.
Proof. vm_compute. reflexivity. Qed.

(** test_sssp.cpp:173-216, 342-385 *)
Example sssp_basic_mincost2_one_root :
 test (G <- g_mincost2 ;;
  d <- root 0%Z 4 0 0%Z ;;
  r <- sssp G d ;;
  b <- vec_is Z.eqb (snd r) (somes [0; 1; 2; 2]%Z) ;;
  Ok (fst r && b)) = true.
Proof. vm_compute. reflexivity. Qed.

(** test_sssp.cpp:220-253, 388-421 *)
Example sssp_basic_one_root :
 test (G <- g_tn ;;
  d <- root 0%Z 9 3 0%Z ;;
  r <- sssp G d ;;
  b <- vec_is Z.eqb (snd r) (nth 3 tn_distances []) ;;
  Ok (fst r && b)) = true.
Proof. vm_compute. reflexivity. Qed.

(** test_sssp.cpp:173-216, 342-385 *)
Example filtered_sssp_basic_mincost_one_root :
 test (G <- g_mincost ;;
  d <- root 0%Z 4 0 0%Z ;;
  r <- filtered_sssp G d ;;
  b <- vec_is Z.eqb (snd r) (somes [0; 1; 2; 3]%Z) ;;
  Ok (fst r && b)) = true.
Proof. vm_compute. reflexivity. Qed.

(** test_sssp.cpp:173-216, 342-385 *)
Example filtered_sssp_basic_mincost2_one_root :
 test (G <- g_mincost2 ;;
  d <- root 0%Z 4 0 0%Z ;;
  r <- filtered_sssp G d ;;
  b <- vec_is Z.eqb (snd r) (somes [0; 1; 2; 2]%Z) ;;
  Ok (fst r && b)) = true.
Proof. vm_compute. reflexivity. Qed.

(** test_sssp.cpp:220-253, 388-421 *)
Example filtered_sssp_basic_one_root :
 test (G <- g_tn ;;
  d <- root 0%Z 9 3 0%Z ;;
  r <- filtered_sssp G d ;;
  b <- vec_is Z.eqb (snd r) (nth 3 tn_distances []) ;;
  Ok (fst r && b)) = true.
Proof. vm_compute. reflexivity. Qed.

(** test_sssp.cpp:256-339 *)
Example batch_sssp_basic_tn :
 test (G <- g_tn ;;
  D <- scaled_identity 9 0%Z ;;
  r <- batch_sssp G D ;;
  b <- rows_are Z.eqb (snd r) tn_distances ;;
  Ok (fst r && b)) = true.
Proof. vm_compute. reflexivity. Qed.

(** test_sssp.cpp:256-339 *)
Example batch_sssp_basic_gilbert :
 test (G <- g_gilbert ;;
  D <- scaled_identity 7 0%Z ;;
  r <- batch_sssp G D ;;
  b <- rows_are Z.eqb (snd r) gilbert_distances ;;
  Ok (fst r && b)) = true.
Proof. vm_compute. reflexivity. Qed.

Definition g_marcin : res (lil Z) := zbuild 8 8
  [(0, 1, 7%Z); (0, 2, 1%Z); (1, 0, 7%Z); (1, 5, 1%Z); (1, 6, 1%Z); (2, 0, 1%Z); (2, 3, 1%Z);
  (3, 2, 1%Z); (3, 4, 1%Z); (4, 3, 1%Z); (4, 5, 1%Z); (5, 1, 1%Z); (5, 4, 1%Z); (5, 7, 1%Z);
  (6, 1, 1%Z); (6, 7, 1%Z); (7, 5, 1%Z); (7, 6, 1%Z)].

(** test_sssp.cpp:424-454 *)
Example filtered_sssp_marcin :
 test (G <- g_marcin ;;
  d <- root 0%Z 8 0 0%Z ;;
  r <- filtered_sssp G d ;;
  vec_is Z.eqb (snd r) (somes [0; 5; 1; 2; 3; 4; 6; 5]%Z)) = true.
Proof. vm_compute. reflexivity. Qed.

Definition g_gilbert_w : res (lil Z) := zbuild 7 7
  [(0, 1, 1%Z); (0, 3, 3%Z); (1, 4, 1%Z); (1, 6, 3%Z); (2, 5, 1%Z); (3, 0, 3%Z); (3, 2, 1%Z);
  (4, 5, 3%Z); (5, 2, 1%Z); (6, 2, 3%Z); (6, 3, 1%Z); (6, 4, 3%Z)].

(** test_sssp.cpp:457-474 *)
Example sssp_delta2_step_gilbert :
 test (G <- g_gilbert_w ;;
  d <- vec_new 0%Z 7 ;;
  d <- ended (sssp_delta_step fuel G 2 3 d) ;;
  vec_is Z.eqb d (somes [3; 4; 1; 0; 5; 2; 7]%Z)) = true.
Proof. vm_compute. reflexivity. Qed.

(** test_sssp.cpp:477-518 *)
Example sssp_delta_step_marcin :
 test (G <- g_marcin ;;
  mfor [2; 7; 8; 9; 10]%Z (fun delta b =>
    d <- vec_new 0%Z 8 ;;
    d <- ended (sssp_delta_step fuel G delta 0 d) ;;
    c <- vec_is Z.eqb d (somes [0; 5; 1; 2; 3; 4; 6; 5]%Z) ;;
    Ok (b && c)) true) = true.
Proof. vm_compute. reflexivity. Qed.

(** test_bfs.cpp:51-64 and 110-122: the parents. *)

Definition tn_parents : list (list (option nat)) :=
  [[Some 0; Some 3; Some 4; Some 0; Some 3; Some 2; Some 3; None; Some 4];
   [Some 3; Some 1; Some 6; Some 1; Some 3; Some 2; Some 1; None; Some 2];
   [Some 3; Some 6; Some 2; Some 4; Some 2; Some 2; Some 2; None; Some 2];
   [Some 3; Some 3; Some 4; Some 3; Some 3; Some 2; Some 3; None; Some 4];
   [Some 3; Some 3; Some 4; Some 4; Some 4; Some 2; Some 2; None; Some 4];
   [Some 3; Some 6; Some 5; Some 4; Some 2; Some 5; Some 2; None; Some 2];
   [Some 3; Some 6; Some 6; Some 6; Some 2; Some 2; Some 6; None; Some 2];
   [None; None; None; None; None; None; None; Some 7; None];
   [Some 3; Some 3; Some 8; Some 4; Some 8; Some 2; Some 2; None; Some 8]].

Definition gilbert_parents : list (list (option nat)) :=
  [[Some 0; Some 0; Some 3; Some 0; Some 1; Some 2; Some 1];
   [Some 3; Some 1; Some 6; Some 6; Some 1; Some 4; Some 1];
   [None; None; Some 2; None; None; Some 2; None];
   [Some 3; Some 0; Some 3; Some 3; Some 1; Some 2; Some 1];
   [None; None; Some 5; None; Some 4; Some 4; None];
   [None; None; Some 5; None; None; Some 5; None];
   [Some 3; Some 0; Some 6; Some 6; Some 6; Some 2; Some 6]].

(** test_bfs.cpp:145-179 *)
Example bfs_test_basic_one_root_source_index :
 test (G <- g_tn ;;
  p <- vec_new 0 9 ;;
  p <- ended (bfs fuel G 5 p) ;;
  vec_is Nat.eqb p (nth 5 tn_parents [])) = true.
Proof. vm_compute. reflexivity. Qed.

(** test_bfs.cpp:182-219 *)
Example bfs_test_basic_one_root :
 test (G <- g_tn ;;
  w <- root 0 9 5 0 ;;
  p <- vec_new 0 9 ;;
  p <- ended (bfs_w Z.of_nat Z.to_nat Z.min Z.add fuel G w p) ;;
  vec_is Nat.eqb p (nth 5 tn_parents [])) = true.
Proof. vm_compute. reflexivity. Qed.

(** test_bfs.cpp:222-299 *)
Example bfs_batch_test_basic_one_root :
 test (G <- g_tn ;;
  W <- lil_setElement (lil_new 1 9) 0 5 0 ;;
  P <- ended (bfs_batch Z.of_nat Z.to_nat Z.min Z.add fuel G W (lil_new 1 9)) ;;
  row_is Nat.eqb P 0 (nth 5 tn_parents [])) = true.
Proof. vm_compute. reflexivity. Qed.

(** test_bfs.cpp:302-399 *)
Example bfs_batch_test_tn :
 test (G <- g_tn ;;
  W <- scaled_identity 9 1 ;;
  P <- ended (bfs_batch Z.of_nat Z.to_nat Z.min Z.add fuel G W (lil_new 9 9)) ;;
  rows_are Nat.eqb P tn_parents) = true.
Proof. vm_compute. reflexivity. Qed.

(** test_bfs.cpp:302-399 *)
Example bfs_batch_test_gilbert :
 test (G <- g_gilbert ;;
  W <- scaled_identity 7 1 ;;
  P <- ended (bfs_batch Z.of_nat Z.to_nat Z.min Z.add fuel G W (lil_new 7 7)) ;;
  rows_are Nat.eqb P gilbert_parents) = true.
Proof. vm_compute. reflexivity. Qed.

(** test_bfs.cpp:402-436 *)
Example bfs_level_test_one_root_source :
 test (G <- g_tn ;;
  l <- vec_new 0 9 ;;
  l <- ended (bfs_level znz fuel G 5 l) ;;
  vec_is Nat.eqb l [Some 5; Some 4; Some 2; Some 4; Some 3; Some 1; Some 3; None; Some 3]) = true.
Proof. vm_compute. reflexivity. Qed.

(** test_bfs.cpp:518-595, 676-753 *)
Example bfs_level_masked_test_one_root :
 test (G <- g_tn ;;
  w <- root 0 9 5 1 ;;
  l <- vec_new 0 9 ;;
  l <- ended (bfs_level_masked znz fuel G w l) ;;
  vec_is Nat.eqb l [Some 5; Some 4; Some 2; Some 4; Some 3; Some 1; Some 3; None; Some 3]) = true.
Proof. vm_compute. reflexivity. Qed.

(** test_bfs.cpp:518-595, 676-753 *)
Example bfs_level_masked_v2_test_one_root :
 test (G <- g_tn ;;
  w <- root 0 9 5 1 ;;
  l <- vec_new 0 9 ;;
  l <- ended (bfs_level_masked_v2 znz fuel G w l) ;;
  vec_is Nat.eqb l [Some 5; Some 4; Some 2; Some 4; Some 3; Some 1; Some 3; None; Some 3]) = true.
Proof. vm_compute. reflexivity. Qed.

(** test_bfs.cpp:439-515, 598-673 *)
Example bfs_level_m_test_one_root :
 test (G <- g_tn ;;
  W <- lil_setElement (lil_new 1 9) 0 5 1 ;;
  L <- ended (bfs_level_m znz fuel G W (lil_new 1 9)) ;;
  row_is Nat.eqb L 0 [Some 5; Some 4; Some 2; Some 4; Some 3; Some 1; Some 3; None; Some 3]) = true.
Proof. vm_compute. reflexivity. Qed.

(** test_bfs.cpp:439-515, 598-673 *)
Example batch_bfs_level_masked_test_one_root :
 test (G <- g_tn ;;
  W <- lil_setElement (lil_new 1 9) 0 5 1 ;;
  L <- ended (batch_bfs_level_masked znz fuel G W (lil_new 1 9)) ;;
  row_is Nat.eqb L 0 [Some 5; Some 4; Some 2; Some 4; Some 3; Some 1; Some 3; None; Some 3]) = true.
Proof. vm_compute. reflexivity. Qed.

Definition g_5x5 : res (lil Z) := zbuild 5 5
  [(0, 1, 1%Z); (0, 2, 1%Z); (1, 0, 1%Z); (1, 2, 1%Z); (2, 0, 1%Z); (2, 1, 1%Z); (2, 3, 1%Z);
  (2, 4, 1%Z); (3, 2, 1%Z); (3, 4, 1%Z); (4, 2, 1%Z); (4, 3, 1%Z)].

(** test_metrics.cpp:81-105 *)
Example metrics_test_vertex_in_degree :
 test (G <- g_tn ;;
  r <- vertex_in_degree 0%Z (fun z => z) G 1 ;;
  Ok (r =? 2)%Z) = true.
Proof. vm_compute. reflexivity. Qed.

(** test_metrics.cpp:81-105 *)
Example metrics_test_vertex_out_degree :
 test (G <- g_tn ;;
  r <- vertex_out_degree 0%Z (fun z => z) G 2 ;;
  Ok (r =? 4)%Z) = true.
Proof. vm_compute. reflexivity. Qed.

(** test_metrics.cpp:81-105 *)
Example metrics_test_vertex_degree :
 test (G <- g_tn ;;
  r <- vertex_degree 0%Z (fun z => z) Z.add G 0 ;;
  Ok (r =? 2)%Z) = true.
Proof. vm_compute. reflexivity. Qed.

(** test_metrics.cpp:108-125 *)
Example metrics_test_graph_distance :
 test (G <- g_5x5 ;;
  d <- vec_new 0%Z 5 ;;
  d <- graph_distance G 2 d ;;
  vec_is Z.eqb d (somes [1; 1; 0; 1; 1]%Z)) = true.
Proof. vm_compute. reflexivity. Qed.

(** test_metrics.cpp:128-155 *)
Example metrics_test_graph_distance_matrix :
 test (G <- g_5x5 ;;
  D <- graph_distance_matrix G (lil_new 5 5) ;;
  rows_are Z.eqb D (map somes [[0; 1; 1; 2; 2]; [1; 0; 1; 2; 2]; [1; 1; 0; 1; 1];
    [2; 2; 1; 0; 1]; [2; 2; 1; 1; 0]]%Z)) = true.
Proof. vm_compute. reflexivity. Qed.

(** test_metrics.cpp:158-193, with an upper bound of all values for the largest one *)
Example metrics_test_eccentricity_radius_diameter_closeness :
 test (G <- g_5x5 ;;
  e2 <- vertex_eccentricity (-1000) G 2 ;;
  e1 <- vertex_eccentricity (-1000) G 1 ;;
  r <- graph_radius 1000 G ;;
  d <- graph_diameter (-1000) G ;;
  c <- closeness_centrality G 2 ;;
  Ok ((e2 =? 1) && (e1 =? 2) && (r =? 1) && (d =? 2) && (c =? 4))%Z) = true.
Proof. vm_compute. reflexivity. Qed.

Definition g_triangle : res (lil Z) := zbuild 5 5
  [(0, 1, 1%Z); (0, 2, 1%Z); (0, 3, 1%Z); (1, 0, 1%Z); (1, 2, 1%Z); (1, 4, 1%Z); (2, 0, 1%Z);
  (2, 1, 1%Z); (2, 3, 1%Z); (2, 4, 1%Z); (3, 0, 1%Z); (3, 2, 1%Z); (3, 4, 1%Z); (4, 1, 1%Z);
  (4, 2, 1%Z); (4, 3, 1%Z)].

(** test_triangle_count.cpp:88-175 *)
Example test_triangle_counts :
 test (G <- g_triangle ;;
  LU <- split G (lil_new 5 5) (lil_new 5 5) ;;
  let (L, U) := LU : lil Z * lil Z in
  a <- triangle_count G ;;
  b <- triangle_count_masked L ;;
  c <- triangle_count_masked_noT L ;;
  d <- triangle_count_newGBTL (Mat L) U ;;
  Ok ((a =? 4) && (b =? 4) && (c =? 4) && (d =? 4))%Z) = true.
Proof. vm_compute. reflexivity. Qed.

Definition e_basic : res (lil Z) := zbuild 6 5
  [(0, 0, 1%Z); (1, 1, 1%Z); (2, 0, 1%Z); (3, 2, 1%Z); (4, 0, 1%Z); (5, 1, 1%Z); (0, 1, 1%Z);
  (1, 2, 1%Z); (2, 3, 1%Z); (3, 3, 1%Z); (4, 2, 1%Z); (5, 4, 1%Z)].

Definition e_test2 : res (lil Z) := zbuild 20 12
  [(0, 0, 1%Z); (0, 1, 1%Z); (1, 0, 1%Z); (1, 5, 1%Z); (2, 0, 1%Z); (2, 6, 1%Z); (3, 0, 1%Z);
  (3, 9, 1%Z); (4, 1, 1%Z); (4, 2, 1%Z); (5, 1, 1%Z); (5, 4, 1%Z); (6, 2, 1%Z); (6, 3, 1%Z);
  (7, 2, 1%Z); (7, 4, 1%Z); (8, 3, 1%Z); (8, 7, 1%Z); (9, 3, 1%Z); (9, 8, 1%Z); (10, 3, 1%Z);
  (10, 10, 1%Z); (11, 4, 1%Z); (11, 6, 1%Z); (12, 4, 1%Z); (12, 7, 1%Z); (13, 5, 1%Z); (13, 9,
  1%Z); (14, 6, 1%Z); (14, 9, 1%Z); (15, 7, 1%Z); (15, 8, 1%Z); (16, 7, 1%Z); (16, 10, 1%Z);
  (17, 8, 1%Z); (17, 10, 1%Z); (18, 8, 1%Z); (18, 11, 1%Z); (19, 10, 1%Z); (19, 11, 1%Z)].

Definition e_pp1 : res (lil Z) := zbuild 5 5
  [(0, 0, 1%Z); (0, 1, 1%Z); (1, 1, 1%Z); (1, 2, 1%Z); (2, 0, 1%Z); (2, 2, 1%Z); (3, 0, 1%Z);
  (3, 3, 1%Z); (4, 3, 1%Z); (4, 4, 1%Z)].

Definition e_pp2 : res (lil Z) := zbuild 12 8
  [(0, 0, 1%Z); (0, 2, 1%Z); (1, 0, 1%Z); (1, 3, 1%Z); (2, 0, 1%Z); (2, 6, 1%Z); (3, 1, 1%Z);
  (3, 2, 1%Z); (4, 1, 1%Z); (4, 3, 1%Z); (5, 1, 1%Z); (5, 7, 1%Z); (6, 2, 1%Z); (6, 4, 1%Z);
  (7, 2, 1%Z); (7, 6, 1%Z); (8, 3, 1%Z); (8, 5, 1%Z); (9, 4, 1%Z); (9, 6, 1%Z); (10, 5, 1%Z);
  (10, 6, 1%Z); (11, 5, 1%Z); (11, 7, 1%Z)].

(** test_k_truss.cpp:51-78 *)
Example k_truss_test_basic :
 test (E <- e_basic ;;
  E3 <- ended (k_truss fuel E 3) ;;
  E4 <- ended (k_truss fuel E3 4) ;;
  Ok ((nrows E3 =? 5) && (ncols E3 =? 5) && (nrows E4 =? 0) && (ncols E4 =? 5))) = true.
Proof. vm_compute. reflexivity. Qed.

(** test_k_truss.cpp:73-75 *)
Example k_truss_test_basic_4 :
 test (E <- e_basic ;;
  E4 <- ended (k_truss fuel E 4) ;;
  Ok ((nrows E4 =? 0) && (ncols E4 =? 5))) = true.
Proof. vm_compute. reflexivity. Qed.

(** test_k_truss.cpp:81-150 *)
Example k_truss_test2 :
 test (E <- e_test2 ;;
  E3 <- ended (k_truss fuel E 3) ;;
  E4 <- ended (k_truss fuel E3 4) ;;
  E5 <- ended (k_truss fuel E4 5) ;;
  Ok ((nrows E3 =? 16) && (ncols E3 =? 12) && (nrows E4 =? 6) && (ncols E4 =? 12) && (nrows E5 =? 0) && (ncols E5 =? 12))) = true.
Proof. vm_compute. reflexivity. Qed.

(** test_k_truss.cpp:153-172 *)
Example k_truss_test_peer_pressure1 :
 test (E <- e_pp1 ;;
  E3 <- ended (k_truss fuel E 3) ;;
  E4 <- ended (k_truss fuel E3 4) ;;
  Ok ((nrows E3 =? 3) && (ncols E3 =? 5) && (nrows E4 =? 0) && (ncols E4 =? 5))) = true.
Proof. vm_compute. reflexivity. Qed.

(** test_k_truss.cpp:175-229 *)
Example k_truss_test_peer_pressure2 :
 test (E <- e_pp2 ;;
  E3 <- ended (k_truss fuel E 3) ;;
  E4 <- ended (k_truss fuel E3 4) ;;
  Ok ((nrows E3 =? 5) && (ncols E3 =? 8) && (nrows E4 =? 0) && (ncols E4 =? 8))) = true.
Proof. vm_compute. reflexivity. Qed.

Definition a_basic : res (lil Z) := zbuild 5 5
  [(0, 1, 1%Z); (1, 2, 1%Z); (0, 3, 1%Z); (2, 3, 1%Z); (0, 2, 1%Z); (1, 4, 1%Z); (1, 0, 1%Z);
  (2, 1, 1%Z); (3, 0, 1%Z); (3, 2, 1%Z); (2, 0, 1%Z); (4, 1, 1%Z)].

Definition a_test2 : res (lil Z) := zbuild 12 12
  [(0, 1, 1%Z); (0, 5, 1%Z); (0, 6, 1%Z); (0, 9, 1%Z); (1, 0, 1%Z); (1, 2, 1%Z); (1, 4, 1%Z);
  (2, 1, 1%Z); (2, 3, 1%Z); (2, 4, 1%Z); (3, 2, 1%Z); (3, 7, 1%Z); (3, 8, 1%Z); (3, 10, 1%Z);
  (4, 1, 1%Z); (4, 2, 1%Z); (4, 6, 1%Z); (4, 7, 1%Z); (5, 0, 1%Z); (5, 9, 1%Z); (6, 0, 1%Z);
  (6, 4, 1%Z); (6, 9, 1%Z); (7, 3, 1%Z); (7, 4, 1%Z); (7, 8, 1%Z); (7, 10, 1%Z); (8, 3, 1%Z);
  (8, 7, 1%Z); (8, 10, 1%Z); (8, 11, 1%Z); (9, 0, 1%Z); (9, 5, 1%Z); (9, 6, 1%Z); (10, 3, 1%Z);
  (10, 7, 1%Z); (10, 8, 1%Z); (10, 11, 1%Z); (11, 8, 1%Z); (11, 10, 1%Z)].

Definition a_pp1 : res (lil Z) := zbuild 5 5
  [(0, 1, 1%Z); (1, 0, 1%Z); (2, 1, 1%Z); (1, 2, 1%Z); (2, 0, 1%Z); (0, 2, 1%Z); (3, 0, 1%Z);
  (0, 3, 1%Z); (4, 3, 1%Z); (3, 4, 1%Z)].

Definition a_pp2 : res (lil Z) := zbuild 8 8
  [(0, 2, 1%Z); (2, 0, 1%Z); (0, 3, 1%Z); (3, 0, 1%Z); (0, 6, 1%Z); (6, 0, 1%Z); (1, 2, 1%Z);
  (2, 1, 1%Z); (1, 3, 1%Z); (3, 1, 1%Z); (1, 7, 1%Z); (7, 1, 1%Z); (2, 4, 1%Z); (4, 2, 1%Z);
  (2, 6, 1%Z); (6, 2, 1%Z); (3, 5, 1%Z); (5, 3, 1%Z); (4, 6, 1%Z); (6, 4, 1%Z); (5, 6, 1%Z);
  (6, 5, 1%Z); (5, 7, 1%Z); (7, 5, 1%Z)].

(** test_k_truss.cpp:232-257 *)
Example k_truss2_test_basic :
 test (A <- a_basic ;;
  A3 <- ended (k_truss2 fuel A 3) ;;
  A4 <- ended (k_truss2 fuel A3 4) ;;
  Ok ((nvals A3 =? 10)%Z && (nvals A4 =? 0)%Z)) = true.
Proof. vm_compute. reflexivity. Qed.

(** test_k_truss.cpp:253-254 *)
Example k_truss2_test_basic_4 :
 test (A <- a_basic ;;
  A4 <- ended (k_truss2 fuel A 4) ;;
  Ok ((nvals A4 =? 0)%Z)) = true.
Proof. vm_compute. reflexivity. Qed.

(** test_k_truss.cpp:260-308 *)
Example k_truss2_test2 :
 test (A <- a_test2 ;;
  A3 <- ended (k_truss2 fuel A 3) ;;
  A4 <- ended (k_truss2 fuel A3 4) ;;
  A5 <- ended (k_truss2 fuel A4 5) ;;
  Ok ((nvals A3 =? 32)%Z && (nvals A4 =? 12)%Z && (nvals A5 =? 0)%Z)) = true.
Proof. vm_compute. reflexivity. Qed.

(** test_k_truss.cpp:311-328 *)
Example k_truss2_test_peer_pressure1 :
 test (A <- a_pp1 ;;
  A3 <- ended (k_truss2 fuel A 3) ;;
  A4 <- ended (k_truss2 fuel A3 4) ;;
  Ok ((nvals A3 =? 6)%Z && (nvals A4 =? 0)%Z)) = true.
Proof. vm_compute. reflexivity. Qed.

(** test_k_truss.cpp:331-381 *)
Example k_truss2_test_peer_pressure2 :
 test (A <- a_pp2 ;;
  A3 <- ended (k_truss2 fuel A 3) ;;
  A4 <- ended (k_truss2 fuel A3 4) ;;
  Ok ((nvals A3 =? 10)%Z && (nvals A4 =? 0)%Z)) = true.
Proof. vm_compute. reflexivity. Qed.

Definition g_mst_one : res (lil Z) := zbuild 6 6
  [(0, 1, 1%Z); (0, 3, 1%Z); (0, 4, 1%Z); (1, 0, 1%Z); (1, 3, 1%Z); (1, 4, 1%Z); (2, 4, 1%Z);
  (2, 5, 1%Z); (3, 0, 1%Z); (3, 1, 1%Z); (3, 4, 1%Z); (4, 0, 1%Z); (4, 1, 1%Z); (4, 2, 1%Z);
  (4, 3, 1%Z); (4, 5, 1%Z); (5, 2, 1%Z); (5, 4, 1%Z)].

(** test_mst.cpp:51-141 *)
Example mst_test_with_weight_one :
 test (G <- g_mst_one ;;
  p <- vec_new 0 6 ;;
  r <- ended (mst fuel G p) ;;
  b <- vec_is Nat.eqb (snd r) (None :: somes [0; 4; 1; 3; 2]) ;;
  Ok ((fst r =? 5)%Z && b)) = true.
Proof. vm_compute. reflexivity. Qed.

Definition g_mst_various : res (lil Z) := zbuild 6 6
  [(0, 1, 2%Z); (0, 3, 2%Z); (0, 4, 1%Z); (1, 0, 2%Z); (1, 3, 2%Z); (1, 4, 1%Z); (2, 4, 1%Z);
  (2, 5, 2%Z); (3, 0, 2%Z); (3, 1, 2%Z); (3, 4, 1%Z); (4, 0, 1%Z); (4, 1, 1%Z); (4, 2, 1%Z);
  (4, 3, 1%Z); (4, 5, 1%Z); (5, 2, 2%Z); (5, 4, 1%Z)].

(** test_mst.cpp:51-141 *)
Example mst_test_with_weight_various :
 test (G <- g_mst_various ;;
  p <- vec_new 0 6 ;;
  r <- ended (mst fuel G p) ;;
  b <- vec_is Nat.eqb (snd r) (None :: somes [4; 4; 4; 0; 4]) ;;
  Ok ((fst r =? 5)%Z && b)) = true.
Proof. vm_compute. reflexivity. Qed.

Definition g_mst_weights : res (lil Z) := zbuild 9 9
  [(0, 1, 4%Z); (0, 7, 8%Z); (1, 0, 4%Z); (1, 2, 8%Z); (1, 7, 11%Z); (2, 1, 8%Z); (2, 3, 7%Z);
  (2, 5, 4%Z); (2, 8, 2%Z); (3, 2, 7%Z); (3, 4, 9%Z); (3, 5, 14%Z); (4, 3, 9%Z); (4, 5, 10%Z);
  (5, 2, 4%Z); (5, 3, 14%Z); (5, 4, 10%Z); (5, 6, 2%Z); (6, 5, 2%Z); (6, 7, 1%Z); (6, 8, 6%Z);
  (7, 0, 8%Z); (7, 1, 11%Z); (7, 6, 1%Z); (7, 8, 7%Z); (8, 2, 2%Z); (8, 6, 6%Z); (8, 7, 7%Z)].

(** test_mst.cpp:51-141 *)
Example mst_test_with_weights :
 test (G <- g_mst_weights ;;
  p <- vec_new 0 9 ;;
  r <- ended (mst fuel G p) ;;
  b <- vec_is Nat.eqb (snd r) (None :: somes [0; 1; 2; 3; 2; 5; 6; 2]) ;;
  Ok ((fst r =? 37)%Z && b)) = true.
Proof. vm_compute. reflexivity. Qed.

Definition g_maxflow_push_relabel_test : res (lil Z) := zbuild 6 6
  [(0, 1, 15%Z); (0, 3, 4%Z); (1, 2, 12%Z); (2, 3, 3%Z); (2, 5, 7%Z); (3, 4, 10%Z); (4, 1,
  5%Z); (4, 5, 10%Z)].

(** test_maxflow.cpp:50-171 *)
Example maxflow_push_relabel_test :
 test (G <- g_maxflow_push_relabel_test ;;
  r <- ended (maxflow_push_relabel 1000000 fuel G 0 5) ;;
  Ok (r =? 14)%Z) = true.
Proof. vm_compute. reflexivity. Qed.

Definition g_maxflow_push_relabel_test2 : res (lil Z) := zbuild 8 8
  [(0, 1, 10%Z); (0, 2, 5%Z); (0, 3, 15%Z); (1, 2, 4%Z); (1, 4, 9%Z); (1, 5, 15%Z); (2, 3,
  4%Z); (2, 5, 8%Z); (3, 6, 30%Z); (4, 5, 15%Z); (4, 7, 10%Z); (5, 6, 15%Z); (5, 7, 10%Z); (6,
  2, 6%Z); (6, 7, 10%Z)].

(** test_maxflow.cpp:50-171 *)
Example maxflow_push_relabel_test2 :
 test (G <- g_maxflow_push_relabel_test2 ;;
  r <- ended (maxflow_push_relabel 1000000 fuel G 0 7) ;;
  Ok (r =? 28)%Z) = true.
Proof. vm_compute. reflexivity. Qed.

Definition g_maxflow_ford_fulk_test : res (lil Z) := zbuild 6 6
  [(0, 1, 15%Z); (0, 3, 4%Z); (1, 2, 12%Z); (2, 3, 3%Z); (2, 5, 7%Z); (3, 4, 10%Z); (4, 1,
  5%Z); (4, 5, 10%Z)].

(** test_maxflow.cpp:50-171 *)
Example maxflow_ford_fulk_test :
 test (G <- g_maxflow_ford_fulk_test ;;
  r <- ended (maxflow_ford_fulk 1000000 fuel G 0 5) ;;
  Ok (r =? 14)%Z) = true.
Proof. vm_compute. reflexivity. Qed.

Definition g_maxflow_ford_fulk_test_counter_example : res (lil Z) := zbuild 7 7
  [(0, 1, 2%Z); (0, 2, 9%Z); (1, 6, 2%Z); (2, 3, 9%Z); (2, 4, 7%Z); (3, 5, 10%Z); (4, 5, 2%Z);
  (6, 3, 2%Z)].

(** test_maxflow.cpp:50-171 *)
Example maxflow_ford_fulk_test_counter_example :
 test (G <- g_maxflow_ford_fulk_test_counter_example ;;
  r <- ended (maxflow_ford_fulk 1000000 fuel G 0 5) ;;
  Ok (r =? 11)%Z) = true.
Proof. vm_compute. reflexivity. Qed.

Definition g_maxflow_ford_fulk_test2 : res (lil Z) := zbuild 8 8
  [(0, 1, 10%Z); (0, 2, 5%Z); (0, 3, 15%Z); (1, 2, 4%Z); (1, 4, 9%Z); (1, 5, 15%Z); (2, 3,
  4%Z); (2, 5, 8%Z); (3, 6, 30%Z); (4, 5, 15%Z); (4, 7, 10%Z); (5, 6, 15%Z); (5, 7, 10%Z); (6,
  2, 6%Z); (6, 7, 10%Z)].

(** test_maxflow.cpp:50-171 *)
Example maxflow_ford_fulk_test2 :
 test (G <- g_maxflow_ford_fulk_test2 ;;
  r <- ended (maxflow_ford_fulk 1000000 fuel G 0 7) ;;
  Ok (r =? 28)%Z) = true.
Proof. vm_compute. reflexivity. Qed.

Definition g_maxflow_ford_fulk_test2_bidirectional : res (lil Z) := zbuild 8 8
  [(0, 1, 10%Z); (0, 2, 5%Z); (0, 3, 15%Z); (1, 2, 4%Z); (1, 4, 9%Z); (1, 5, 15%Z); (2, 1,
  4%Z); (2, 3, 4%Z); (2, 5, 8%Z); (3, 6, 30%Z); (4, 5, 15%Z); (4, 7, 10%Z); (5, 4, 5%Z); (5, 6,
  15%Z); (5, 7, 10%Z); (6, 2, 6%Z); (6, 7, 10%Z)].

(** test_maxflow.cpp:50-171 *)
Example maxflow_ford_fulk_test2_bidirectional :
 test (G <- g_maxflow_ford_fulk_test2_bidirectional ;;
  r <- ended (maxflow_ford_fulk 1000000 fuel G 0 7) ;;
  Ok (r =? 30)%Z) = true.
Proof. vm_compute. reflexivity. Qed.

(** test_mis.cpp: the check of one result, 84-106 and 162-183, for pseudo-random
    numbers. *)
Definition draws (seed t i : nat) (d : Z) : Z :=
  ((Z.of_nat seed * 7919 + Z.of_nat t * 104729 + Z.of_nat i * 1299709) * 48271 mod 2147483647 + 1)%Z.
Definition mis_check (graph : res (lil Z)) (seed : nat) : res bool :=
  G <- graph ;;
  s <- vec_new false (nrows G) ;;
  s <- ended (mis znz (fun z => z) 0%Z Z.add Z.ltb znz (draws seed) fuel G s) ;;
  w <- vec_new 0 (nrows G) ;;
  w <- apply_v (fun b : bool => if b then 1 else 0) btrue idc (NoAcc idc) vnomask MERGE w s ;;
  l <- vec_new 0 (nrows G) ;;
  l <- ended (bfs_level_masked znz fuel G w l) ;;
  mfor (seq 0 (nrows G)) (fun i b =>
    h <- vec_hasElement l i ;;
    if h then
      lvl <- vec_extractElement l i ;;
      m <- vec_hasElement s i ;;
      Ok (b && (lvl <? 3) && (0 <? lvl) && Bool.eqb m (lvl =? 1))
    else Ok b) true.

Definition g_mis : res (lil Z) := zbuild 7 7
  [(0, 1, 1%Z); (0, 2, 1%Z); (1, 0, 1%Z); (1, 3, 1%Z); (2, 0, 1%Z); (2, 5, 1%Z); (3, 1, 1%Z);
  (3, 4, 1%Z); (3, 6, 1%Z); (4, 3, 1%Z); (4, 5, 1%Z); (5, 2, 1%Z); (5, 4, 1%Z); (5, 6, 1%Z);
  (6, 3, 1%Z); (6, 5, 1%Z)].

(** test_mis.cpp:49-189 *)
Example mis_test_g_mis :
 test (mfor (seq 1000 20) (fun seed b => c <- mis_check g_mis seed ;; Ok (b && c)) true) = true.
Proof. vm_compute. reflexivity. Qed.

(** test_mis.cpp:49-189 *)
Example mis_test_g_tn :
 test (mfor (seq 1000 20) (fun seed b => c <- mis_check g_tn seed ;; Ok (b && c)) true) = true.
Proof. vm_compute. reflexivity. Qed.

Definition g_bc : res (lil Z) := zbuild 8 8
  [(0, 1, 1%Z); (0, 2, 1%Z); (0, 3, 1%Z); (1, 2, 1%Z); (1, 4, 1%Z); (2, 4, 1%Z); (3, 2, 1%Z);
  (3, 4, 1%Z); (4, 5, 1%Z); (4, 6, 1%Z); (5, 7, 1%Z); (6, 7, 1%Z)].

Definition g_bc_loops : res (lil Z) := zbuild 8 8
  [(0, 1, 1%Z); (0, 2, 1%Z); (0, 3, 1%Z); (1, 2, 1%Z); (1, 4, 1%Z); (2, 4, 1%Z); (3, 2, 1%Z);
  (3, 4, 1%Z); (4, 5, 1%Z); (4, 6, 1%Z); (5, 7, 1%Z); (6, 7, 1%Z); (0, 0, 1%Z); (1, 1, 1%Z);
  (2, 2, 1%Z); (3, 3, 1%Z); (4, 4, 1%Z); (5, 5, 1%Z); (6, 6, 1%Z); (7, 7, 1%Z)].

Definition qgraph (g : res (lil Z)) : res (lil Qc) :=
  G <- g ;; apply zc btrue idc (NoAcc idc) mnomask MERGE (lil_new (nrows G) (ncols G)) (Mat G).
Definition vbc (g : res (lil Z)) : res (list Qc) :=
  G <- qgraph g ;;
  ended (vertex_betweenness_centrality Qcplus Qcminus Qcmult Qcinv qn qtrue fuel G).
Definition batch (f : forall T : Type, (T -> Z) -> (T -> Qc) -> nat -> lil T -> list nat -> res (option (list Qc)))
    (g : res (lil Z)) (seeds : list nat) : res (list Qc) :=
  G <- g ;; ended (f Z (fun z => z) zc fuel G seeds).
Definition bc0 : list Q := [0; 4 # 3; 4 # 3; 4 # 3; 3; 1 # 2; 1 # 2; 0]%Q.
Definition bc3 : list Q := [0; 0; 0; 0; 3; 1 # 2; 1 # 2; 0]%Q.
Definition bc_sum : list Q := map (fun '(x, y) => (x + y)%Q) (combine bc0 bc3).
Definition bc_all : list Q := [0; 4 # 3; 4 # 3; 4 # 3; 12; 5 # 2; 5 # 2; 0]%Q.
Definition bc_gilbert : list Q := [4; 9 # 2; 2; 9 # 2; 2; 1; 3]%Q.
Definition tol : Q := (1 # 10000)%Q.

(** test_bc.cpp:137-147 *)
Example bc_test_vertex_betweenness_centrality :
 test (r <- vbc g_bc ;;
  Ok (all_close tol r bc_all)) = true.
Proof. vm_compute. reflexivity. Qed.

(** test_bc.cpp:70-92 *)
Example bc_test_gilbert :
 test (r <- vbc g_gilbert ;;
  Ok (all_close tol r bc_gilbert)) = true.
Proof. vm_compute. reflexivity. Qed.

(** test_bc.cpp:94-133, 203-465 *)
Example test_bc_batch_old :
 test (r0 <- batch (@bc_batch_old) g_bc [0] ;;
  r3 <- batch (@bc_batch_old) g_bc [3] ;;
  r03 <- batch (@bc_batch_old) g_bc [0; 3] ;;
  r <- batch (@bc_batch_old) g_bc (seq 0 8) ;;
  g <- batch (@bc_batch_old) g_gilbert (seq 0 7) ;;
  Ok (all_close tol r0 bc0 && all_close tol r3 bc3 && all_close tol r03 bc_sum && all_close tol r bc_all
      && all_close tol g bc_gilbert)) = true.
Proof. vm_compute. reflexivity. Qed.

(** test_bc.cpp:94-133, 203-465 *)
Example test_bc_batch :
 test (r0 <- batch (@bc_batch) g_bc [0] ;;
  r3 <- batch (@bc_batch) g_bc [3] ;;
  r03 <- batch (@bc_batch) g_bc [0; 3] ;;
  r <- batch (@bc_batch) g_bc (seq 0 8) ;;
  g <- batch (@bc_batch) g_gilbert (seq 0 7) ;;
  Ok (all_close tol r0 bc0 && all_close tol r3 bc3 && all_close tol r03 bc_sum && all_close tol r bc_all
      && all_close tol g bc_gilbert)) = true.
Proof. vm_compute. reflexivity. Qed.

(** test_bc.cpp:94-133, 203-465 *)
Example test_bc_batch_alt :
 test (r0 <- batch (@bc_batch_alt) g_bc_loops [0] ;;
  r3 <- batch (@bc_batch_alt) g_bc_loops [3] ;;
  r03 <- batch (@bc_batch_alt) g_bc_loops [0; 3] ;;
  r <- batch (@bc_batch_alt) g_bc_loops (seq 0 8) ;;
  g <- batch (@bc_batch_alt) g_gilbert (seq 0 7) ;;
  Ok (all_close tol r0 bc0 && all_close tol r3 bc3 && all_close tol r03 bc_sum && all_close tol r bc_all
      && all_close tol g bc_gilbert)) = true.
Proof. vm_compute. reflexivity. Qed.

(** test_bc.cpp:94-133, 203-465 *)
Example test_bc_batch_alt_trans :
 test (r0 <- batch (@bc_batch_alt_trans) g_bc [0] ;;
  r3 <- batch (@bc_batch_alt_trans) g_bc [3] ;;
  r03 <- batch (@bc_batch_alt_trans) g_bc [0; 3] ;;
  r <- batch (@bc_batch_alt_trans) g_bc (seq 0 8) ;;
  g <- batch (@bc_batch_alt_trans) g_gilbert (seq 0 7) ;;
  Ok (all_close tol r0 bc0 && all_close tol r3 bc3 && all_close tol r03 bc_sum && all_close tol r bc_all
      && all_close tol g bc_gilbert)) = true.
Proof. vm_compute. reflexivity. Qed.

(** test_bc.cpp:94-133, 203-465 *)
Example test_bc_batch_alt_trans_v2 :
 test (r0 <- batch (@bc_batch_alt_trans_v2) g_bc [0] ;;
  r3 <- batch (@bc_batch_alt_trans_v2) g_bc [3] ;;
  r03 <- batch (@bc_batch_alt_trans_v2) g_bc [0; 3] ;;
  r <- batch (@bc_batch_alt_trans_v2) g_bc (seq 0 8) ;;
  g <- batch (@bc_batch_alt_trans_v2) g_gilbert (seq 0 7) ;;
  Ok (all_close tol r0 bc0 && all_close tol r3 bc3 && all_close tol r03 bc_sum && all_close tol r bc_all
      && all_close tol g bc_gilbert)) = true.
Proof. vm_compute. reflexivity. Qed.

(** test_bc.cpp:176-199 *)
Example bc_test_edge_betweenness_centrality :
 test (G <- qgraph g_bc ;;
  S <- ended (edge_betweenness_centrality Qcplus Qcmult Qcdiv qn qtrue fuel G) ;;
  rows_are (fun a b : Qc => Qeq_bool (this a) (this b)) S (map (map (option_map zc))
   [[None; Some 6; Some 6; Some 6; None; None; None; None];
    [None; None; Some 1; None; Some 10; None; None; None];
    [None; None; None; None; Some 10; None; None; None];
    [None; None; Some 1; None; Some 10; None; None; None];
    [None; None; None; None; None; Some 14; Some 14; None];
    [None; None; None; None; None; None; None; Some 8];
    [None; None; None; None; None; None; None; Some 8];
    [None; None; None; None; None; None; None; None]]%Z)) = true.
Proof. vm_compute. reflexivity. Qed.

Definition g_page_rank_test_tn_isolated_node : res (lil Z) := zbuild 9 9
  [(0, 3, 1%Z); (1, 3, 1%Z); (1, 6, 1%Z); (2, 4, 1%Z); (2, 5, 1%Z); (2, 6, 1%Z); (2, 8, 1%Z);
  (3, 0, 1%Z); (3, 1, 1%Z); (3, 4, 1%Z); (3, 6, 1%Z); (4, 2, 1%Z); (4, 3, 1%Z); (4, 8, 1%Z);
  (5, 2, 1%Z); (6, 1, 1%Z); (6, 2, 1%Z); (6, 3, 1%Z); (8, 2, 1%Z); (8, 4, 1%Z)].

Definition a_page_rank_test_tn_isolated_node : list Q :=
  [540983 # 10000000; 224751 # 2500000; 170849 # 1000000; 170849 # 1000000; 129597 # 1000000;
  540983 # 10000000; 129597 # 1000000; 166667 # 10000000; 224751 # 2500000]%Q.

(** test_page_rank.cpp:51-270 *)
Example page_rank_test_tn_isolated_node :
 test (G <- g_page_rank_test_tn_isolated_node ;;
  p <- vec_new 0%Qc 9 ;;
  p <- page_rank zc qn G p (Q2Qc (85 # 100)) (Q2Qc (1 # 100000)) fuel ;;
  l <- to_vector 0%Qc 9 p ;;
  Ok ((vnvals p =? 9)%Z && all_close (1 # 1000) l a_page_rank_test_tn_isolated_node)) = true.
Proof. vm_compute. reflexivity. Qed.

Definition g_page_rank_test_gilbert_directed : res (lil Z) := zbuild 7 7
  [(0, 1, 1%Z); (0, 3, 1%Z); (1, 4, 1%Z); (1, 6, 1%Z); (2, 5, 1%Z); (3, 0, 1%Z); (3, 2, 1%Z);
  (4, 5, 1%Z); (5, 2, 1%Z); (6, 2, 1%Z); (6, 3, 1%Z); (6, 4, 1%Z)].

Definition a_page_rank_test_gilbert_directed : list Q :=
  [17981 # 400000; 409707 # 10000000; 76793 # 200000; 524507 # 10000000; 12789 # 250000; 386829
  # 1000000; 396759 # 10000000]%Q.

(** test_page_rank.cpp:51-270 *)
Example page_rank_test_gilbert_directed :
 test (G <- g_page_rank_test_gilbert_directed ;;
  p <- vec_new 0%Qc 7 ;;
  p <- page_rank zc qn G p (Q2Qc (85 # 100)) (Q2Qc (1 # 100000)) fuel ;;
  l <- to_vector 0%Qc 7 p ;;
  Ok ((vnvals p =? 7)%Z && all_close (1 # 1000) l a_page_rank_test_gilbert_directed)) = true.
Proof. vm_compute. reflexivity. Qed.

Definition g_page_rank_test_001 : res (lil Z) := zbuild 12 12
  [(0, 1, 1%Z); (0, 5, 1%Z); (0, 6, 1%Z); (0, 9, 1%Z); (1, 0, 1%Z); (1, 2, 1%Z); (1, 4, 1%Z);
  (2, 1, 1%Z); (2, 3, 1%Z); (2, 4, 1%Z); (3, 2, 1%Z); (3, 7, 1%Z); (3, 8, 1%Z); (3, 10, 1%Z);
  (4, 1, 1%Z); (4, 2, 1%Z); (4, 6, 1%Z); (4, 7, 1%Z); (5, 0, 1%Z); (5, 9, 1%Z); (6, 0, 1%Z);
  (6, 4, 1%Z); (6, 9, 1%Z); (7, 3, 1%Z); (7, 4, 1%Z); (7, 8, 1%Z); (7, 10, 1%Z); (8, 3, 1%Z);
  (8, 7, 1%Z); (8, 10, 1%Z); (8, 11, 1%Z); (9, 0, 1%Z); (9, 5, 1%Z); (9, 6, 1%Z); (10, 3, 1%Z);
  (10, 7, 1%Z); (10, 8, 1%Z); (10, 11, 1%Z); (11, 8, 1%Z); (11, 10, 1%Z)].

Definition a_page_rank_test_001 : list Q :=
  [52931 # 500000; 378881 # 5000000; 93329 # 1250000; 932387 # 10000000; 3941 # 40000; 575081 #
  10000000; 155529 # 2000000; 922869 # 10000000; 473749 # 5000000; 165373 # 2000000; 473749 #
  5000000; 521893 # 10000000]%Q.

(** test_page_rank.cpp:51-270 *)
Example page_rank_test_001 :
 test (G <- g_page_rank_test_001 ;;
  p <- vec_new 0%Qc 12 ;;
  p <- page_rank zc qn G p (Q2Qc (85 # 100)) (Q2Qc (1 # 100000)) fuel ;;
  l <- to_vector 0%Qc 12 p ;;
  Ok ((vnvals p =? 12)%Z && all_close (1 # 1000) l a_page_rank_test_001)) = true.
Proof. vm_compute. reflexivity. Qed.

Definition g_page_rank_test_karate : res (lil Z) := zbuild 34 34
  [(0, 1, 1%Z); (0, 2, 1%Z); (0, 3, 1%Z); (0, 4, 1%Z); (0, 5, 1%Z); (0, 6, 1%Z); (0, 7, 1%Z);
  (0, 8, 1%Z); (0, 10, 1%Z); (0, 11, 1%Z); (0, 12, 1%Z); (0, 13, 1%Z); (0, 17, 1%Z); (0, 19,
  1%Z); (0, 21, 1%Z); (0, 31, 1%Z); (1, 0, 1%Z); (1, 2, 1%Z); (1, 3, 1%Z); (1, 7, 1%Z); (1, 13,
  1%Z); (1, 17, 1%Z); (1, 19, 1%Z); (1, 21, 1%Z); (1, 30, 1%Z); (2, 0, 1%Z); (2, 1, 1%Z); (2,
  3, 1%Z); (2, 7, 1%Z); (2, 8, 1%Z); (2, 9, 1%Z); (2, 13, 1%Z); (2, 27, 1%Z); (2, 28, 1%Z); (2,
  32, 1%Z); (3, 0, 1%Z); (3, 1, 1%Z); (3, 2, 1%Z); (3, 7, 1%Z); (3, 12, 1%Z); (3, 13, 1%Z); (4,
  0, 1%Z); (4, 6, 1%Z); (4, 10, 1%Z); (5, 0, 1%Z); (5, 6, 1%Z); (5, 10, 1%Z); (5, 16, 1%Z); (6,
  0, 1%Z); (6, 4, 1%Z); (6, 5, 1%Z); (6, 16, 1%Z); (7, 0, 1%Z); (7, 1, 1%Z); (7, 2, 1%Z); (7,
  3, 1%Z); (8, 0, 1%Z); (8, 2, 1%Z); (8, 30, 1%Z); (8, 32, 1%Z); (8, 33, 1%Z); (9, 2, 1%Z); (9,
  33, 1%Z); (10, 0, 1%Z); (10, 4, 1%Z); (10, 5, 1%Z); (11, 0, 1%Z); (12, 0, 1%Z); (12, 3, 1%Z);
  (13, 0, 1%Z); (13, 1, 1%Z); (13, 2, 1%Z); (13, 3, 1%Z); (13, 33, 1%Z); (14, 32, 1%Z); (14,
  33, 1%Z); (15, 32, 1%Z); (15, 33, 1%Z); (16, 5, 1%Z); (16, 6, 1%Z); (17, 0, 1%Z); (17, 1,
  1%Z); (18, 32, 1%Z); (18, 33, 1%Z); (19, 0, 1%Z); (19, 1, 1%Z); (19, 33, 1%Z); (20, 32, 1%Z);
  (20, 33, 1%Z); (21, 0, 1%Z); (21, 1, 1%Z); (22, 32, 1%Z); (22, 33, 1%Z); (23, 25, 1%Z); (23,
  27, 1%Z); (23, 29, 1%Z); (23, 32, 1%Z); (23, 33, 1%Z); (24, 25, 1%Z); (24, 27, 1%Z); (24, 31,
  1%Z); (25, 23, 1%Z); (25, 24, 1%Z); (25, 31, 1%Z); (26, 29, 1%Z); (26, 33, 1%Z); (27, 2,
  1%Z); (27, 23, 1%Z); (27, 24, 1%Z); (27, 33, 1%Z); (28, 2, 1%Z); (28, 31, 1%Z); (28, 33,
  1%Z); (29, 23, 1%Z); (29, 26, 1%Z); (29, 32, 1%Z); (29, 33, 1%Z); (30, 1, 1%Z); (30, 8, 1%Z);
  (30, 32, 1%Z); (30, 33, 1%Z); (31, 0, 1%Z); (31, 24, 1%Z); (31, 25, 1%Z); (31, 28, 1%Z); (31,
  32, 1%Z); (31, 33, 1%Z); (32, 2, 1%Z); (32, 8, 1%Z); (32, 14, 1%Z); (32, 15, 1%Z); (32, 18,
  1%Z); (32, 20, 1%Z); (32, 22, 1%Z); (32, 23, 1%Z); (32, 29, 1%Z); (32, 30, 1%Z); (32, 31,
  1%Z); (32, 33, 1%Z); (33, 8, 1%Z); (33, 9, 1%Z); (33, 13, 1%Z); (33, 14, 1%Z); (33, 15, 1%Z);
  (33, 18, 1%Z); (33, 19, 1%Z); (33, 20, 1%Z); (33, 22, 1%Z); (33, 23, 1%Z); (33, 26, 1%Z);
  (33, 27, 1%Z); (33, 28, 1%Z); (33, 29, 1%Z); (33, 30, 1%Z); (33, 31, 1%Z); (33, 32, 1%Z)].

Definition a_page_rank_test_karate : list Q :=
  [972041 # 10000000; 529611 # 10000000; 285397 # 5000000; 358651 # 10000000; 22011 # 1000000;
  145809 # 5000000; 145809 # 5000000; 244569 # 10000000; 37133 # 1250000; 7137 # 500000; 22011
  # 1000000; 955609 # 100000000; 14633 # 1000000; 294733 # 10000000; 72383 # 5000000; 72383 #
  5000000; 10519 # 625000; 72671 # 5000000; 72383 # 5000000; 97753 # 5000000; 72383 # 5000000;
  72671 # 5000000; 72383 # 5000000; 314621 # 10000000; 210849 # 10000000; 210187 # 10000000;
  75101 # 5000000; 64003 # 2500000; 97769 # 5000000; 8201 # 312500; 245261 # 10000000; 185343 #
  5000000; 28747 # 400000; 50583 # 500000]%Q.

(** test_page_rank.cpp:51-270 *)
Example page_rank_test_karate :
 test (G <- g_page_rank_test_karate ;;
  p <- vec_new 0%Qc 34 ;;
  p <- page_rank zc qn G p (Q2Qc (85 # 100)) (Q2Qc (1 # 10000000)) fuel ;;
  l <- to_vector 0%Qc 34 p ;;
  Ok ((vnvals p =? 34)%Z && all_close (1 # 1000) l a_page_rank_test_karate)) = true.
Proof. vm_compute. reflexivity. Qed.

Definition g_pp1 : res (lil Z) := zbuild 5 5
  [(0, 0, 1%Z); (0, 1, 1%Z); (0, 2, 1%Z); (0, 3, 1%Z); (1, 0, 1%Z); (1, 1, 1%Z); (1, 2, 1%Z);
  (2, 0, 1%Z); (2, 1, 1%Z); (2, 2, 1%Z); (3, 3, 1%Z); (3, 4, 1%Z); (4, 3, 1%Z); (4, 4, 1%Z)].

Definition g_pp2 : res (lil Z) := zbuild 8 8
  [(0, 0, 1%Z); (0, 2, 1%Z); (0, 3, 1%Z); (0, 6, 1%Z); (1, 1, 1%Z); (1, 2, 1%Z); (1, 3, 1%Z);
  (1, 7, 1%Z); (2, 0, 1%Z); (2, 2, 1%Z); (2, 4, 1%Z); (2, 6, 1%Z); (3, 0, 1%Z); (3, 1, 1%Z);
  (3, 3, 1%Z); (3, 5, 1%Z); (4, 0, 1%Z); (4, 2, 1%Z); (4, 4, 1%Z); (4, 6, 1%Z); (5, 1, 1%Z);
  (5, 3, 1%Z); (5, 5, 1%Z); (5, 6, 1%Z); (5, 7, 1%Z); (6, 0, 1%Z); (6, 4, 1%Z); (6, 6, 1%Z);
  (7, 1, 1%Z); (7, 3, 1%Z); (7, 5, 1%Z); (7, 7, 1%Z)].

(** The checks of cluster assignments: the vertices of each list together, the lists apart. *)
Fixpoint each {X Y : Type} (f : X -> res Y) (l : list X) : res (list Y) :=
  match l with
  | [] => Ok []
  | x :: l' => y <- f x ;; ys <- each f l' ;; Ok (y :: ys)
  end.
Definition clusters_are (w : bvec nat) (cls : list (list nat)) : res bool :=
  ids <- each (each (vec_extractElement w)) cls ;;
  Ok (forallb (fun l => forallb (Nat.eqb (hd 0 l)) l) ids
      && forallb (fun '(x, y) => negb (hd 0 x =? hd 0 y))
           (flat_map (fun i => map (fun j => (nth i ids [], nth j ids [])) (seq 0 i)) (seq 0 (length ids)))).

(** test_cluster.cpp:136-162 *)
Example cluster_test_peer_pressure1 :
 test (G <- g_pp1 ;;
  C <- peer_pressure_cluster_start zc G fuel ;;
  w <- get_cluster_assignments_v2 C ;;
  clusters_are w [[0; 1; 2]; [3; 4]]) = true.
Proof. vm_compute. reflexivity. Qed.

(** test_cluster.cpp:166-211 *)
Example cluster_test_peer_pressure2 :
 test (G <- g_pp2 ;;
  C <- peer_pressure_cluster_start zc G fuel ;;
  w <- get_cluster_assignments_v2 C ;;
  clusters_are w [[0; 2; 4; 6]; [1; 3; 5; 7]]) = true.
Proof. vm_compute. reflexivity. Qed.

Definition ldraw (r j : nat) : Qc := Q2Qc (draws 1 r j 0 # 2147483648).

(** test_cluster_louvain.cpp:51-146 *)
Example cluster_test_louvain_cluster :
 test (G <- g_pp2 ;;
  o <- ended (louvain_cluster zc Z.add ldraw fuel G fuel) ;;
  match o with
  | inl C => w <- get_louvain_cluster_assignments C ;; clusters_are w [[0; 2; 4; 6]; [1; 3; 5; 7]]
  | inr _ => UB
  end) = true.
Proof. vm_compute. reflexivity. Qed.

(** test_cluster_louvain.cpp:51-146 *)
Example cluster_test_louvain_cluster_masked :
 test (G <- g_pp2 ;;
  o <- ended (louvain_cluster_masked zc znz Z.add ldraw fuel G fuel) ;;
  match o with
  | inl C => w <- get_louvain_cluster_assignments C ;; clusters_are w [[0; 2; 4; 6]; [1; 3; 5; 7]]
  | inr _ => UB
  end) = true.
Proof. vm_compute. reflexivity. Qed.
