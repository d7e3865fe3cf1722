(** Model of the demonstration programs that search a graph: masked_mxm_homework, bfs_demo, bfs_level_demo
    and sssp_demo.  /repo/src/demo.  The programs contain one graph each; here the graph is an argument,
    given by the number of its vertices and the lists that are passed to [build].  Printing is not
    modelled. *)
From Verif Require Import Base ModelLil ModelVec ModelHelpers ModelViews ModelMul ModelElem
  ModelIndex ModelUtils ModelAlgoBase ModelBfs ModelSssp.

(** ** masked_mxm_homework.cpp *)

(** The body of the loop of [bfs_level_masked], masked_mxm_homework.cpp:77-93; state: wavefront,
    levels and depth.  Numbers of type [IndexType] as in ModelBfs.v. *)
Definition homework_body (graph : lil nat) (s : lil nat * lil nat * nat) : res (lil nat * lil nat * nat) :=
  let '(wavefront, levels, depth) := s in
  let depth := S depth in
  levels <- apply (fun x : nat => x * depth) btrue idc (Acc Nat.add idc idc) mnomask
              MERGE levels (Mat wavefront) ;;
  wavefront <- mxm lor_n (land_n ntrue) (fun b a : nat => land_n ntrue a b) idc idc ntrue idc
                 (NoAcc idc) (MComp levels) REPLACE wavefront (Mat wavefront) (Mat graph) ;;
  Ok (wavefront, levels, depth).

(** [bfs_level_masked], masked_mxm_homework.cpp:56-95.  The wavefront is passed by value. *)
Definition homework_search (n : nat) (graph wavefront levels : lil nat) : res (option (lil nat)) :=
  if negb (nrows graph =? ncols graph) || negb (ncols wavefront =? nrows graph)
  then Throw DimensionException
  else
    r <- mwhile n (fun s => has_vals (nvals (fst (fst s)))) (homework_body graph) (wavefront, levels, 0) ;;
    Ok (option_map (fun s => snd (fst s)) r).

(** [main], masked_mxm_homework.cpp:99-152: the matrix [levels] that is printed. *)
Definition masked_mxm_homework (n N : nat) (es : list (nat * nat)) : res (option (lil nat)) :=
  graph <- build_or_throw (lil_new N N) (map (fun '(i, j) => (i, j, 1)) es) ;;
  roots <- build_or_throw (lil_new N N) (map (fun i => (i, i, 1)) (seq 0 N)) ;;
  homework_search n graph roots (lil_new N N).

(** ** bfs_demo.cpp *)

(** [main], bfs_demo.cpp:34-90: the vector [parent_list] and the matrix [G_tn_res]; [root] is 3 in the
    program.  All scalars have the type [IndexType]. *)
Definition bfs_demo (n N root : nat) (es : list (nat * nat)) : res (option (bvec nat) * option (lil nat)) :=
  G_tn <- build_or_throw (lil_new N N) (map (fun '(i, j) => (i, j, 1)) es) ;;
  parent_list <- vec_new 0 N ;;
  w <- vec_new 0 N ;;
  w <- vec_setElement w root 1 ;;
  parent_list <- bfs_w idc idc nmin Nat.add n G_tn w parent_list ;;
  roots <- build_or_throw (lil_new N N) (map (fun i => (i, i, 1)) (seq 0 N)) ;;
  G_tn_res <- bfs_batch idc idc nmin Nat.add n G_tn roots (lil_new N N) ;;
  Ok (parent_list, G_tn_res).

(** ** bfs_level_demo.cpp *)

(** [main], bfs_level_demo.cpp:106-145: the matrices [levels1] and [levels]; [root] is 30 in the
    program. *)
Definition bfs_level_demo (n N root : nat) (es : list (nat * nat)) : res (option (lil nat) * option (lil nat)) :=
  G_karate <- build_or_throw (lil_new N N) (map (fun '(i, j) => (i, j, 1)) es) ;;
  root <- lil_setElement (lil_new 1 N) 0 root 1 ;;
  levels1 <- bfs_level_m ntrue n G_karate root (lil_new 1 N) ;;
  levels <- batch_bfs_level_masked ntrue n G_karate root (lil_new 1 N) ;;
  Ok (levels1, levels).

(** ** sssp_demo.cpp *)

(** [run_demo], sssp_demo.cpp:34-73, with arbitrary weights: [path] and [paths] at the end.  The
    types [double] and [unsigned int] are replaced by the integers. *)
Definition sssp_demo (N : nat) (ts : list (nat * nat * Z)) : res (bvec Z * lil Z) :=
  G_tn <- build_or_throw (lil_new N N) ts ;;
  path <- vec_new 0%Z N ;;
  path <- vec_setElement path 0 0%Z ;;
  r1 <- sssp G_tn path ;;
  paths <- scaled_identity N 0%Z ;;
  r2 <- batch_sssp G_tn paths ;;
  Ok (snd r1, snd r2).
