(** Model of the shortest path algorithms.  /repo/src/algorithms/sssp.hpp and apsp.hpp.
    Weights and distances are unbounded integers. *)
From Verif Require Import Base ModelLil ModelVec ModelHelpers ModelViews ModelMul ModelElem
  ModelIndex ModelUtils ModelAlgoBase.

(** One step of Bellman-Ford, sssp.hpp:79-82, 92-95: accumulate with [Min] the product over
    [MinPlusSemiring]. *)
Definition sssp_step (graph : lil Z) (dist : bvec Z) : res (bvec Z) :=
  vxm zmin Z.add btrue idc (Acc zmin idc idc) vnomask MERGE dist dist (Mat graph).

(** The operator of the final [eWiseMult], sssp.hpp:101-110, sets [changed_flag] when it meets
    two different values and returns whether they are equal; as there is no mask and no
    accumulator its results are the elements of [equal_flags], so the flag is set when one of
    these is false. *)
Definition any_false_v (flags : bvec bool) : bool :=
  existsb (fun e => fst e && negb (snd e)) (combine (vbits flags) (vvals flags)).

(** [sssp(graph, dist)], sssp.hpp:62-114: the returned flag and the final [dist].  There is at
    least one vertex (a vector cannot have size 0), so [graph.nrows() - 1] does not wrap. *)
Definition sssp (graph : lil Z) (dist : bvec Z) : res (bool * bvec Z) :=
  if negb (nrows graph =? vsize dist) || negb (ncols graph =? vsize dist)
  then Throw DimensionException
  else
    dist <- mfor (seq 0 (nrows graph - 1)) (fun _ dist => sssp_step graph dist) dist ;;
    dist2 <- sssp_step graph dist ;;
    equal_flags <- vec_new false (nrows graph) ;;
    equal_flags <- eWiseMult_v Z.eqb btrue idc (NoAcc idc) vnomask MERGE equal_flags dist dist2 ;;
    Ok (negb (any_false_v equal_flags), dist).

(** [batch_sssp(graph, dists)], sssp.hpp:140-191: one search per row.  For a graph without
    vertices the unsigned [graph.nrows() - 1] of line 156 wraps around; the model does not. *)
Definition batch_step (graph : lil Z) (dists : lil Z) : res (lil Z) :=
  mxm zmin Z.add Z.add idc idc btrue idc (Acc zmin idc idc) mnomask MERGE dists
    (Mat dists) (Mat graph).

Definition any_false_m (flags : lil bool) : bool :=
  existsb (fun row => existsb (fun e => negb (snd e)) row) (data flags).

Definition batch_sssp (graph : lil Z) (dists : lil Z) : res (bool * lil Z) :=
  if negb (nrows graph =? ncols dists) || negb (ncols graph =? ncols dists)
  then Throw DimensionException
  else
    dists <- mfor (seq 0 (nrows graph - 1)) (fun _ dists => batch_step graph dists) dists ;;
    dist2 <- batch_step graph dists ;;
    equal_flags <- eWiseMult Z.eqb Z.eqb idc btrue idc (NoAcc idc) mnomask MERGE
                     (lil_new (nrows dists) (ncols dists)) (Mat dists) (Mat dist2) ;;
    Ok (negb (any_false_m equal_flags), dists).

(** [filtered_sssp(graph, dist)], sssp.hpp:215-271. *)

(** One iteration, 231-264: [None] in the third place when the loop breaks at line 252. *)
Definition filtered_body (graph : lil Z) (new_dist : bvec Z) (new_dist_flags : bvec bool)
    (dist : bvec Z) : res (bvec Z * bvec bool * option (bvec Z)) :=
  new_dist <- vxm zmin Z.add btrue idc (NoAcc idc) vnomask MERGE new_dist new_dist (Mat graph) ;;
  new_dist_flags <- eWiseAdd_v Z.ltb ztrue ztrue ztrue idc (NoAcc idc) (MStruct new_dist) REPLACE
                      new_dist_flags new_dist dist ;;
  new_dist <- apply_v idc btrue idc (NoAcc idc) (MVal new_dist_flags) REPLACE new_dist new_dist ;;
  if has_vals (vnvals new_dist) then
    dist <- eWiseAdd_v zmin idc idc btrue idc (NoAcc idc) vnomask MERGE dist new_dist dist ;;
    Ok (new_dist, new_dist_flags, Some dist)
  else Ok (new_dist, new_dist_flags, None).

(** The loop; the result is [iters_left > 0] and the final [dist]. *)
Fixpoint filtered_loop (iters_left : nat) (graph : lil Z) (new_dist : bvec Z)
    (flags : bvec bool) (dist : bvec Z) : res (bool * bvec Z) :=
  match iters_left with
  | O => Ok (false, dist)
  | S n =>
      s <- filtered_body graph new_dist flags dist ;;
      match s with
      | (new_dist, flags, Some dist) => filtered_loop n graph new_dist flags dist
      | (_, _, None) => Ok (true, dist)
      end
  end.

Definition filtered_sssp (graph : lil Z) (dist : bvec Z) : res (bool * bvec Z) :=
  if negb (nrows graph =? vsize dist) || negb (ncols graph =? vsize dist)
  then Throw DimensionException
  else
    flags <- vec_new false (vsize dist) ;;
    filtered_loop (nrows graph) graph dist flags dist.

(** [apsp(graph)], apsp.hpp:51-97.  The state is [Distances] and the two work matrices. *)
Definition apsp_body (n k : nat) (s : lil Z * lil Z * lil Z) : res (lil Z * lil Z * lil Z) :=
  let '(Distances, row_k, col_k) := s in
  row_k <- extract_m btrue idc (NoAcc idc) mnomask MERGE row_k (Mat Distances) (IdxArr [k]) AllIdx ;;
  col_k <- extract_m btrue idc (NoAcc idc) mnomask MERGE col_k (Mat Distances) AllIdx (IdxArr [k]) ;;
  Distances <- mxm zmin Z.add Z.add idc idc btrue idc (Acc zmin idc idc) mnomask MERGE Distances
                 (Mat col_k) (Mat row_k) ;;
  Ok (Distances, row_k, col_k).

Definition apsp (graph : lil Z) : res (lil Z) :=
  let n := nrows graph in
  if negb (n =? ncols graph) then Throw DimensionException
  else
    Distances <- scaled_identity n 0%Z ;;
    Distances <- eWiseAdd Z.add idc idc Z.add idc idc btrue idc (NoAcc idc) mnomask MERGE
                   Distances (Mat Distances) (Mat graph) ;;
    s <- mfor (seq 0 n) (apsp_body n) (Distances, lil_new 1 n, lil_new n 1) ;;
    Ok (fst (fst s)).
