(** Model of the shortest path algorithms for weights of any scalar type, and for [float] and
    [double] in particular.  /repo/src/algorithms/sssp.hpp and apsp.hpp.  (ModelSssp and ModelDelta
    are the same algorithms with unbounded integers.) *)
From Coq Require Import ZArith Floats.SpecFloat.
From Verif Require Import Base ModelLil ModelVec ModelHelpers ModelViews ModelMul ModelElem
  ModelIndex ModelUtils ModelAlgoBase ModelSssp ModelFloat.

Section Weights.
(** [D] is the scalar type; its [Min], [Plus], [==], [<] and conversion to [bool]. *)
Context {D : Type} (dmin dplus : D -> D -> D) (deqb dltb : D -> D -> bool) (dtrue : D -> bool).

(** sssp.hpp:79-82, 92-95 *)
Definition gstep (graph : lil D) (dist : bvec D) : res (bvec D) :=
  vxm dmin dplus btrue idc (Acc dmin idc idc) vnomask MERGE dist dist (Mat graph).
(** [sssp(graph, dist)], sssp.hpp:62-114: the returned flag and the final [dist]. *)
Definition gsssp (graph : lil D) (dist : bvec D) : res (bool * bvec D) :=
  if negb (nrows graph =? vsize dist) || negb (ncols graph =? vsize dist)
  then Throw DimensionException
  else
    dist <- mfor (seq 0 (nrows graph - 1)) (fun _ dist => gstep graph dist) dist ;;
    dist2 <- gstep graph dist ;;
    equal_flags <- vec_new false (nrows graph) ;;
    equal_flags <- eWiseMult_v deqb btrue idc (NoAcc idc) vnomask MERGE equal_flags dist dist2 ;;
    Ok (negb (any_false_v equal_flags), dist).

(** [batch_sssp(graph, dists)], sssp.hpp:140-191. *)
Definition gbatch_step (graph : lil D) (dists : lil D) : res (lil D) :=
  mxm dmin dplus dplus idc idc btrue idc (Acc dmin idc idc) mnomask MERGE dists
    (Mat dists) (Mat graph).
Definition gbatch_sssp (graph : lil D) (dists : lil D) : res (bool * lil D) :=
  if negb (nrows graph =? ncols dists) || negb (ncols graph =? ncols dists)
  then Throw DimensionException
  else
    dists <- mfor (seq 0 (nrows graph - 1)) (fun _ dists => gbatch_step graph dists) dists ;;
    dist2 <- gbatch_step graph dists ;;
    equal_flags <- eWiseMult deqb deqb idc btrue idc (NoAcc idc) mnomask MERGE
                     (lil_new (nrows dists) (ncols dists)) (Mat dists) (Mat dist2) ;;
    Ok (negb (any_false_m equal_flags), dists).

(** [filtered_sssp(graph, dist)], sssp.hpp:215-271. *)
Definition gfiltered_body (graph : lil D) (new_dist : bvec D) (new_dist_flags : bvec bool)
    (dist : bvec D) : res (bvec D * bvec bool * option (bvec D)) :=
  new_dist <- vxm dmin dplus btrue idc (NoAcc idc) vnomask MERGE new_dist new_dist (Mat graph) ;;
  new_dist_flags <- eWiseAdd_v dltb dtrue dtrue dtrue idc (NoAcc idc) (MStruct new_dist) REPLACE
                      new_dist_flags new_dist dist ;;
  new_dist <- apply_v idc btrue idc (NoAcc idc) (MVal new_dist_flags) REPLACE new_dist new_dist ;;
  if has_vals (vnvals new_dist) then
    dist <- eWiseAdd_v dmin idc idc btrue idc (NoAcc idc) vnomask MERGE dist new_dist dist ;;
    Ok (new_dist, new_dist_flags, Some dist)
  else Ok (new_dist, new_dist_flags, None).
Fixpoint gfiltered_loop (iters_left : nat) (graph : lil D) (new_dist : bvec D)
    (flags : bvec bool) (dist : bvec D) : res (bool * bvec D) :=
  match iters_left with
  | O => Ok (false, dist)
  | S n =>
      s <- gfiltered_body graph new_dist flags dist ;;
      match s with
      | (new_dist, flags, Some dist) => gfiltered_loop n graph new_dist flags dist
      | (_, _, None) => Ok (true, dist)
      end
  end.
Definition gfiltered_sssp (graph : lil D) (dist : bvec D) : res (bool * bvec D) :=
  if negb (nrows graph =? vsize dist) || negb (ncols graph =? vsize dist)
  then Throw DimensionException
  else
    flags <- vec_new false (vsize dist) ;;
    gfiltered_loop (nrows graph) graph dist flags dist.

(** [apsp(graph)], apsp.hpp:51-97; [d0] is the zero of [D]. *)
Context (d0 : D).
Definition gapsp_body (n k : nat) (s : lil D * lil D * lil D) : res (lil D * lil D * lil D) :=
  let '(Distances, row_k, col_k) := s in
  row_k <- extract_m btrue idc (NoAcc idc) mnomask MERGE row_k (Mat Distances) (IdxArr [k]) AllIdx ;;
  col_k <- extract_m btrue idc (NoAcc idc) mnomask MERGE col_k (Mat Distances) AllIdx (IdxArr [k]) ;;
  Distances <- mxm dmin dplus dplus idc idc btrue idc (Acc dmin idc idc) mnomask MERGE
                 Distances (Mat col_k) (Mat row_k) ;;
  Ok (Distances, row_k, col_k).
Definition gapsp (graph : lil D) : res (lil D) :=
  let n := nrows graph in
  if negb (n =? ncols graph) then Throw DimensionException
  else
    Distances <- scaled_identity n d0 ;;
    Distances <- eWiseAdd dplus idc idc dplus idc idc btrue idc (NoAcc idc) mnomask MERGE
                   Distances (Mat Distances) (Mat graph) ;;
    s <- mfor (seq 0 n) (gapsp_body n) (Distances, lil_new 1 n, lil_new n 1) ;;
    Ok (fst (fst s)).
End Weights.

(** Conversion of a floating point value to [bool]: anything but a zero. *)
Definition ftrue (a : fval) : bool := match a with S754_zero _ => false | _ => true end.

Definition fsssp (t : ftype) (graph : lil fval) (dist : bvec fval) : res (bool * bvec fval) :=
  gsssp (FMin t) (FPlus t) FEqual graph dist.
Definition fbatch_sssp (t : ftype) (graph dists : lil fval) : res (bool * lil fval) :=
  gbatch_sssp (FMin t) (FPlus t) FEqual graph dists.
Definition ffiltered_sssp (t : ftype) (graph : lil fval) (dist : bvec fval) : res (bool * bvec fval) :=
  gfiltered_sssp (FMin t) (FPlus t) FLessThan ftrue graph dist.
Definition fapsp (t : ftype) (graph : lil fval) : res (lil fval) :=
  gapsp (FMin t) (FPlus t) f0 graph.
