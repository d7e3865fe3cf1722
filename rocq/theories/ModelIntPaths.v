(** Model of the shortest path algorithms and the metrics over the built-in integer types and over [float] and [double].
    /repo/src/algorithms/sssp.hpp, apsp.hpp and metrics.hpp.  Scalars of the integer types as in ModelInts: a call in which some
    computed element is [UB] is undefined. *)
From Coq Require Import ZArith Floats.SpecFloat.
From Verif Require Import Base ModelLil ModelVec ModelHelpers ModelViews ModelMul ModelElem ModelIndex ModelUtils ModelAlgoBase
  ModelSssp ModelAlgebra ModelFloat ModelFsssp ModelInts.

(** [<] and the conversion to [bool]. *)
Definition iltb (x y : ival) : bool := match x, y with Ok a, Ok b => (a <? b)%Z | _, _ => false end.
Definition inonzero (x : ival) : bool := match x with Ok a => ztrue a | _ => false end.

(** [batch_sssp(graph, dists)], sssp.hpp:140-191. *)
Definition ibatch_step (t : ctype) (graph dists : lil ival) : res (lil ival) :=
  dists <- gbatch_step (op2 Min t) (op2 Plus t) graph dists ;; defined_m dists.
Definition ibatch_sssp (t : ctype) (graph dists : lil ival) : res (bool * lil ival) :=
  if negb (nrows graph =? ncols dists) || negb (ncols graph =? ncols dists)
  then Throw DimensionException
  else
    dists <- mfor (seq 0 (nrows graph - 1)) (fun _ dists => ibatch_step t graph dists) dists ;;
    dist2 <- ibatch_step t graph dists ;;
    equal_flags <- eWiseMult ieqb ieqb idc btrue idc (NoAcc idc) mnomask MERGE
                     (lil_new (nrows dists) (ncols dists)) (Mat dists) (Mat dist2) ;;
    Ok (negb (any_false_m equal_flags), dists).

(** [filtered_sssp(graph, dist)], sssp.hpp:215-271. *)
Definition ifiltered_body (t : ctype) (graph : lil ival) (new_dist : bvec ival) (new_dist_flags : bvec bool)
    (dist : bvec ival) : res (bvec ival * bvec bool * option (bvec ival)) :=
  new_dist <- vxm (op2 Min t) (op2 Plus t) btrue idc (NoAcc idc) vnomask MERGE new_dist new_dist (Mat graph) ;;
  new_dist <- defined_v new_dist ;;
  new_dist_flags <- eWiseAdd_v iltb inonzero inonzero inonzero idc (NoAcc idc) (MStruct new_dist) REPLACE
                      new_dist_flags new_dist dist ;;
  new_dist <- apply_v idc btrue idc (NoAcc idc) (MVal new_dist_flags) REPLACE new_dist new_dist ;;
  if has_vals (vnvals new_dist) then
    dist <- eWiseAdd_v (op2 Min t) idc idc btrue idc (NoAcc idc) vnomask MERGE dist new_dist dist ;;
    Ok (new_dist, new_dist_flags, Some dist)
  else Ok (new_dist, new_dist_flags, None).
Fixpoint ifiltered_loop (t : ctype) (iters_left : nat) (graph : lil ival) (new_dist : bvec ival)
    (flags : bvec bool) (dist : bvec ival) : res (bool * bvec ival) :=
  match iters_left with
  | O => Ok (false, dist)
  | S n =>
      s <- ifiltered_body t graph new_dist flags dist ;;
      match s with
      | (new_dist, flags, Some dist) => ifiltered_loop t n graph new_dist flags dist
      | (_, _, None) => Ok (true, dist)
      end
  end.
Definition ifiltered_sssp (t : ctype) (graph : lil ival) (dist : bvec ival) : res (bool * bvec ival) :=
  if negb (nrows graph =? vsize dist) || negb (ncols graph =? vsize dist)
  then Throw DimensionException
  else
    flags <- vec_new false (vsize dist) ;;
    ifiltered_loop t (nrows graph) graph dist flags dist.

(** [apsp(graph)], apsp.hpp:51-97. *)
Definition iapsp_body (t : ctype) (n k : nat) (s : lil ival * lil ival * lil ival) : res (lil ival * lil ival * lil ival) :=
  let '(Distances, row_k, col_k) := s in
  row_k <- extract_m btrue idc (NoAcc idc) mnomask MERGE row_k (Mat Distances) (IdxArr [k]) AllIdx ;;
  col_k <- extract_m btrue idc (NoAcc idc) mnomask MERGE col_k (Mat Distances) AllIdx (IdxArr [k]) ;;
  Distances <- mxm (op2 Min t) (op2 Plus t) (op2 Plus t) idc idc btrue idc (Acc (op2 Min t) idc idc) mnomask MERGE
                 Distances (Mat col_k) (Mat row_k) ;;
  Distances <- defined_m Distances ;;
  Ok (Distances, row_k, col_k).
Definition iapsp (t : ctype) (graph : lil ival) : res (lil ival) :=
  let n := nrows graph in
  if negb (n =? ncols graph) then Throw DimensionException
  else
    Distances <- scaled_identity n (Ok 0%Z) ;;
    Distances <- eWiseAdd (op2 Plus t) idc idc (op2 Plus t) idc idc btrue idc (NoAcc idc) mnomask MERGE
                   Distances (Mat Distances) (Mat graph) ;;
    Distances <- defined_m Distances ;;
    s <- mfor (seq 0 n) (iapsp_body t n) (Distances, lil_new 1 n, lil_new n 1) ;;
    Ok (fst (fst s)).

(** ** Metrics over any scalar type [D]. *)
Section Metrics.
(** [Min], [Max] and [Plus] of the type, its zero, and the identities of [MaxMonoid<D>] and [MinMonoid<D>]
    (algebra.hpp:397-480); the two searches; [defined] is applied to a computed scalar. *)
Context {D : Type} (dmin dmax dplus : D -> D -> D) (d0 lowest highest : D).
Context (dsssp : lil D -> bvec D -> res (bool * bvec D)) (dbatch : lil D -> lil D -> res (bool * lil D)).
Context (defined : D -> res D).

(** [graph_distance], metrics.hpp:128-146. *)
Definition ggraph_distance (graph : lil D) (sid : nat) (result : bvec D) : res (bvec D) :=
  if negb (nrows graph =? ncols graph) || negb (nrows graph =? vsize result)
  then Throw DimensionException
  else
    result <- vec_setElement (vec_clear result) sid d0 ;;
    r <- dsssp graph result ;;
    Ok (snd r).
(** [graph_distance_matrix], metrics.hpp:158-178. *)
Definition ggraph_distance_matrix (graph : lil D) (result : lil D) : res (lil D) :=
  if negb (nrows graph =? ncols graph) || negb (nrows result =? nrows graph)
     || negb (ncols result =? ncols graph)
  then Throw DimensionException
  else
    result <- scaled_identity (nrows graph) d0 ;;
    r <- dbatch graph result ;;
    Ok (snd r).
(** [vertex_eccentricity], metrics.hpp:195-218. *)
Definition gvertex_eccentricity (graph : lil D) (vid : nat) : res D :=
  if negb (nrows graph =? ncols graph) then Throw DimensionException
  else
    result <- vec_new d0 (nrows graph) ;;
    result <- vec_setElement result vid d0 ;;
    r <- dsssp graph result ;;
    max_sp <- reduce_vs lowest idc dmax dmax idc (NoAcc idc) d0 (snd r) ;;
    defined max_sp.
(** [graph_radius], metrics.hpp:231-255. *)
Definition ggraph_radius (graph : lil D) : res D :=
  result <- ggraph_distance_matrix graph (lil_new (nrows graph) (ncols graph)) ;;
  eccentricity <- vec_new d0 (nrows graph) ;;
  eccentricity <- reduce idc dmax dmax btrue idc (NoAcc idc) vnomask MERGE eccentricity (Mat result) ;;
  radius <- reduce_vs highest idc dmin dmin idc (NoAcc idc) d0 eccentricity ;;
  defined radius.
(** [graph_diameter], metrics.hpp:268-283. *)
Definition ggraph_diameter (graph : lil D) : res D :=
  result <- ggraph_distance_matrix graph (lil_new (nrows graph) (ncols graph)) ;;
  diameter <- reduce_ms lowest idc dmax dmax dmax idc (NoAcc idc) d0 result ;;
  defined diameter.
(** [closeness_centrality], metrics.hpp:307-322. *)
Definition gcloseness_centrality (graph : lil D) (vid : nat) : res D :=
  distances <- vec_new d0 (nrows graph) ;;
  distances <- ggraph_distance graph vid distances ;;
  sum <- reduce_vs d0 idc dplus dplus idc (NoAcc idc) d0 distances ;;
  defined sum.
End Metrics.

Definition idefined (x : ival) : res ival := match x with Ok z => Ok (Ok z) | _ => UB end.
Definition igraph_distance (t : ctype) := ggraph_distance (Ok 0%Z) (isssp t).
Definition igraph_distance_matrix (t : ctype) := ggraph_distance_matrix (Ok 0%Z) (ibatch_sssp t).
Definition ivertex_eccentricity (t : ctype) := gvertex_eccentricity (op2 Max t) (Ok 0%Z) (Ok (tmin t)) (isssp t) idefined.
Definition igraph_radius (t : ctype) := ggraph_radius (op2 Min t) (op2 Max t) (Ok 0%Z) (Ok (tmax t)) (ibatch_sssp t) idefined.
Definition igraph_diameter (t : ctype) := ggraph_diameter (op2 Max t) (Ok 0%Z) (Ok (tmin t)) (ibatch_sssp t) idefined.
Definition icloseness_centrality (t : ctype) := gcloseness_centrality (op2 Plus t) (Ok 0%Z) (isssp t) idefined.

Definition fgraph_distance (t : ftype) := ggraph_distance f0 (fsssp t).
Definition fgraph_distance_matrix (t : ftype) := ggraph_distance_matrix f0 (fbatch_sssp t).
Definition fvertex_eccentricity (t : ftype) := gvertex_eccentricity (FMax t) f0 fninf (fsssp t) Ok.
Definition fgraph_radius (t : ftype) := ggraph_radius (FMin t) (FMax t) f0 finf (fbatch_sssp t) Ok.
Definition fgraph_diameter (t : ftype) := ggraph_diameter (FMax t) f0 fninf (fbatch_sssp t) Ok.
Definition fcloseness_centrality (t : ftype) := gcloseness_centrality (FPlus t) f0 (fsssp t) Ok.
