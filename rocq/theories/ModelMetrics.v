(** Model of the graph metrics.  /repo/src/algorithms/metrics.hpp. *)
From Verif Require Import Base ModelLil ModelVec ModelHelpers ModelViews ModelMul ModelElem
  ModelIndex ModelUtils ModelAlgoBase ModelSssp.

(** ** Degrees.  [T] is the scalar type of the graph, [dflt] is [T()], [ofcount] the implicit
    conversion of a count to [T] when the functions return. *)
Section Degree.
Context {T : Type} (dflt : T) (ofcount : Z -> T) (tplus : T -> T -> T).

(** [vertex_in_degree], metrics.hpp:46-65. *)
Definition vertex_in_degree (graph : lil T) (vid : nat) : res T :=
  if ncols graph <=? vid then Throw DimensionException
  else
    in_edges <- vec_new dflt (nrows graph) ;;
    in_edges <- extract_col btrue idc (NoAcc idc) vnomask MERGE in_edges (Mat graph) AllIdx vid ;;
    Ok (ofcount (vnvals in_edges)).

(** [vertex_out_degree], metrics.hpp:76-95.  The work vector has [nrows] elements although the
    column of the transpose extracted into it has [ncols]. *)
Definition vertex_out_degree (graph : lil T) (vid : nat) : res T :=
  if nrows graph <=? vid then Throw DimensionException
  else
    out_edges <- vec_new dflt (nrows graph) ;;
    out_edges <- extract_col btrue idc (NoAcc idc) vnomask MERGE out_edges (Trn graph) AllIdx vid ;;
    Ok (ofcount (vnvals out_edges)).

(** [vertex_degree], metrics.hpp:106-111.  The order in which C++ evaluates the two operands is
    unspecified; both throw the same exception. *)
Definition vertex_degree (graph : lil T) (vid : nat) : res T :=
  i <- vertex_in_degree graph vid ;;
  o <- vertex_out_degree graph vid ;;
  Ok (tplus i o).
End Degree.

(** ** Metrics based on distances.  Weights and distances are unbounded integers. *)

(** [graph_distance], metrics.hpp:128-146: the new [result].  The flag returned by [sssp] is
    ignored. *)
Definition graph_distance (graph : lil Z) (sid : nat) (result : bvec Z) : res (bvec Z) :=
  if negb (nrows graph =? ncols graph) || negb (nrows graph =? vsize result)
  then Throw DimensionException
  else
    result <- vec_setElement (vec_clear result) sid 0%Z ;;
    r <- sssp graph result ;;
    Ok (snd r).

(** [graph_distance_matrix], metrics.hpp:158-178. *)
Definition graph_distance_matrix (graph : lil Z) (result : lil Z) : res (lil Z) :=
  if negb (nrows graph =? ncols graph) || negb (nrows result =? nrows graph)
     || negb (ncols result =? ncols graph)
  then Throw DimensionException
  else
    result <- scaled_identity (nrows graph) 0%Z ;;
    r <- batch_sssp graph result ;;
    Ok (snd r).

(** [lowest] and [highest] are the identities of [MaxMonoid<T>] and [MinMonoid<T>],
    algebra.hpp:391-480. *)

(** [vertex_eccentricity], metrics.hpp:195-218. *)
Definition vertex_eccentricity (lowest : Z) (graph : lil Z) (vid : nat) : res Z :=
  if negb (nrows graph =? ncols graph) then Throw DimensionException
  else
    result <- vec_new 0%Z (nrows graph) ;;
    result <- vec_setElement result vid 0%Z ;;
    r <- sssp graph result ;;
    reduce_vs lowest idc zmax zmax idc (NoAcc idc) 0%Z (snd r).

(** [graph_radius], metrics.hpp:231-255. *)
Definition graph_radius (highest : Z) (graph : lil Z) : res Z :=
  result <- graph_distance_matrix graph (lil_new (nrows graph) (ncols graph)) ;;
  eccentricity <- vec_new 0%Z (nrows graph) ;;
  eccentricity <- reduce idc zmax zmax btrue idc (NoAcc idc) vnomask MERGE eccentricity
                    (Mat result) ;;
  reduce_vs highest idc zmin zmin idc (NoAcc idc) 0%Z eccentricity.

(** [graph_diameter], metrics.hpp:268-283. *)
Definition graph_diameter (lowest : Z) (graph : lil Z) : res Z :=
  result <- graph_distance_matrix graph (lil_new (nrows graph) (ncols graph)) ;;
  reduce_ms lowest idc zmax zmax zmax idc (NoAcc idc) 0%Z result.

(** [closeness_centrality], metrics.hpp:307-322. *)
Definition closeness_centrality (graph : lil Z) (vid : nat) : res Z :=
  distances <- vec_new 0%Z (nrows graph) ;;
  distances <- graph_distance graph vid distances ;;
  reduce_vs 0%Z idc Z.add Z.add idc (NoAcc idc) 0%Z distances.
