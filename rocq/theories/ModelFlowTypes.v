(** Model of the Ford-Fulkerson maximum flow algorithm over the built-in integer types and over [float] and [double].
    /repo/src/algorithms/maxflow.hpp:251-406.  ModelFlow is the same over the unbounded integers; the search for a path
    is the one of ModelFlow, which does not look at the capacities.
    [D] is the scalar type: [min], [plus], [times] and [neg] are [Min<T>], [Plus<T>], [Times<T>] and
    [AdditiveInverse<T>], [dtrue] the conversion to [bool], [ofb] that from [bool], [inf] the identity of
    [MinMonoid<T>].  [chk] and [chkm] make an undefined result the result of the whole call, as in ModelInts. *)
From Coq Require Import ZArith Floats.SpecFloat.
From Verif Require Import Base ModelLil ModelVec ModelHelpers ModelViews ModelMul ModelElem ModelIndex ModelAlgoBase ModelAlgebra
  ModelOps ModelFloat ModelFsssp ModelInts ModelIntPaths ModelMstTypes ModelFlow.

Section Flow.
Context {D : Type} (min plus times : D -> D -> D) (neg : D -> D) (dtrue : D -> bool) (ofb : bool -> D) (zero inf : D)
  (chk : D -> res D) (chkm : lil D -> res (lil D)).

(** The body of the loop of [maxflow_ford_fulk], maxflow.hpp:349-393: the state is [F], [R]. *)
Definition gmf_augment (num_nodes : nat) (graph : lil D) (M : lil bool) (F R : lil D) : res (lil D * lil D) :=
  G <- eWiseMult (fun b r => times (ofb b) r) (fun a b => times (ofb a) (ofb b)) dtrue btrue idc (NoAcc idc) mnomask MERGE
         (lil_new num_nodes num_nodes) (Mat M) (Mat R) ;;
  G <- chkm G ;;
  gamma <- reduce_ms inf idc min min min idc (NoAcc idc) zero G ;;
  gamma <- chk gamma ;;
  GM <- apply (fun b => times (ofb b) gamma) btrue idc (NoAcc idc) mnomask MERGE
          (lil_new num_nodes num_nodes) (Mat M) ;;
  GM <- chkm GM ;;
  GM <- apply neg btrue idc (Acc plus idc idc) mnomask MERGE GM (Trn GM) ;;
  GM <- chkm GM ;;
  F <- eWiseAdd plus idc idc plus idc idc btrue idc (NoAcc idc) mnomask REPLACE F (Mat F) (Mat GM) ;;
  F <- chkm F ;;
  mF <- apply neg btrue idc (NoAcc idc) mnomask MERGE (lil_new num_nodes num_nodes) (Mat F) ;;
  mF <- chkm mF ;;
  R <- eWiseAdd plus idc idc plus idc idc btrue idc (NoAcc idc) mnomask REPLACE R (Mat graph) (Mat mF) ;;
  R <- chkm R ;;
  R <- apply idc dtrue idc (NoAcc idc) (MVal R) REPLACE R (Mat R) ;;
  Ok (F, R).

(** The loop, maxflow.hpp:342-395, as in ModelFlow. *)
Fixpoint gmf_loop (n fuel : nat) (graph : lil D) (source sink : nat) (ramp : bvec nat)
    (M : lil bool) (F R : lil D) (count : Z) : res (option (lil D)) :=
  match n with
  | O => Ok None
  | S n' =>
      b <- maxflow_bfs fuel R source sink ramp M ;;
      match b with
      | None => Ok None
      | Some (found, M) =>
          if found && (count <? nvals graph)%Z then
            FR <- gmf_augment (nrows graph) graph M F R ;;
            gmf_loop n' fuel graph source sink ramp M (fst FR) (snd FR) (count + 1)
          else Ok (Some F)
      end
  end.

(** [maxflow_ford_fulk], maxflow.hpp:309-406. *)
Definition gmaxflow_ford_fulk (n : nat) (graph : lil D) (source sink : nat) : res (option D) :=
  let num_nodes := nrows graph in
  ramp <- vec_new 0 num_nodes ;;
  ramp <- vec_build 0 (fun _ b => b) ramp (map (fun i => (i, i)) (seq 0 num_nodes)) ;;
  o <- gmf_loop n n graph source sink ramp (lil_new num_nodes num_nodes)
         (lil_new num_nodes num_nodes) graph 0 ;;
  match o with
  | None => Ok None
  | Some F =>
      sink_edges <- vec_new zero num_nodes ;;
      sink_edges <- extract_col btrue idc (NoAcc idc) vnomask MERGE sink_edges (Mat F) AllIdx sink ;;
      max_flow <- reduce_vs zero idc plus plus idc (NoAcc idc) zero sink_edges ;;
      max_flow <- chk max_flow ;;
      Ok (Some max_flow)
  end.
End Flow.

(** A unary operator from type [t] to type [t]. *)
Definition op1 (op : unop) (t : ctype) (x : ival) : ival := match x with Ok a => op t t a | _ => UB end.
(** Over an integer type, and over a floating point type.  The identities of [MinMonoid] are those of algebra.hpp:444-479. *)
Definition imaxflow (t : ctype) :=
  gmaxflow_ford_fulk (op2 Min t) (op2 Plus t) (op2 Times t) (op1 AdditiveInverse t) inonzero (fun b => Ok (if b then 1%Z else 0%Z))
    (Ok 0%Z) (Ok (tmax t)) defined defined_m.
Definition fmaxflow (t : ftype) :=
  gmaxflow_ford_fulk (FMin t) (FPlus t) (FTimes t) (FAdditiveInverse t) ftrue (fun b : bool => if b then f1 t else f0)
    f0 finf Ok Ok.
