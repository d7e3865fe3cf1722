(** Model of the maximal independent set algorithm.  /repo/src/algorithms/mis.hpp.
    [T] is the scalar type of the graph, [tb] and [tr] its conversions to [bool] and to [RealT]
    ([float]); the operations of [RealT] are parameters: [rlt] is [<], [rplus] is [+], [rb] the
    conversion to [bool], [r0] is [RealT()]. *)
From Verif Require Import Base ModelLil ModelVec ModelHelpers ModelViews ModelMul ModelElem
  ModelIndex ModelAlgoBase.

Section Mis.
Context {T R : Type} (tb : T -> bool) (tr : T -> R) (r0 : R) (rplus : R -> R -> R)
  (rlt : R -> R -> bool) (rb : R -> bool).

(** [Max], algebra.hpp:295-299, and [GreaterThan], algebra.hpp:248-252, on [RealT]. *)
Definition rmax (a b : R) : R := if rlt a b then b else a.
Definition rgt (a b : R) : bool := rlt b a.

(** The random numbers: [draw t i d] is what the function object of lines 149-151 returns in the
    [t]-th iteration for the vertex [i] of degree [d].  Every such call happens at most once, so
    that all sequences of random numbers are covered by all functions [draw]. *)
Definition number_values (f : nat -> R -> R) (w : bvec R) : bvec R :=
  mkVec (vsize w) (vnvals w)
    (map (fun '(i, x) => f i x) (combine (seq 0 (length (vvals w))) (vvals w))) (vbits w).

(** The vectors that live across iterations: [candidates], [independent_set], [prob],
    [neighbor_max], [new_members], [new_neighbors], and the number of the iteration. *)
Record mis_state := mkMis {
  mcand : bvec bool; mset : bvec bool; mprob : bvec R; mnmax : bvec R; mnew : bvec bool;
  mnbrs : bvec bool; miter : nat }.

(** The body of the loop, mis.hpp:136-214. *)
Definition mis_body (draw : nat -> nat -> R -> R) (graph : lil T) (degrees : bvec R)
    (s : mis_state) : res mis_state :=
  (* 143-152: the lambda, applied where both are stored; there is neither mask nor accumulator *)
  prob <- eWiseMult_v (fun (_ : bool) (d : R) => d) btrue idc (NoAcc idc) vnomask MERGE
            (mprob s) (mcand s) degrees ;;
  let prob := number_values (draw (miter s)) prob in
  neighbor_max <- mxv rmax (fun (_ : T) (p : R) => p) (fun (p : R) (_ : T) => p) btrue idc
                    (NoAcc idc) (MVal (mcand s)) REPLACE (mnmax s) (Mat graph) prob ;;
  new_members <- eWiseAdd_v rgt rb rb btrue idc (NoAcc idc) vnomask MERGE (mnew s)
                   prob neighbor_max ;;
  new_members <- apply_v idc btrue idc (NoAcc idc) (MVal new_members) REPLACE new_members
                   new_members ;;
  independent_set <- eWiseAdd_v orb idc idc btrue idc (NoAcc idc) vnomask MERGE (mset s)
                       (mset s) new_members ;;
  candidates <- eWiseMult_v andb btrue idc (NoAcc idc) (MComp new_members) REPLACE (mcand s)
                  (mcand s) (mcand s) ;;
  if negb (has_vals (vnvals candidates)) then
    (* break: the condition of the loop is false in this state *)
    Ok (mkMis candidates independent_set prob neighbor_max new_members (mnbrs s) (S (miter s)))
  else
    new_neighbors <- mxv orb (fun (a : T) (b : bool) => tb a && b)
                       (fun (b : bool) (a : T) => b && tb a) btrue idc (NoAcc idc)
                       (MVal candidates) MERGE (mnbrs s) (Mat graph) new_members ;;
    candidates <- eWiseMult_v andb btrue idc (NoAcc idc) (MComp new_neighbors) REPLACE candidates
                    candidates candidates ;;
    Ok (mkMis candidates independent_set prob neighbor_max new_members new_neighbors
          (S (miter s))).

(** [mis], mis.hpp:89-217: the new [independent_set], or [None] when the loop has not ended after
    [n] tests of its condition. *)
Definition mis (draw : nat -> nat -> R -> R) (n : nat) (graph : lil T) (independent_set : bvec bool)
  : res (option (bvec bool)) :=
  let num_vertices := nrows graph in
  if negb (num_vertices =? ncols graph) || negb (num_vertices =? vsize independent_set)
  then Throw DimensionException
  else
    prob <- vec_new r0 num_vertices ;;
    neighbor_max <- vec_new r0 num_vertices ;;
    new_members <- vec_new false num_vertices ;;
    new_neighbors <- vec_new false num_vertices ;;
    degrees <- vec_new r0 num_vertices ;;
    degrees <- reduce tr (fun x y => rplus (tr x) (tr y)) (fun s x => rplus s (tr x)) btrue idc
                 (Acc rplus idc idc) vnomask MERGE degrees (Mat graph) ;;
    candidates <- vec_new false num_vertices ;;
    candidates <- assign_const_v idc rb idc (NoAcc idc) (MVal degrees) REPLACE candidates true
                    AllIdx ;;
    independent_set <- assign_const_v idc rb idc (NoAcc idc) (MComp degrees) REPLACE
                         independent_set true AllIdx ;;
    s <- mwhile n (fun s => has_vals (vnvals (mcand s))) (mis_body draw graph degrees)
           (mkMis candidates independent_set prob neighbor_max new_members new_neighbors 0) ;;
    match s with
    | Some s => Ok (Some (mset s))
    | None => Ok None
    end.
End Mis.

(** [get_vertex_IDs], mis.hpp:46-57.  The arrays have room for [nvals] elements. *)
Definition get_vertex_IDs {T : Type} (independent_set : bvec T) : res (list nat) :=
  c <- vec_extractTuples independent_set ;;
  if (Z.of_nat (length c) <=? vnvals independent_set)%Z
  then Ok (map fst c ++ repeat 0 (Z.to_nat (vnvals independent_set) - length c))
  else UB.
