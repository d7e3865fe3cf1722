(** Model of the parent breadth first searches over the scalar types in which the caller keeps
    graph, wavefronts and parents.  /repo/src/algorithms/bfs.hpp.  ModelBfs keeps the indices as
    unbounded numbers; here every conversion between [IndexType] (64 bits) and the scalar types of
    the containers is explicit.  [n] bounds the iterations of the loop. *)
From Coq Require Import ZArith Floats.SpecFloat.
From Verif Require Import Base ModelLil ModelVec ModelHelpers ModelViews ModelMul ModelElem
  ModelIndex ModelAlgoBase ModelBfs ModelAlgebra ModelFloat ModelFsssp ModelLevels.

(** The conversion of an [IndexType] value, and of a value of another scalar type (C++
    [conv.integral], [conv.fpint], [conv.bool]).  Simplification: a fraction is dropped also between
    two floating point types; the searches only use indices they converted themselves. *)
Definition of_index (B : scalar) (i : nat) : sty B := s_of B (Z.of_nat i).
Definition cv (A B : scalar) (x : sty A) : sty B := s_of B (s_to A x).
(** To [IndexType]. *)
Definition to_ix (A : scalar) (x : sty A) : nat := Z.to_nat (u64 (s_to A x)).

(** [Min<T>] and [Plus<T>], algebra.hpp:289-293 and 310-314.  Simplification: the overflow of a
    signed sum, which is undefined, wraps here; the searches never add two parents. *)
Definition min_of (lt : ltype) : sty (scalar_of lt) -> sty (scalar_of lt) -> sty (scalar_of lt) :=
  match lt with LInt t => zmin | LFloat t => FMin t end.
Definition plus_of (lt : ltype) : sty (scalar_of lt) -> sty (scalar_of lt) -> sty (scalar_of lt) :=
  match lt with LInt t => fun a b => convert t (a + b) | LFloat t => FPlus t end.

Section Source.
Context {T : Type} (PT : scalar).
Notation P := (sty PT).

(** ** [bfs(graph, source, parent_list)], bfs.hpp:53-105; the body of the loop, 82-104.  The
    wavefront is of [IndexType]. *)
Definition pbfs_body (ramp : bvec nat) (graph : lil T) (s : bvec nat * bvec P)
  : res (bvec nat * bvec P) :=
  let '(wavefront, parent_list) := s in
  wavefront <- eWiseMult_v (fun a _ : nat => a) btrue idc (NoAcc idc) vnomask MERGE
                 wavefront ramp wavefront ;;
  wavefront <- vxm nmin (fun (a : nat) (_ : T) => a) (s_true PT) idc (NoAcc idc)
                 (MSComp parent_list) REPLACE wavefront wavefront (Mat graph) ;;
  parent_list <- apply_v idc btrue (of_index PT)
                   (Acc (fun p x => Z.to_nat (u64 (Z.of_nat (to_ix PT p) + Z.of_nat x))) (to_ix PT) idc)
                   vnomask MERGE parent_list wavefront ;;
  Ok (wavefront, parent_list).

Definition pbfs (n : nat) (graph : lil T) (source : nat) (parent_list : bvec P)
  : res (option (bvec P)) :=
  let N := nrows graph in
  ramp <- index_ramp N ;;
  wavefront <- vec_new 0 N ;;
  wavefront <- vec_setElement wavefront source 1 ;;
  parent_list <- vec_setElement (vec_clear parent_list) source (of_index PT source) ;;
  r <- mwhile n (fun s => has_vals (vnvals (fst s))) (pbfs_body ramp graph)
         (wavefront, parent_list) ;;
  Ok (option_map snd r).
End Source.

(** ** The searches from wavefronts compute in the scalar type of the graph. *)
Section Fronts.
Context (lt : ltype) (WT PT : scalar).
Notation GT := (scalar_of lt).
Notation T := (sty GT).
Notation W := (sty WT).
Notation P := (sty PT).

(** [bfs(graph, wavefront, parent_list)], bfs.hpp:125-182; the body of the loop, 158-181. *)
Definition pbfs_w_body (ramp : bvec nat) (graph : lil T) (s : bvec W * bvec P)
  : res (bvec W * bvec P) :=
  let '(wavefront, parent_list) := s in
  wavefront <- eWiseMult_v (fun (a : nat) (_ : W) => a) btrue (of_index WT) (NoAcc idc) vnomask MERGE
                 wavefront ramp wavefront ;;
  wavefront <- vxm (min_of lt) (fun (a : W) (_ : T) => cv WT GT a) (s_true PT) (cv GT WT) (NoAcc idc)
                 (MSComp parent_list) REPLACE wavefront wavefront (Mat graph) ;;
  parent_list <- apply_v (cv WT GT) btrue (cv GT PT)
                   (Acc (fun p x => plus_of lt (cv PT GT p) x) (cv PT GT) idc) vnomask MERGE
                   parent_list wavefront ;;
  Ok (wavefront, parent_list).

Definition pbfs_w (n : nat) (graph : lil T) (wavefront : bvec W) (parent_list : bvec P)
  : res (option (bvec P)) :=
  ramp <- index_ramp (nrows graph) ;;
  parent_list <- eWiseMult_v (fun (a : nat) (_ : W) => a) btrue (of_index PT) (NoAcc idc) vnomask MERGE
                   parent_list ramp wavefront ;;
  parent_list <- eWiseMult_v (fun (a : nat) (_ : P) => a) btrue (of_index PT) (NoAcc idc) vnomask MERGE
                   parent_list ramp parent_list ;;
  r <- mwhile n (fun s => has_vals (vnvals (fst s))) (pbfs_w_body ramp graph)
         (wavefront, parent_list) ;;
  Ok (option_map snd r).

(** [bfs_batch(graph, wavefronts, parent_list)], bfs.hpp:203-254: the product with the ramp
    (224-227 into the parents, 232-235 into the wavefronts) and the body of the loop, 229-253. *)
Definition pto_index (S : scalar) (C : lil (sty S)) (wavefronts : lil W) (ramp : lil nat)
  : res (lil (sty S)) :=
  mxm (min_of lt) (fun (_ : W) (b : nat) => of_index GT b) (fun (b : nat) (_ : W) => of_index GT b)
    (cv GT S) (cv S GT) btrue (cv GT S) (NoAcc idc) mnomask MERGE
    C (Mat wavefronts) (Mat ramp).

Definition pbfs_batch_body (ramp : lil nat) (graph : lil T) (s : lil W * lil P)
  : res (lil W * lil P) :=
  let '(wavefronts, parent_list) := s in
  wavefronts <- pto_index WT wavefronts wavefronts ramp ;;
  wavefronts <- mxm (min_of lt) (fun (a : W) (_ : T) => cv WT GT a) (fun (_ : T) (a : W) => cv WT GT a)
                  (cv GT WT) (cv WT GT) (s_true PT) (cv GT WT) (NoAcc idc) (MSComp parent_list) REPLACE
                  wavefronts (Mat wavefronts) (Mat graph) ;;
  parent_list <- apply (cv WT GT) btrue (cv GT PT)
                   (Acc (fun p x => plus_of lt (cv PT GT p) x) (cv PT GT) idc) mnomask MERGE
                   parent_list (Mat wavefronts) ;;
  Ok (wavefronts, parent_list).

Definition pbfs_batch (n : nat) (graph : lil T) (wavefronts : lil W) (parent_list : lil P)
  : res (option (lil P)) :=
  ramp <- index_ramp_m (nrows graph) ;;
  parent_list <- pto_index PT parent_list wavefronts ramp ;;
  r <- mwhile n (fun s => has_vals (nvals (fst s))) (pbfs_batch_body ramp graph)
         (wavefronts, parent_list) ;;
  Ok (option_map snd r).
End Fronts.
