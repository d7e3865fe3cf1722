(** Model of page rank over any type of numbers, and over [double].  /repo/src/algorithms/page_rank.hpp. *)
From Coq Require Import ZArith Floats.SpecFloat.
From Verif Require Import Base ModelLil ModelVec ModelHelpers ModelViews ModelMul ModelElem
  ModelIndex ModelUtils ModelAlgoBase ModelFloat ModelFsssp.
Local Open Scope nat_scope.

Section Rank.
(** [RealT]: 0 and 1, its operators, [<], conversion to [bool] by a mask, conversion from an index. *)
Context {R : Type} (zero one : R) (plus minus times div : R -> R -> R) (inv : R -> R) (less : R -> R -> bool)
  (truthy : R -> bool) (of_index : nat -> R).

(** One iteration, page_rank.hpp:112-156: the new [new_rank] and [delta], and [squared_error].
    [teleport] is the constant of [add_scaled_teleport], 98-101. *)
Definition rt_body (m : lil R) (teleport : R) (page_rank new_rank delta : bvec R) : res (bvec R * bvec R * R) :=
  new_rank <- vxm plus times btrue idc (Acc (fun _ y => y) idc idc) vnomask MERGE new_rank page_rank (Mat m) ;;
  new_rank <- apply_v (fun x => plus x teleport) btrue idc (NoAcc idc) vnomask MERGE new_rank new_rank ;;
  delta <- eWiseAdd_v minus idc idc btrue idc (NoAcc idc) vnomask MERGE delta page_rank new_rank ;;
  delta <- eWiseMult_v times btrue idc (NoAcc idc) vnomask MERGE delta delta delta ;;
  squared_error <- reduce_vs zero idc plus plus idc (NoAcc idc) zero delta ;;
  Ok (new_rank, delta, squared_error).

(** The loop, page_rank.hpp:112-162: [max_iters] is the number of iterations still allowed.  Returns
    [page_rank] and [new_rank]. *)
Fixpoint rt_loop (max_iters rows : nat) (m : lil R) (teleport threshold : R) (page_rank new_rank delta : bvec R)
  : res (bvec R * bvec R) :=
  match max_iters with
  | O => Ok (page_rank, new_rank)
  | S k =>
      x <- rt_body m teleport page_rank new_rank delta ;;
      let '(new_rank, delta, squared_error) := x in
      if less (div squared_error (of_index rows)) threshold then Ok (new_rank, new_rank)
      else rt_loop k rows m teleport threshold new_rank new_rank delta
  end.

(** [page_rank], page_rank.hpp:58-177.  [tr] converts a stored value of the graph, and [rt] an index, to a number; the
    latter goes through the scalar type of the graph ([static_cast<T>(rows)]). *)
Definition rt_page_rank {T : Type} (tr : T -> R) (rt : nat -> R) (graph : lil T) (page_rank : bvec R)
    (damping_factor threshold : R) (max_iters : nat) : res (bvec R) :=
  let rows := nrows graph in
  let cols := ncols graph in
  if negb (rows =? cols) || negb (vsize page_rank =? rows) then Throw DimensionException else
  m <- apply tr btrue idc (NoAcc idc) mnomask MERGE (lil_new rows cols) (Mat graph) ;;
  m <- normalize_rows zero plus times inv m ;;
  m <- apply (fun x => times x damping_factor) btrue idc (NoAcc idc) mnomask MERGE m (Mat m) ;;
  let teleport := div (minus one damping_factor) (rt rows) in
  page_rank <- assign_const_v idc btrue idc (NoAcc idc) vnomask MERGE page_rank (div one (of_index rows)) AllIdx ;;
  new_rank <- vec_new zero rows ;;
  delta <- vec_new zero rows ;;
  r <- rt_loop max_iters rows m teleport threshold page_rank new_rank delta ;;
  let (page_rank, new_rank) := r in
  new_rank <- assign_const_v idc btrue idc (NoAcc idc) vnomask MERGE new_rank teleport AllIdx ;;
  eWiseAdd_v plus idc idc truthy idc (NoAcc idc) (MComp page_rank) MERGE page_rank page_rank new_rank.
End Rank.

(** [page_rank] with [RealT] = [double].  (With [RealT] = [float] the constants 1.0 make some of the arithmetic [double];
    not modelled.) *)
Definition dpage_rank {T : Type} (tr : T -> fval) (rt : nat -> fval) : lil T -> bvec fval -> fval -> fval -> nat -> res (bvec fval) :=
  rt_page_rank f0 (f1 CDouble) (FPlus CDouble) (FMinus CDouble) (FTimes CDouble) (FDiv CDouble) (FMultiplicativeInverse CDouble)
    FLessThan ftrue (fun n => of_int CDouble (Z.of_nat n)) tr rt.
