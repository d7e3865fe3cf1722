(** Model of page rank.  /repo/src/algorithms/page_rank.hpp.  The real numbers of the code
    ([RealT], [double]) are the rationals [Qc] here: exact arithmetic, no rounding. *)
From Coq Require Import QArith Qcanon.
From Verif Require Import Base ModelLil ModelVec ModelHelpers ModelViews ModelMul ModelElem
  ModelIndex ModelUtils ModelAlgoBase.
Local Open Scope nat_scope.

(** [static_cast<RealT>(n)] *)
Definition qn (n : nat) : Qc := Q2Qc (inject_Z (Z.of_nat n)).
(** A number used as a flag by a mask. *)
Definition qtrue (q : Qc) : bool := if Qc_eq_dec q 0 then false else true.

(** One iteration, page_rank.hpp:112-156: the new [new_rank] and [delta], and [squared_error].
    [teleport] is the constant of [add_scaled_teleport], 98-101. *)
Definition pr_body (m : lil Qc) (teleport : Qc) (page_rank new_rank delta : bvec Qc)
  : res (bvec Qc * bvec Qc * Qc) :=
  new_rank <- vxm Qcplus Qcmult btrue idc (Acc (fun _ y => y) idc idc) vnomask MERGE new_rank page_rank (Mat m) ;;
  new_rank <- apply_v (fun x => (x + teleport)%Qc) btrue idc (NoAcc idc) vnomask MERGE new_rank new_rank ;;
  delta <- eWiseAdd_v Qcminus idc idc btrue idc (NoAcc idc) vnomask MERGE delta page_rank new_rank ;;
  delta <- eWiseMult_v Qcmult btrue idc (NoAcc idc) vnomask MERGE delta delta delta ;;
  squared_error <- reduce_vs 0%Qc idc Qcplus Qcplus idc (NoAcc idc) 0%Qc delta ;;
  Ok (new_rank, delta, squared_error).

(** The loop, page_rank.hpp:112-162: [max_iters] is the number of iterations still allowed.  Returns
    [page_rank] and [new_rank]. *)
Fixpoint pr_loop (max_iters rows : nat) (m : lil Qc) (teleport threshold : Qc)
    (page_rank new_rank delta : bvec Qc) : res (bvec Qc * bvec Qc) :=
  match max_iters with
  | O => Ok (page_rank, new_rank)
  | S k =>
      x <- pr_body m teleport page_rank new_rank delta ;;
      let '(new_rank, delta, squared_error) := x in
      if Qclt_le_dec (squared_error / qn rows) threshold then Ok (new_rank, new_rank)
      else pr_loop k rows m teleport threshold new_rank new_rank delta
  end.

(** [page_rank], page_rank.hpp:58-177.  [tr] converts a stored value of the graph, and [rt] an index,
    to a number; the latter goes through the scalar type of the graph ([static_cast<T>(rows)]). *)
Definition page_rank {T : Type} (tr : T -> Qc) (rt : nat -> Qc) (graph : lil T) (page_rank : bvec Qc)
    (damping_factor threshold : Qc) (max_iters : nat) : res (bvec Qc) :=
  let rows := nrows graph in
  let cols := ncols graph in
  if negb (rows =? cols) || negb (vsize page_rank =? rows) then Throw DimensionException else
  m <- apply tr btrue idc (NoAcc idc) mnomask MERGE (lil_new rows cols) (Mat graph) ;;
  m <- normalize_rows 0%Qc Qcplus Qcmult Qcinv m ;;
  m <- apply (fun x => (x * damping_factor)%Qc) btrue idc (NoAcc idc) mnomask MERGE m (Mat m) ;;
  let teleport := ((1 - damping_factor) / rt rows)%Qc in
  page_rank <- assign_const_v idc btrue idc (NoAcc idc) vnomask MERGE page_rank (1 / qn rows)%Qc AllIdx ;;
  new_rank <- vec_new 0%Qc rows ;;
  delta <- vec_new 0%Qc rows ;;
  r <- pr_loop max_iters rows m teleport threshold page_rank new_rank delta ;;
  let (page_rank, new_rank) := r in
  new_rank <- assign_const_v idc btrue idc (NoAcc idc) vnomask MERGE new_rank teleport AllIdx ;;
  eWiseAdd_v Qcplus idc idc qtrue idc (NoAcc idc) (MComp page_rank) MERGE page_rank page_rank new_rank.
