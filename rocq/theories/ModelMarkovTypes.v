(** Model of Markov clustering over any type of numbers, and over [double].  /repo/src/algorithms/cluster.hpp. *)
From Coq Require Import ZArith Floats.SpecFloat.
From Verif Require Import Base ModelLil ModelVec ModelHelpers ModelViews ModelMul ModelElem
  ModelIndex ModelUtils ModelAlgoBase ModelRank ModelCluster ModelFloat ModelFsssp ModelClusterTypes.
Local Open Scope nat_scope.

Section Markov.
(** [RealT]: 0, its operators, [<], conversion to [bool] by a mask, conversion from an index. *)
Context {R : Type} (zero : R) (plus minus times div : R -> R -> R) (inv : R -> R) (less : R -> R -> bool) (truthy : R -> bool)
  (of_index : nat -> R).

(** 478-486: the expansion is masked by the values computed so far. *)
Definition rt_mk_expand (e : nat) (Anorm : lil R) : res (lil R) :=
  ModelCluster.times (e - 1) (fun Apower => mxm plus times times idc idc truthy idc (NoAcc idc) (MVal Apower) REPLACE
                                              Apower (Mat Apower) (Mat Anorm)) Anorm.
(** 490-501. *)
Definition rt_mk_inflate (r : nat) (Apower : lil R) : res (lil R) :=
  Ainfl <- ModelCluster.times (r - 1) (fun Ainfl => eWiseMult times times idc truthy idc (NoAcc idc) (MVal Ainfl) REPLACE
                                                      Ainfl (Mat Ainfl) (Mat Apower)) Apower ;;
  normalize_cols zero plus times inv Ainfl.
(** 504-519. *)
Definition rt_mk_error (rows : nat) (Anorm Ainfl : lil R) : res R :=
  E <- eWiseAdd minus idc idc minus idc idc btrue idc (NoAcc idc) mnomask MERGE (lil_new rows rows) (Mat Anorm) (Mat Ainfl) ;;
  E <- eWiseMult times times idc btrue idc (NoAcc idc) mnomask MERGE E (Mat E) (Mat E) ;;
  err <- reduce_ms zero idc plus plus plus idc (NoAcc idc) zero E ;;
  Ok (div err (times (of_index rows) (of_index rows))).
(** 472-532. *)
Fixpoint rt_mk_loop (max_iters rows e r : nat) (threshold : R) (Anorm : lil R) : res (lil R) :=
  match max_iters with
  | O => Ok Anorm
  | S k =>
      Apower <- rt_mk_expand e Anorm ;;
      Ainfl <- rt_mk_inflate r Apower ;;
      err <- rt_mk_error rows Anorm Ainfl ;;
      if less err threshold then Ok Ainfl
      else Anorm <- lil_assign Anorm Ainfl ;; rt_mk_loop k rows e r threshold Anorm
  end.
(** [markov_cluster], 446-533, for powers [e] and [r] of at least 1 (for 0, [e - 1] wraps around to the largest index). *)
Definition rt_markov_cluster {T : Type} (tr : T -> R) (graph : lil T) (e r : nat) (threshold : R) (max_iters : nat)
  : res (lil R) :=
  let rows := nrows graph in
  let cols := ncols graph in
  if negb (rows =? cols) then Throw DimensionException else
  Anorm <- apply tr btrue idc (NoAcc idc) mnomask MERGE (lil_new rows cols) (Mat graph) ;;
  Anorm <- normalize_cols zero plus times inv Anorm ;;
  rt_mk_loop max_iters rows e r threshold Anorm.
End Markov.

(** With [RealT] = [double], the default. *)
Definition dmarkov_cluster {T : Type} (tr : T -> fval) : lil T -> nat -> nat -> fval -> nat -> res (lil fval) :=
  rt_markov_cluster f0 (FPlus CDouble) (FMinus CDouble) (FTimes CDouble) (FDiv CDouble) (FMultiplicativeInverse CDouble)
    FLessThan ftrue double_of_index tr.
(** The default of the parameter [convergence_threshold], 1.0e-16: the [double] closest to it. *)
Definition mk_threshold : fval := FDiv CDouble (f1 CDouble) (of_int CDouble (10 ^ 16)).
