(** Operand views, frontend checks and the row primitives used by the operations. *)
From Verif Require Import Base ModelLil ModelVec ModelHelpers.

(** A matrix operand: a matrix, or [transpose(M)].
    /repo/src/graphblas/TransposeView.hpp:42-81; [transpose] of operations.hpp:1151-1157
    cannot be applied to a view again. *)
Inductive mview (T : Type) : Type :=
| Mat (M : lil T)
| Trn (M : lil T).
Arguments Mat {T} M.
Arguments Trn {T} M.

(** [nrows()] and [ncols()] of the view, TransposeView.hpp:53-54. *)
Definition vrows {T : Type} (A : mview T) : nat :=
  match A with Mat M => nrows M | Trn M => ncols M end.
Definition vcols {T : Type} (A : mview T) : nat :=
  match A with Mat M => ncols M | Trn M => nrows M end.

(** [check_val_equals], /repo/src/graphblas/detail/checks.hpp:56-62, behind all of the
    [check_*_*_*] shape comparisons, 90-260. *)
Definition check_eq (a b : nat) : res unit := throw_if (negb (a =? b)) DimensionException.

(** Mask shape checks, checks.hpp: the overloads for [NoMask] do nothing; the views
    answer with the shape of the viewed container. *)
Definition check_mask_rows {TM : Type} (n : nat) (m : mask (lil TM)) : res unit :=
  match m with
  | NoMask => Ok tt
  | MVal M | MComp M | MStruct M | MSComp M => check_eq n (nrows M)
  end.
Definition check_mask_cols {TM : Type} (n : nat) (m : mask (lil TM)) : res unit :=
  match m with
  | NoMask => Ok tt
  | MVal M | MComp M | MStruct M | MSComp M => check_eq n (ncols M)
  end.
Definition check_mask_size {TM : Type} (n : nat) (m : mask (bvec TM)) : res unit :=
  match m with
  | NoMask => Ok tt
  | MVal v | MComp v | MStruct v | MSComp v => check_eq n (vsize v)
  end.

(** [T[i] = r] on a mutable row reference (the count is not touched),
    LilSparseMatrix.hpp:433-435. *)
Definition putrow {T : Type} (M : lil T) (i : nat) (r : row T) : res (lil T) :=
  d <- vset (data M) i r ;;
  Ok (mkLil (nrows M) (ncols M) (nvals M) d).

(** [T[i].emplace_back(p)]. *)
Definition pushrow {T : Type} (M : lil T) (i : nat) (p : nat * T) : res (lil T) :=
  r <- getrow M i ;;
  putrow M i (r ++ [p]).

(** [for (auto [j, v] : r) T[j].emplace_back(i, g(v))]: the rows of a result filled one
    column at a time (sparse_transpose.hpp:73-76, sparse_mxm.hpp:295-299, ...). *)
Definition pushcol {S T : Type} (g : S -> T) (i : nat) (r : row S) (M : lil T) : res (lil T) :=
  mfor r (fun p M' => pushrow M' (fst p) (i, g (snd p))) M.

(** [x.nvals() > 0] for the unsigned count field. *)
Definition has_vals (n : Z) : bool := negb (Z.eqb n 0).

(** [r.empty()]. *)
Definition empty {X : Type} (r : list X) : bool :=
  match r with [] => true | _ => false end.
