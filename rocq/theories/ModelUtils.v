(** Model of the convenience functions diag, scaled_identity, split, normalize_rows and
    normalize_cols.  /repo/src/graphblas/matrix_utils.hpp. *)
From Verif Require Import Base ModelLil ModelVec ModelHelpers ModelViews ModelMul ModelElem.

(** [build] with the default [dup = Second], Matrix.hpp:160-167 and 182-197, when only the
    outcome of the whole call matters: a throw discards the partly built matrix, which in
    these functions is a local variable ([split] builds into its arguments; there the
    elements inserted before a throw remain, which is not modelled here). *)
Definition build_or_throw {T : Type} (M : lil T) (ts : list (nat * nat * T)) : res (lil T) :=
  match lil_build (fun _ new => new) M ts with
  | (M', Ok _) => Ok M'
  | (_, Throw e) => Throw e
  | (_, UB) => UB
  end.

(** [diag], matrix_utils.hpp:46-57; [c] converts the vector's scalar type.  The arrays
    [indices] and [vals] are the list of pairs [extractTuples] fills them with. *)
Definition diag {S T : Type} (c : S -> T) (v : bvec S) : res (lil T) :=
  ts <- vec_extractTuples v ;;
  build_or_throw (lil_new (vsize v) (vsize v)) (map (fun '(i, x) => (i, i, c x)) ts).

(** [scaled_identity], matrix_utils.hpp:66-83. *)
Definition scaled_identity {T : Type} (n : nat) (val : T) : res (lil T) :=
  build_or_throw (lil_new n n) (map (fun i => (i, i, val)) (seq 0 n)).

(** The loop sorting the tuples into the lower (first) and upper (second) list,
    matrix_utils.hpp:110-124. *)
Definition split_tuples {T : Type} (ts : list (nat * nat * T))
  : list (nat * nat * T) * list (nat * nat * T) :=
  fold_left (fun '(l, u) '(i, j, v) =>
               if i <? j then (l, u ++ [(i, j, v)]) else (l ++ [(i, j, v)], u))
            ts ([], []).

(** [split], matrix_utils.hpp:95-128: new [L] and [U]. *)
Definition split {T : Type} (A L U : lil T) : res (lil T * lil T) :=
  let '(tl, tu) := split_tuples (lil_extractTuples A) in
  L' <- build_or_throw L tl ;;
  U' <- build_or_throw U tu ;;
  Ok (L', U').

(** [normalize_rows], matrix_utils.hpp:137-165 and [normalize_cols], 175-203.  [add] and
    [mult] are the operators of [ArithmeticSemiring<T>], [add] also [Plus<T>]; [inv] is
    [MultiplicativeInverse<T>] (division by zero, undefined for integer types, is not
    modelled); [dflt] is [T()]. *)
Section Normalize.
Context {T : Type} (dflt : T) (add mult : T -> T -> T) (inv : T -> T).

(** The inverses of the sums of the rows of the view, and the diagonal matrix of them,
    137-158 and 175-196. *)
Definition inverse_sums (n : nat) (A : mview T) : res (lil T) :=
  w0 <- vec_new dflt n ;;
  w1 <- reduce (fun v => v) add add (fun b : bool => b) (fun v => v) (NoAcc (fun v => v))
          (@NoMask (bvec bool)) MERGE w0 A ;;
  w2 <- apply_v inv (fun b : bool => b) (fun v => v) (NoAcc (fun v => v))
          (@NoMask (bvec bool)) MERGE w1 w1 ;;
  ts <- vec_extractTuples w2 ;;
  build_or_throw (lil_new (vsize w2) (vsize w2)) (map (fun '(i, x) => (i, i, x)) ts).

Definition scale_product (C : lil T) (A B : mview T) : res (lil T) :=
  mxm add mult mult (fun v => v) (fun v => v) (fun b : bool => b) (fun v => v)
    (NoAcc (fun v => v)) (@NoMask (lil bool)) MERGE C A B.

Definition normalize_rows (A : lil T) : res (lil T) :=
  Adiag <- inverse_sums (nrows A) (Mat A) ;;
  scale_product A (Mat Adiag) (Mat A).

Definition normalize_cols (A : lil T) : res (lil T) :=
  Adiag <- inverse_sums (nrows A) (Trn A) ;;
  scale_product A (Mat A) (Mat Adiag).
End Normalize.
