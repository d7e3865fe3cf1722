(** Model of matrix-matrix, matrix-vector and vector-matrix products (sequential
    backend) and of their frontends. *)
From Verif Require Import Base ModelLil ModelVec ModelHelpers ModelViews.

(** In all products [add] is the additive operator and [mult] the multiplicative one, as
    called with (element of the left operand, element of the right operand).  [multS] is
    the same C++ operator called with the arguments in the other order: the code does so
    in two places (marked).  When both scalar types agree, [multS] is [mult]. *)

Section Mxm.
Context {TA TB TT TC : Type}.
Context (add : TT -> TT -> TT) (mult : TA -> TB -> TT) (multS : TB -> TA -> TT).
(** Conversions to and from the output's scalar type, used by the A'B' kernel only. *)
Context (tc : TT -> TC) (ct : TC -> TT).

(** sparse_mxm.hpp:77-90 (A * B). *)
Definition mxm_AB (nr nc : nat) (A : lil TA) (B : lil TB) : res (lil TT) :=
  mfor (seq 0 (nrows A))
    (fun i T =>
       ra <- getrow A i ;;
       mfor ra
         (fun p T' =>
            rb <- getrow B (fst p) ;;
            if empty rb then Ok T'
            else t <- getrow T' i ;; putrow T' i (axpy add mult (snd p) t rb))
         T)
    (lil_new nr nc).

(** sparse_mxm.hpp:137-150 (A' * B). *)
Definition mxm_ATB (nr nc : nat) (A : lil TA) (B : lil TB) : res (lil TT) :=
  mfor (seq 0 (nrows A))
    (fun k T =>
       ra <- getrow A k ;;
       if empty ra then Ok T else
       rb <- getrow B k ;;
       if empty rb then Ok T else
       mfor ra
         (fun p T' => t <- getrow T' (fst p) ;; putrow T' (fst p) (axpy add mult (snd p) t rb))
         T)
    (lil_new nr nc).

(** sparse_mxm.hpp:196-225 (A * B'). *)
Definition mxm_ABT (nr nc : nat) (A : lil TA) (B : lil TB) : res (lil TT) :=
  if has_vals (nvals A) && has_vals (nvals B) then
    mfor (seq 0 (nrows A))
      (fun row_idx T =>
         ra <- getrow A row_idx ;;
         if empty ra then Ok T else
         mfor (seq 0 (nrows B))
           (fun col_idx T' =>
              rb <- getrow B col_idx ;;
              if empty rb then Ok T' else
              match dot add mult ra rb with
              | Some t => pushrow T' row_idx (col_idx, t)
              | None => Ok T'
              end)
           T)
      (lil_new nr nc)
  else Ok (lil_new nr nc).

(** sparse_mxm.hpp:272-300 (A' * B'): one column of the result at a time, with the
    multiplication called as mult(b, a), and the values passed through the output's
    scalar type. *)
Definition mxm_ATBT (nr nc : nat) (A : lil TA) (B : lil TB) : res (lil TT) :=
  mfor (seq 0 (nrows B))
    (fun i T =>
       rb <- getrow B i ;;
       trow <- mfor rb
                 (fun p t =>
                    ra <- getrow A (fst p) ;;
                    if empty ra then Ok t else Ok (axpy add multS (snd p) t ra))
                 [] ;;
       pushcol (fun v => ct (tc v)) i trow T)
    (lil_new nr nc).

Definition mxm_T (nr nc : nat) (A : mview TA) (B : mview TB) : res (lil TT) :=
  match A, B with
  | Mat A, Mat B => mxm_AB nr nc A B
  | Trn A, Mat B => mxm_ATB nr nc A B
  | Mat A, Trn B => mxm_ABT nr nc A B
  | Trn A, Trn B => mxm_ATBT nr nc A B
  end.

(** Frontend, /repo/src/graphblas/operations.hpp:70-102, then the backend kernel. *)
Definition mxm {TZ TM : Type} (truthy : TM -> bool) (zc : TZ -> TC) (a : accum TC TT TZ)
    (m : mask (lil TM)) (outp : outmode) (C : lil TC) (A : mview TA) (B : mview TB)
  : res (lil TC) :=
  _ <- check_mask_rows (nrows C) m ;;
  _ <- check_mask_cols (ncols C) m ;;
  _ <- check_eq (nrows C) (vrows A) ;;
  _ <- check_eq (ncols C) (vcols B) ;;
  _ <- check_eq (vcols A) (vrows B) ;;
  T <- mxm_T (nrows C) (ncols C) A B ;;
  accum_write truthy zc a m outp C T.
End Mxm.

Section Mxv.
Context {TA TU TT TW : Type}.
Context (add : TT -> TT -> TT) (mult : TA -> TU -> TT) (multS : TU -> TA -> TT).

(** The loop [for row < u.size(): if u.hasElement(row) && !A[row].empty():
    axpy(t, op, u.extractElement(row), A[row])], sparse_mxv.hpp:139-149 and
    sparse_vxm.hpp:69-79.  [m] is the multiplication as called by [axpy]. *)
Definition axpy_rows (m : TU -> TA -> TT) (A : lil TA) (u : bvec TU) : res (row TT) :=
  if has_vals (nvals A) && has_vals (vnvals u) then
    mfor (seq 0 (vsize u))
      (fun k t =>
         h <- vec_hasElement u k ;;
         if (h : bool) then
           ra <- getrow A k ;;
           if empty ra then Ok t
           else x <- vec_extractElement u k ;; Ok (axpy add m x t ra)
         else Ok t)
      []
  else Ok [].

(** sparse_mxv.hpp:71-86 (A * u). *)
Definition mxv_A (nw : nat) (A : lil TA) (u : bvec TU) : res (row TT) :=
  if has_vals (nvals A) && has_vals (vnvals u) then
    uc <- getContents u ;;
    mfor (seq 0 nw)
      (fun row_idx t =>
         ra <- getrow A row_idx ;;
         if empty ra then Ok t else
         match dot_rev add mult ra uc with
         | Some v => Ok (t ++ [(row_idx, v)])
         | None => Ok t
         end)
      []
  else Ok [].

(** A' * u calls the multiplication as mult(u, a). *)
Definition mxv_T (nw : nat) (A : mview TA) (u : bvec TU) : res (row TT) :=
  match A with
  | Mat A => mxv_A nw A u
  | Trn A => axpy_rows multS A u
  end.

(** Frontend, operations.hpp:149-173; backend sparse_mxv.hpp:55-108, 123-164. *)
Definition mxv {TZ TM : Type} (truthy : TM -> bool) (zc : TZ -> TW) (a : accum TW TT TZ)
    (m : mask (bvec TM)) (outp : outmode) (w : bvec TW) (A : mview TA) (u : bvec TU)
  : res (bvec TW) :=
  _ <- check_mask_size (vsize w) m ;;
  _ <- check_eq (vsize w) (vrows A) ;;
  _ <- check_eq (vsize u) (vcols A) ;;
  t <- mxv_T (vsize w) A u ;;
  accum_write_1D truthy zc a m outp w t.
End Mxv.

Section Vxm.
Context {TA TU TT TW : Type}.
Context (add : TT -> TT -> TT) (mult : TU -> TA -> TT).

(** sparse_vxm.hpp:124-141 (u * A'). *)
Definition vxm_AT (nw : nat) (u : bvec TU) (A : lil TA) : res (row TT) :=
  if has_vals (nvals A) && has_vals (vnvals u) then
    uc <- getContents u ;;
    mfor (seq 0 nw)
      (fun row_idx t =>
         ra <- getrow A row_idx ;;
         if empty ra then Ok t else
         match dot add mult uc ra with
         | Some v => Ok (t ++ [(row_idx, v)])
         | None => Ok t
         end)
      []
  else Ok [].

Definition vxm_T (nw : nat) (u : bvec TU) (A : mview TA) : res (row TT) :=
  match A with
  | Mat A => axpy_rows add mult A u
  | Trn A => vxm_AT nw u A
  end.

(** Frontend, operations.hpp:113-138; backend sparse_vxm.hpp:54-94, 109-155. *)
Definition vxm {TZ TM : Type} (truthy : TM -> bool) (zc : TZ -> TW) (a : accum TW TT TZ)
    (m : mask (bvec TM)) (outp : outmode) (w : bvec TW) (u : bvec TU) (A : mview TA)
  : res (bvec TW) :=
  _ <- check_mask_size (vsize w) m ;;
  _ <- check_eq (vsize w) (vcols A) ;;
  _ <- check_eq (vsize u) (vrows A) ;;
  t <- vxm_T (vsize w) u A ;;
  accum_write_1D truthy zc a m outp w t.
End Vxm.
