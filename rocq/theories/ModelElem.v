(** Model of transpose, eWiseAdd, eWiseMult, apply, reduce and kronecker (sequential
    backend) and of their frontends.
    The element count of the temporary [T] is not read again before [T] is consumed, so
    calls of [T.recomputeNvals()] are omitted where [T] is filled by row references. *)
From Verif Require Import Base ModelLil ModelVec ModelHelpers ModelViews.

(** ** transpose *)

(** The temporary [T], sparse_transpose.hpp:66-79. *)
Definition transpose_T {TA : Type} (A : lil TA) : res (lil TA) :=
  if has_vals (nvals A) then
    mfor (seq 0 (nrows A))
      (fun row_idx T => ra <- getrow A row_idx ;; pushcol (fun v => v) row_idx ra T)
      (lil_new (ncols A) (nrows A))
  else Ok (lil_new (ncols A) (nrows A)).

(** Backend, sparse_transpose.hpp:54-92 and, for a transposed view, 101-129 (where the
    viewed matrix itself plays the role of [T]). *)
Definition transpose_backend {TA TC TZ TM : Type} (truthy : TM -> bool) (zc : TZ -> TC)
    (a : accum TC TA TZ) (m : mask (lil TM)) (outp : outmode) (C : lil TC) (A : mview TA)
  : res (lil TC) :=
  match A with
  | Mat A => T <- transpose_T A ;; accum_write truthy zc a m outp C T
  | Trn A => accum_write truthy zc a m outp C A
  end.

(** Frontend, operations.hpp:1053-1079. *)
Definition transpose {TA TC TZ TM : Type} (truthy : TM -> bool) (zc : TZ -> TC)
    (a : accum TC TA TZ) (m : mask (lil TM)) (outp : outmode) (C : lil TC) (A : mview TA)
  : res (lil TC) :=
  _ <- check_mask_rows (nrows C) m ;;
  _ <- check_mask_cols (ncols C) m ;;
  _ <- check_eq (ncols C) (vrows A) ;;
  _ <- check_eq (vcols A) (nrows C) ;;
  transpose_backend truthy zc a m outp C A.

(** The staging copies [Atran] and [Btran] of the element-wise operations:
    [X Btran(B.ncols(), B.nrows()); transpose(Btran, NoMask(), NoAccumulate(), B, REPLACE)]
    (sparse_ewiseadd.hpp:189-191 and 216-218, sparse_ewisemult.hpp:182-184 and 209-211);
    [cast] converts to the scalar type of the container type [X]. *)
Definition staged_transpose {S X : Type} (cast : S -> X) (B : lil S) : res (lil X) :=
  transpose_backend (fun b : bool => b) cast (NoAcc (fun v => v)) (@NoMask (lil bool)) REPLACE
    (lil_new (ncols B) (nrows B)) (Mat B).

(** ** eWiseMult *)

Section EwiseMat.
Context {TA TB TT TC TZ TM : Type}.
Context (op : TA -> TB -> TT).

(** The temporary of A .* B, sparse_ewisemult.hpp:123-146. *)
Definition ewm_T (A : lil TA) (B : lil TB) : res (lil TT) :=
  if has_vals (nvals A) && has_vals (nvals B) then
    mfor (seq 0 (nrows A))
      (fun i T =>
         rb <- getrow B i ;;
         if negb (empty rb) then
           ra <- getrow A i ;;
           if negb (empty ra) then
             let t := ewise_and op ra rb in
             if negb (empty t) then setRow (fun x => x) T i t else Ok T
           else Ok T
         else Ok T)
      (lil_new (nrows A) (ncols A))
  else Ok (lil_new (nrows A) (ncols A)).

(** The temporary of A' .* B', sparse_ewisemult.hpp:243-270. *)
Definition ewm_TT (A : lil TA) (B : lil TB) : res (lil TT) :=
  if has_vals (nvals A) && has_vals (nvals B) then
    mfor (seq 0 (nrows A))
      (fun i T =>
         rb <- getrow B i ;;
         if negb (empty rb) then
           ra <- getrow A i ;;
           if negb (empty ra) then pushcol (fun v => v) i (ewise_and op ra rb) T
           else Ok T
         else Ok T)
      (lil_new (ncols A) (nrows A))
  else Ok (lil_new (ncols A) (nrows A)).

(** ** eWiseAdd.  [c1], [c2] convert a lone operand to the result type. *)
Context (c1 : TA -> TT) (c2 : TB -> TT).

(** The temporary of A .+ B, sparse_ewiseadd.hpp:123-152. *)
Definition ewa_T (A : lil TA) (B : lil TB) : res (lil TT) :=
  if has_vals (nvals A) || has_vals (nvals B) then
    mfor (seq 0 (nrows A))
      (fun i T =>
         rb <- getrow B i ;;
         ra <- getrow A i ;;
         if empty rb then setRow c1 T i ra
         else if empty ra then setRow c2 T i rb
         else
           let t := ewise_or op c1 c2 ra rb in
           if negb (empty t) then setRow (fun x => x) T i t else Ok T)
      (lil_new (nrows A) (ncols A))
  else Ok (lil_new (nrows A) (ncols A)).

(** The temporary of A' .+ B', sparse_ewiseadd.hpp:250-289. *)
Definition ewa_TT (A : lil TA) (B : lil TB) : res (lil TT) :=
  if has_vals (nvals A) || has_vals (nvals B) then
    mfor (seq 0 (nrows A))
      (fun i T =>
         rb <- getrow B i ;;
         ra <- getrow A i ;;
         if empty rb then pushcol c1 i ra T
         else if empty ra then pushcol c2 i rb T
         else pushcol (fun v => v) i (ewise_or op c1 c2 ra rb) T)
      (lil_new (ncols A) (nrows A))
  else Ok (lil_new (ncols A) (nrows A)).
End EwiseMat.

(** Frontend checks of both operations, operations.hpp:229-262 and 318-351. *)
Definition ewise_checks {TA TB TC TM : Type} (m : mask (lil TM)) (C : lil TC)
    (A : mview TA) (B : mview TB) : res unit :=
  _ <- check_mask_cols (ncols C) m ;;
  _ <- check_mask_rows (nrows C) m ;;
  _ <- check_eq (ncols C) (vcols A) ;;
  _ <- check_eq (nrows C) (vrows A) ;;
  _ <- check_eq (vcols A) (vcols B) ;;
  check_eq (vrows A) (vrows B).

(** eWiseMult, sparse_ewisemult.hpp:98-285.  A' .* B goes through an explicit transpose
    of A (172-187); A .* B' through an explicit transpose of B kept in a container of
    *A's* type (199-214): [ba] is the conversion, [opA] the same operator on the converted
    value. *)
Definition eWiseMult {TA TB TT TC TZ TM : Type} (op : TA -> TB -> TT) (opA : TA -> TA -> TT)
    (ba : TB -> TA) (truthy : TM -> bool) (zc : TZ -> TC) (a : accum TC TT TZ)
    (m : mask (lil TM)) (outp : outmode) (C : lil TC) (A : mview TA) (B : mview TB)
  : res (lil TC) :=
  _ <- ewise_checks m C A B ;;
  T <- match A, B with
       | Mat A, Mat B => ewm_T op A B
       | Trn A, Mat B => At <- staged_transpose (fun v => v) A ;; ewm_T op At B
       | Mat A, Trn B => Bt <- staged_transpose ba B ;; ewm_T opA A Bt
       | Trn A, Trn B => ewm_TT op A B
       end ;;
  accum_write truthy zc a m outp C T.

(** eWiseAdd, sparse_ewiseadd.hpp:98-303; [c2A] converts a lone (already converted)
    element of B. *)
Definition eWiseAdd {TA TB TT TC TZ TM : Type} (op : TA -> TB -> TT) (c1 : TA -> TT)
    (c2 : TB -> TT) (opA : TA -> TA -> TT) (c2A : TA -> TT)
    (ba : TB -> TA) (truthy : TM -> bool) (zc : TZ -> TC) (a : accum TC TT TZ)
    (m : mask (lil TM)) (outp : outmode) (C : lil TC) (A : mview TA) (B : mview TB)
  : res (lil TC) :=
  _ <- ewise_checks m C A B ;;
  T <- match A, B with
       | Mat A, Mat B => ewa_T op c1 c2 A B
       | Trn A, Mat B => At <- staged_transpose (fun v => v) A ;; ewa_T op c1 c2 At B
       | Mat A, Trn B => Bt <- staged_transpose ba B ;; ewa_T opA c1 c2A A Bt
       | Trn A, Trn B => ewa_TT op c1 c2 A B
       end ;;
  accum_write truthy zc a m outp C T.

(** Vector variants: frontends operations.hpp:192-223 and 278-309; backends
    sparse_ewisemult.hpp:60-94 and sparse_ewiseadd.hpp:59-94. *)
Definition eWiseMult_v {TU TV TT TW TZ TM : Type} (op : TU -> TV -> TT)
    (truthy : TM -> bool) (zc : TZ -> TW) (a : accum TW TT TZ)
    (m : mask (bvec TM)) (outp : outmode) (w : bvec TW) (u : bvec TU) (v : bvec TV)
  : res (bvec TW) :=
  _ <- check_mask_size (vsize w) m ;;
  _ <- check_eq (vsize w) (vsize u) ;;
  _ <- check_eq (vsize u) (vsize v) ;;
  t <- (if has_vals (vnvals u) && has_vals (vnvals v) then
          uc <- getContents u ;; vc <- getContents v ;; Ok (ewise_and op uc vc)
        else Ok []) ;;
  accum_write_1D truthy zc a m outp w t.

Definition eWiseAdd_v {TU TV TT TW TZ TM : Type} (op : TU -> TV -> TT) (c1 : TU -> TT)
    (c2 : TV -> TT) (truthy : TM -> bool) (zc : TZ -> TW) (a : accum TW TT TZ)
    (m : mask (bvec TM)) (outp : outmode) (w : bvec TW) (u : bvec TU) (v : bvec TV)
  : res (bvec TW) :=
  _ <- check_mask_size (vsize w) m ;;
  _ <- check_eq (vsize w) (vsize u) ;;
  _ <- check_eq (vsize u) (vsize v) ;;
  t <- (if has_vals (vnvals u) || has_vals (vnvals v) then
          uc <- getContents u ;; vc <- getContents v ;; Ok (ewise_or op c1 c2 uc vc)
        else Ok []) ;;
  accum_write_1D truthy zc a m outp w t.

(** ** apply *)

(** The temporaries: sparse_apply.hpp:117-134 (A), 173-190 (A'). *)
Definition apply_T {TA TT : Type} (f : TA -> TT) (A : mview TA) : res (lil TT) :=
  match A with
  | Mat A =>
      mfor (seq 0 (nrows A))
        (fun i T => ra <- getrow A i ;;
           mfor ra (fun p T' => pushrow T' i (fst p, f (snd p))) T)
        (lil_new (nrows A) (ncols A))
  | Trn A =>
      mfor (seq 0 (nrows A))
        (fun i T => ra <- getrow A i ;;
           mfor ra (fun p T' => pushrow T' (fst p) (i, f (snd p))) T)
        (lil_new (ncols A) (nrows A))
  end.

(** Frontend operations.hpp:771-801; backends sparse_apply.hpp:106-151, 161-207. *)
Definition apply {TA TT TC TZ TM : Type} (f : TA -> TT) (truthy : TM -> bool) (zc : TZ -> TC)
    (a : accum TC TT TZ) (m : mask (lil TM)) (outp : outmode) (C : lil TC) (A : mview TA)
  : res (lil TC) :=
  _ <- check_mask_cols (ncols C) m ;;
  _ <- check_mask_rows (nrows C) m ;;
  _ <- check_eq (ncols C) (vcols A) ;;
  _ <- check_eq (nrows C) (vrows A) ;;
  T <- apply_T f A ;;
  accum_write truthy zc a m outp C T.

(** Bound binary operators, matrices: frontend operations.hpp:882-951; backends
    sparse_apply.hpp:333-380, 393-441 (op(val, a)) and 455-503, 517-566 (op(a, val)),
    whose text is that of [apply] with this expression in place of [op(a_val)]. *)
Definition apply_binop_1st {TV TA TT TC TZ TM : Type} (op : TV -> TA -> TT) (val : TV)
    (truthy : TM -> bool) (zc : TZ -> TC) (a : accum TC TT TZ) (m : mask (lil TM))
    (outp : outmode) (C : lil TC) (A : mview TA) : res (lil TC) :=
  apply (fun a_val => op val a_val) truthy zc a m outp C A.
Definition apply_binop_2nd {TV TA TT TC TZ TM : Type} (op : TA -> TV -> TT) (val : TV)
    (truthy : TM -> bool) (zc : TZ -> TC) (a : accum TC TT TZ) (m : mask (lil TM))
    (outp : outmode) (C : lil TC) (A : mview TA) : res (lil TC) :=
  apply (fun a_val => op a_val val) truthy zc a m outp C A.

(** Vectors: frontend operations.hpp:736-762, backend sparse_apply.hpp:56-96. *)
Definition apply_v {TU TT TW TZ TM : Type} (f : TU -> TT) (truthy : TM -> bool) (zc : TZ -> TW)
    (a : accum TW TT TZ) (m : mask (bvec TM)) (outp : outmode) (w : bvec TW) (u : bvec TU)
  : res (bvec TW) :=
  _ <- check_mask_size (vsize w) m ;;
  _ <- check_eq (vsize w) (vsize u) ;;
  t <- (if has_vals (vnvals u) then
          uc <- getContents u ;;
          mfor uc (fun p t => Ok (t ++ [(fst p, f (snd p))])) []
        else Ok []) ;;
  accum_write_1D truthy zc a m outp w t.

(** Bound binary operators, vectors: operations.hpp:810-874; sparse_apply.hpp:220-262
    (op(val, u)), 275-319 (op(u, val)). *)
Definition apply_binop_1st_v {TV TU TT TW TZ TM : Type} (op : TV -> TU -> TT) (val : TV)
    (truthy : TM -> bool) (zc : TZ -> TW) (a : accum TW TT TZ) (m : mask (bvec TM))
    (outp : outmode) (w : bvec TW) (u : bvec TU) : res (bvec TW) :=
  apply_v (fun u_val => op val u_val) truthy zc a m outp w u.
Definition apply_binop_2nd_v {TV TU TT TW TZ TM : Type} (op : TU -> TV -> TT) (val : TV)
    (truthy : TM -> bool) (zc : TZ -> TW) (a : accum TW TT TZ) (m : mask (bvec TM))
    (outp : outmode) (w : bvec TW) (u : bvec TU) : res (bvec TW) :=
  apply_v (fun u_val => op u_val val) truthy zc a m outp w u.

(** ** reduce *)

(** The operator is called on two input values ([op01]), on a running value and an input
    value ([op]), and a single input value is converted ([c1]).
    Row reduction sparse_reduce.hpp:64-83, column reduction 118-136. *)
Definition reduce_T {TA TT : Type} (c1 : TA -> TT) (op01 : TA -> TA -> TT)
    (op : TT -> TA -> TT) (A : mview TA) : res (row TT) :=
  match A with
  | Mat A =>
      if has_vals (nvals A) then
        mfor (seq 0 (nrows A))
          (fun i t => ra <- getrow A i ;;
             match reduction c1 op01 op (fun x => x) ra with
             | Some t_val => Ok (t ++ [(i, t_val)])
             | None => Ok t
             end)
          []
      else Ok []
  | Trn A =>
      if has_vals (nvals A) then
        mfor (seq 0 (nrows A))
          (fun i t => ra <- getrow A i ;;
             if negb (empty ra) then Ok (xpey op c1 t ra) else Ok t)
          []
      else Ok []
  end.

(** Frontend operations.hpp:962-988; backend sparse_reduce.hpp:49-98, 104-151. *)
Definition reduce {TA TT TW TZ TM : Type} (c1 : TA -> TT) (op01 : TA -> TA -> TT)
    (op : TT -> TA -> TT) (truthy : TM -> bool) (zc : TZ -> TW) (a : accum TW TT TZ)
    (m : mask (bvec TM)) (outp : outmode) (w : bvec TW) (A : mview TA) : res (bvec TW) :=
  _ <- check_mask_size (vsize w) m ;;
  _ <- check_eq (vsize w) (vrows A) ;;
  t <- reduce_T c1 op01 op A ;;
  accum_write_1D truthy zc a m outp w t.

(** Vector to scalar, operations.hpp:996-1016, sparse_reduce.hpp:155-191; [ident] is
    [op.identity()].  Returns the new [val]. *)
Definition reduce_vs {TU TT TV TZ : Type} (ident : TT) (c1 : TU -> TT) (op01 : TU -> TU -> TT)
    (op : TT -> TU -> TT) (zc : TZ -> TV) (a : accum TV TT TZ) (val : TV) (u : bvec TU)
  : res TV :=
  t <- (if has_vals (vnvals u) then
          uc <- getContents u ;;
          Ok match reduction c1 op01 op (fun x => x) uc with Some t => t | None => ident end
        else Ok ident) ;;
  Ok (zc (opt_accum_scalar a val t)).

(** Matrix to scalar, operations.hpp:1024-1044, sparse_reduce.hpp:195-244; [op2] is the
    operator on two running values.  (The overload for a transposed view, 248-300, cannot
    be reached: the frontend takes a [Matrix].) *)
Definition reduce_ms {TA TT TV TZ : Type} (ident : TT) (c1 : TA -> TT) (op01 : TA -> TA -> TT)
    (op : TT -> TA -> TT) (op2 : TT -> TT -> TT) (zc : TZ -> TV) (a : accum TV TT TZ)
    (val : TV) (A : lil TA) : res TV :=
  t <- (if has_vals (nvals A) then
          mfor (seq 0 (nrows A))
            (fun i t => ra <- getrow A i ;;
               if negb (empty ra) then
                 match reduction c1 op01 op (fun x => x) ra with
                 | Some tmp => Ok (op2 t tmp)
                 | None => Ok t
                 end
               else Ok t)
            ident
        else Ok ident) ;;
  Ok (zc (opt_accum_scalar a val t)).

(** ** kronecker *)

(** [check_nrows_nrowsxnrows] etc., checks.hpp:118-134: the product of two 64-bit
    indices is taken modulo 2^64. *)
Definition check_eq_prod (n a b : nat) : res unit :=
  throw_if (negb (Z.of_nat n =? (Z.of_nat a * Z.of_nat b) mod (2 ^ 64))%Z) DimensionException.

Section Kron.
Context {TA TB TT : Type} (op : TA -> TB -> TT).

(** The temporaries of the four overloads, sparse_kronecker.hpp:84-111, 173-199, 258-285,
    343-370.  Index arithmetic does not wrap around when the result's indices are below
    2^64. *)
Definition kron_AB (nr nc : nat) (A : lil TA) (B : lil TB) : res (lil TT) :=
  if has_vals (nvals A) && has_vals (nvals B) then
    mfor (seq 0 (nrows A))
      (fun ia T => ra <- getrow A ia ;;
         if empty ra then Ok T else
         mfor (seq 0 (nrows B))
           (fun ib T => rb <- getrow B ib ;;
              if empty rb then Ok T else
              mfor ra
                (fun pa T => mfor rb
                   (fun pb T => pushrow T (ia * nrows B + ib)
                      (fst pa * ncols B + fst pb, op (snd pa) (snd pb))) T) T) T)
      (lil_new nr nc)
  else Ok (lil_new nr nc).

Definition kron_ATB (nr nc : nat) (A : lil TA) (B : lil TB) : res (lil TT) :=
  if has_vals (nvals A) && has_vals (nvals B) then
    mfor (seq 0 (nrows A))
      (fun ia T => ra <- getrow A ia ;;
         if empty ra then Ok T else
         mfor (seq 0 (nrows B))
           (fun ib T => rb <- getrow B ib ;;
              if empty rb then Ok T else
              mfor ra
                (fun pa T => mfor rb
                   (fun pb T => pushrow T (fst pa * nrows B + ib)
                      (ia * ncols B + fst pb, op (snd pa) (snd pb))) T) T) T)
      (lil_new nr nc)
  else Ok (lil_new nr nc).

Definition kron_ABT (nr nc : nat) (A : lil TA) (B : lil TB) : res (lil TT) :=
  if has_vals (nvals A) && has_vals (nvals B) then
    mfor (seq 0 (nrows A))
      (fun ia T => ra <- getrow A ia ;;
         if empty ra then Ok T else
         mfor ra
           (fun pa T => mfor (seq 0 (nrows B))
              (fun ib T => rb <- getrow B ib ;;
                 if empty rb then Ok T else
                 mfor rb
                   (fun pb T => pushrow T (ia * ncols B + fst pb)
                      (fst pa * nrows B + ib, op (snd pa) (snd pb))) T) T) T)
      (lil_new nr nc)
  else Ok (lil_new nr nc).

Definition kron_ATBT (nr nc : nat) (A : lil TA) (B : lil TB) : res (lil TT) :=
  if has_vals (nvals A) && has_vals (nvals B) then
    mfor (seq 0 (nrows A))
      (fun ia T => ra <- getrow A ia ;;
         if empty ra then Ok T else
         mfor (seq 0 (nrows B))
           (fun ib T => rb <- getrow B ib ;;
              if empty rb then Ok T else
              mfor ra
                (fun pa T => mfor rb
                   (fun pb T => pushrow T (fst pa * ncols B + fst pb)
                      (ia * nrows B + ib, op (snd pa) (snd pb))) T) T) T)
      (lil_new nr nc)
  else Ok (lil_new nr nc).

Definition kron_T (nr nc : nat) (A : mview TA) (B : mview TB) : res (lil TT) :=
  match A, B with
  | Mat A, Mat B => kron_AB nr nc A B
  | Trn A, Mat B => kron_ATB nr nc A B
  | Mat A, Trn B => kron_ABT nr nc A B
  | Trn A, Trn B => kron_ATBT nr nc A B
  end.

(** Frontend operations.hpp:1088-1123; backend sparse_kronecker.hpp:54-389. *)
Definition kronecker {TC TZ TM : Type} (truthy : TM -> bool) (zc : TZ -> TC)
    (a : accum TC TT TZ) (m : mask (lil TM)) (outp : outmode) (C : lil TC)
    (A : mview TA) (B : mview TB) : res (lil TC) :=
  _ <- check_mask_rows (nrows C) m ;;
  _ <- check_mask_cols (ncols C) m ;;
  _ <- check_eq_prod (ncols C) (vcols A) (vcols B) ;;
  _ <- check_eq_prod (nrows C) (vrows A) (vrows B) ;;
  T <- kron_T (nrows C) (ncols C) A B ;;
  accum_write truthy zc a m outp C T.
End Kron.
