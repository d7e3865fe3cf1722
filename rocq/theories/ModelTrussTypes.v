(** Model of the k-truss algorithms over the built-in integer types and [bool].  /repo/src/algorithms/k_truss.hpp.
    Scalars as in ModelInts: a call in which some computed element is [UB] is undefined. *)
From Coq Require Import ZArith.
From Verif Require Import Base ModelLil ModelVec ModelHelpers ModelViews ModelMul ModelElem ModelIndex ModelAlgoBase ModelMis
  ModelAlgebra ModelInts ModelTriInts ModelTruss.

(** [k_size - 2], a subtraction of [IndexType] (64 bits, unsigned), converted to the scalar type by the constructor of
    [SupportTest] or [SupportMinTest], k_truss.hpp:62, 77. *)
Definition ithreshold (t : ctype) (k_size : Z) : Z := convert t (convert (CInt false W64) (k_size - 2)).

(** [SupportTest], k_truss.hpp:57-68. *)
Definition isupport_test (thr : Z) (val : ival) : bool := match val with Ok v => (v <? thr)%Z | _ => false end.
(** [SupportMinTest], k_truss.hpp:72-83; also [SupportTest] with [std::greater_equal]. *)
Definition isupport_min_test (thr : Z) (val : ival) : bool := match val with Ok v => negb (v <? thr)%Z | _ => false end.

(** A conversion of scalars. *)
Definition iconv (t : ctype) (x : ival) : ival := match x with Ok a => Ok (convert t a) | _ => UB end.

(** [FirstEqualsTwo], k_truss.hpp:39-50. *)
Definition ifirst_equals_two (t : ctype) (lhs rhs : ival) : ival :=
  match lhs, rhs with Ok a, Ok b => Ok (if (a =? convert t 2)%Z then b else 0%Z) | _, _ => UB end.

(** [mxm(C, Mask, NoAccumulate(), ArithmeticSemiring<T>(), A, B, outp)]: the whole product is computed before the mask is
    applied (sparse_mxm.hpp:65-107 and 125-168), so it must be defined everywhere.  [zc] converts the values to the scalar
    type of [C]. *)
Definition iproduct {TM : Type} (t : ctype) (zc : ival -> ival) (tr : TM -> bool) (m : mask (lil TM)) (outp : outmode) (C : lil ival)
    (A B : mview ival) : res (lil ival) :=
  _ <- imxm t (lil_new (nrows C) (ncols C)) A B ;;
  mxm (op2 Plus t) (op2 Times t) (op2 Times t) idc idc tr zc (NoAcc idc) m outp C A B.

(** ** [k_truss2], k_truss.hpp:278-320 *)
Record itruss_state := mkItruss {
  it_A : lil ival; it_old : Z; it_new : Z; it_mask : lil bool; it_support : lil ival }.

(** The body of the loop, k_truss.hpp:297-316.  [Support] is a matrix of [IndexType]: the sums are converted to that type
    when they are stored, and back when the test is called. *)
Definition ik_truss2_body (t : ctype) (k_size : Z) (s : itruss_state) : res itruss_state :=
  let A := it_A s in
  Support <- iproduct t (iconv (CInt false W64)) itrue (MVal A) REPLACE (it_support s) (Trn A) (Mat A) ;;
  Mask <- apply (fun v => isupport_min_test (ithreshold t k_size) (iconv t v)) btrue idc (NoAcc idc) mnomask REPLACE
            (it_mask s) (Mat Support) ;;
  A' <- apply idc btrue idc (NoAcc idc) (MVal Mask) REPLACE A (Mat A) ;;
  Ok (mkItruss A' (it_new s) (nvals A') Mask Support).

(** [do body while (new_num_edges != num_edges)]. *)
Definition ik_truss2 (t : ctype) (n : nat) (Ain : lil ival) (k_size : Z) : res (option (lil ival)) :=
  let num_vertices := ncols Ain in
  s <- ik_truss2_body t k_size
         (mkItruss Ain 0%Z (nvals Ain) (lil_new num_vertices num_vertices) (lil_new num_vertices num_vertices)) ;;
  r <- mwhile n (fun s => negb (it_new s =? it_old s)%Z) (ik_truss2_body t k_size) s ;;
  Ok (option_map it_A r).

(** ** [k_truss], k_truss.hpp:87-274 *)

(** The edge supports: [mxv(s, NoMask, NoAccumulate, Support2Semiring, R, OnesN, REPLACE)] into a new vector,
    k_truss.hpp:141-144 and 247-250. *)
Definition iedge_support (t : ctype) (R : lil ival) (ones : bvec ival) : res (bvec ival) :=
  s <- vec_new (Ok 0%Z : ival) (nrows R) ;;
  s <- mxv (op2 Plus t) (ifirst_equals_two t) (fun y x => ifirst_equals_two t x y) btrue idc (NoAcc idc) vnomask REPLACE
         s (Mat R) ones ;;
  defined_v s.

(** The edges that pass a test: two calls of [apply], the second a masked copy that removes the stored falses (the values
    pass through [EdgeType] unchanged), k_truss.hpp:149-155, 174-183 and 253-262. *)
Definition iedges_where (test : ival -> bool) (s : bvec ival) : res (bvec bool) :=
  x <- vec_new false (vsize s) ;;
  x <- apply_v test btrue idc (NoAcc idc) vnomask REPLACE x s ;;
  apply_v idc btrue idc (NoAcc idc) (MVal x) REPLACE x x.

(** [M(indices, :)] extracted into a new matrix, k_truss.hpp:194-201, 206-214 and 222-229. *)
Definition iextract_rows (M : lil ival) (indices : list nat) : res (lil ival) :=
  extract_m btrue idc (NoAcc idc) mnomask REPLACE (lil_new (length indices) (ncols M)) (Mat M)
    (IdxArr indices) AllIdx.

Record iktruss_state := mkIktruss {
  ik_E : lil ival; ik_R : lil ival; ik_s : bvec ival; ik_x : bvec bool; ik_break : bool }.

(** One iteration, k_truss.hpp:157-263; [ik_break] is set by the [break].  The arrays of indices are filled as in
    [get_vertex_IDs]. *)
Definition ik_truss_body (t : ctype) (k_size : Z) (DiagMask : lil bool) (ones : bvec ival) (st : iktruss_state)
  : res iktruss_state :=
  let num_vertices := ncols DiagMask in
  let E := ik_E st in
  x_indices <- get_vertex_IDs (ik_x st) ;;
  xc <- iedges_where (isupport_min_test (ithreshold t k_size)) (ik_s st) ;;
  xc_indices <- get_vertex_IDs xc ;;
  Ex <- iextract_rows E x_indices ;;
  Enew <- iextract_rows E xc_indices ;;
  if length xc_indices =? 0
  then Ok (mkIktruss Enew (ik_R st) (ik_s st) (ik_x st) true)
  else
    Rnew <- iextract_rows (ik_R st) xc_indices ;;
    ExT_Ex <- iproduct t idc btrue (MComp DiagMask) REPLACE (lil_new num_vertices num_vertices) (Trn Ex) (Mat Ex) ;;
    Rnew <- mxm (op2 Plus t) (op2 Times t) (op2 Times t) idc idc btrue idc (Acc (op2 Minus t) idc idc) mnomask REPLACE
              Rnew (Mat Enew) (Mat ExT_Ex) ;;
    Rnew <- defined_m Rnew ;;
    s <- iedge_support t Rnew ones ;;
    x <- iedges_where (isupport_test (ithreshold t k_size)) s ;;
    Ok (mkIktruss Enew Rnew s x false).

Definition ik_truss (t : ctype) (n : nat) (Ein : lil ival) (k_size : Z) : res (option (lil ival)) :=
  let num_vertices := ncols Ein in
  let num_edges := nrows Ein in
  DiagMask <- diag_mask num_vertices ;;
  A <- iproduct t idc btrue (MComp DiagMask) REPLACE (lil_new num_vertices num_vertices) (Trn Ein) (Mat Ein) ;;
  R <- imxm t (lil_new num_edges num_vertices) (Mat Ein) (Mat A) ;;
  ones <- vec_new (Ok 0%Z : ival) num_vertices ;;
  ones <- assign_const_v idc btrue idc (NoAcc idc) vnomask REPLACE ones (Ok (convert t 1))
            (IdxArr (seq 0 num_vertices)) ;;
  s <- iedge_support t R ones ;;
  x <- iedges_where (isupport_test (ithreshold t k_size)) s ;;
  r <- mwhile n (fun st => negb (ik_break st) && (0 <? vnvals (ik_x st))%Z)
         (ik_truss_body t k_size DiagMask ones) (mkIktruss Ein R s x false) ;;
  Ok (option_map ik_E r).
