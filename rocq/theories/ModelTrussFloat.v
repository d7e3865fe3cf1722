(** Model of the k-truss algorithms over [float] and [double].  /repo/src/algorithms/k_truss.hpp.
    ModelTruss is the same over the unbounded integers, ModelTrussTypes over the integer types and [bool]. *)
From Coq Require Import ZArith Floats.SpecFloat.
From Verif Require Import Base ModelLil ModelVec ModelHelpers ModelViews ModelMul ModelElem ModelIndex ModelAlgoBase ModelMis
  ModelAlgebra ModelOps ModelInts ModelFloat ModelConv ModelFsssp ModelTruss.

Section Truss.
Context (t : ftype).

(** [k_size - 2], a subtraction of [IndexType] (64 bits, unsigned), converted to the scalar type (rounded) by the constructor
    of [SupportTest] or [SupportMinTest], k_truss.hpp:62, 77. *)
Definition fthreshold (k_size : Z) : fval := of_int t (convert (CInt false W64) (k_size - 2)).
(** [SupportTest], k_truss.hpp:57-68. *)
Definition fsupport_test (thr val : fval) : bool := SFltb val thr.
(** [SupportTest] with [std::greater_equal], k_truss.hpp:57-68. *)
Definition fsupport_ge_test (thr val : fval) : bool := SFleb thr val.
(** [SupportMinTest], k_truss.hpp:72-83. *)
Definition fsupport_min_test (thr val : fval) : bool := negb (SFltb val thr).
(** The conversions to and from [IndexType] (C++ [conv.fpint]). *)
Definition to_index (x : fval) : ival := float_to_int (CInt false W64) x.
Definition of_index (v : ival) : fval := match v with Ok z => of_int t z | _ => S754_nan end.
(** [FirstEqualsTwo], k_truss.hpp:39-50. *)
Definition ffirst_equals_two (lhs rhs : fval) : fval := if SFeqb lhs (of_int t 2) then rhs else f0.

(** ** [k_truss2], k_truss.hpp:278-320 *)
Record ftruss_state := mkFtruss {
  ft_A : lil fval; ft_old : Z; ft_new : Z; ft_mask : lil bool; ft_support : lil ival }.

(** The body of the loop, k_truss.hpp:297-316.  [Support] is a matrix of [IndexType]: the sums are converted to that type when
    they are stored, which is undefined for a number that the type cannot hold, and back when the test is called. *)
Definition fk_truss2_body (k_size : Z) (s : ftruss_state) : res ftruss_state :=
  let A := ft_A s in
  Support <- mxm (FPlus t) (FTimes t) (FTimes t) to_index of_index ftrue to_index (NoAcc idc) (MVal A) REPLACE
               (ft_support s) (Trn A) (Mat A) ;;
  Support <- defined_m Support ;;
  Mask <- apply (fun v => fsupport_min_test (fthreshold k_size) (of_index v)) btrue idc (NoAcc idc) mnomask REPLACE
            (ft_mask s) (Mat Support) ;;
  A' <- apply idc btrue idc (NoAcc idc) (MVal Mask) REPLACE A (Mat A) ;;
  Ok (mkFtruss A' (ft_new s) (nvals A') Mask Support).

(** [do body while (new_num_edges != num_edges)]. *)
Definition fk_truss2 (n : nat) (Ain : lil fval) (k_size : Z) : res (option (lil fval)) :=
  let num_vertices := ncols Ain in
  s <- fk_truss2_body k_size
         (mkFtruss Ain 0%Z (nvals Ain) (lil_new num_vertices num_vertices) (lil_new num_vertices num_vertices)) ;;
  r <- mwhile n (fun s => negb (ft_new s =? ft_old s)%Z) (fk_truss2_body k_size) s ;;
  Ok (option_map ft_A r).

(** ** [k_truss], k_truss.hpp:87-274 *)

(** The edge supports: [mxv(s, NoMask, NoAccumulate, Support2Semiring, R, OnesN, REPLACE)] into a new vector,
    k_truss.hpp:141-144 and 247-250. *)
Definition fedge_support (R : lil fval) (ones : bvec fval) : res (bvec fval) :=
  s <- vec_new f0 (nrows R) ;;
  mxv (FPlus t) ffirst_equals_two (fun y x => ffirst_equals_two x y) btrue idc (NoAcc idc) vnomask REPLACE
    s (Mat R) ones.

(** The edges that pass a test: two calls of [apply], the second a masked copy that removes the stored falses (the values
    pass through [EdgeType] unchanged), k_truss.hpp:149-155, 174-183 and 253-262. *)
Definition fedges_where (test : fval -> bool) (s : bvec fval) : res (bvec bool) :=
  x <- vec_new false (vsize s) ;;
  x <- apply_v test btrue idc (NoAcc idc) vnomask REPLACE x s ;;
  apply_v idc btrue idc (NoAcc idc) (MVal x) REPLACE x x.

(** [M(indices, :)] extracted into a new matrix, k_truss.hpp:194-201, 206-214 and 222-229. *)
Definition fextract_rows (M : lil fval) (indices : list nat) : res (lil fval) :=
  extract_m btrue idc (NoAcc idc) mnomask REPLACE (lil_new (length indices) (ncols M)) (Mat M)
    (IdxArr indices) AllIdx.

Record fktruss_state := mkFktruss {
  fk_E : lil fval; fk_R : lil fval; fk_s : bvec fval; fk_x : bvec bool; fk_break : bool }.

(** One iteration, k_truss.hpp:157-263; [fk_break] is set by the [break].  The arrays of indices are filled as in
    [get_vertex_IDs]. *)
Definition fk_truss_body (k_size : Z) (DiagMask : lil bool) (ones : bvec fval) (st : fktruss_state)
  : res fktruss_state :=
  let num_vertices := ncols DiagMask in
  let E := fk_E st in
  x_indices <- get_vertex_IDs (fk_x st) ;;
  xc <- fedges_where (fsupport_ge_test (fthreshold k_size)) (fk_s st) ;;
  xc_indices <- get_vertex_IDs xc ;;
  Ex <- fextract_rows E x_indices ;;
  Enew <- fextract_rows E xc_indices ;;
  if length xc_indices =? 0
  then Ok (mkFktruss Enew (fk_R st) (fk_s st) (fk_x st) true)
  else
    Rnew <- fextract_rows (fk_R st) xc_indices ;;
    ExT_Ex <- mxm (FPlus t) (FTimes t) (FTimes t) idc idc btrue idc (NoAcc idc) (MComp DiagMask) REPLACE
                (lil_new num_vertices num_vertices) (Trn Ex) (Mat Ex) ;;
    Rnew <- mxm (FPlus t) (FTimes t) (FTimes t) idc idc btrue idc (Acc (FMinus t) idc idc) mnomask REPLACE
              Rnew (Mat Enew) (Mat ExT_Ex) ;;
    s <- fedge_support Rnew ones ;;
    x <- fedges_where (fsupport_test (fthreshold k_size)) s ;;
    Ok (mkFktruss Enew Rnew s x false).

Definition fk_truss (n : nat) (Ein : lil fval) (k_size : Z) : res (option (lil fval)) :=
  let num_vertices := ncols Ein in
  let num_edges := nrows Ein in
  DiagMask <- diag_mask num_vertices ;;
  A <- mxm (FPlus t) (FTimes t) (FTimes t) idc idc btrue idc (NoAcc idc) (MComp DiagMask) REPLACE
         (lil_new num_vertices num_vertices) (Trn Ein) (Mat Ein) ;;
  R <- mxm (FPlus t) (FTimes t) (FTimes t) idc idc btrue idc (NoAcc idc) mnomask MERGE
         (lil_new num_edges num_vertices) (Mat Ein) (Mat A) ;;
  ones <- vec_new f0 num_vertices ;;
  ones <- assign_const_v idc btrue idc (NoAcc idc) vnomask REPLACE ones (of_int t 1)
            (IdxArr (seq 0 num_vertices)) ;;
  s <- fedge_support R ones ;;
  x <- fedges_where (fsupport_test (fthreshold k_size)) s ;;
  r <- mwhile n (fun st => negb (fk_break st) && (0 <? vnvals (fk_x st))%Z)
         (fk_truss_body k_size DiagMask ones) (mkFktruss Ein R s x false) ;;
  Ok (option_map fk_E r).
End Truss.
