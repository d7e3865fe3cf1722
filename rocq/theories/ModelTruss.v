(** Model of the k-truss algorithms.  /repo/src/algorithms/k_truss.hpp.  The scalar type is the
    unbounded integers; [k_size - 2] is a subtraction of unsigned integers in the code, modelled
    for [2 <= k_size] only. *)
From Verif Require Import Base ModelLil ModelVec ModelHelpers ModelViews ModelMul ModelElem
  ModelIndex ModelAlgoBase ModelMis.

(** [static_cast<EdgeType>(k_size - 2)]. *)
Definition threshold (k_size : nat) : Z := (Z.of_nat k_size - 2)%Z.

(** [SupportTest], k_truss.hpp:57-68. *)
Definition support_test (thr val : Z) : bool := (val <? thr)%Z.
(** [SupportMinTest], k_truss.hpp:72-83; also [SupportTest] with [std::greater_equal]. *)
Definition support_min_test (thr val : Z) : bool := negb (val <? thr)%Z.

(** [Support2Semiring]: [PlusMonoid] and [FirstEqualsTwo], k_truss.hpp:39-53. *)
Definition first_equals_two (lhs rhs : Z) : Z := if (lhs =? 2)%Z then rhs else 0%Z.

(** ** [k_truss2], k_truss.hpp:278-320 *)
Record truss_state := mkTruss {
  tr_A : lil Z; tr_old : Z; tr_new : Z; tr_mask : lil bool; tr_support : lil Z }.

(** The body of the loop, k_truss.hpp:297-316. *)
Definition k_truss2_body (k_size : nat) (s : truss_state) : res truss_state :=
  let A := tr_A s in
  Support <- mxm Z.add Z.mul Z.mul idc idc ztrue idc (NoAcc idc) (MVal A) REPLACE
               (tr_support s) (Trn A) (Mat A) ;;
  Mask <- apply (support_min_test (threshold k_size)) btrue idc (NoAcc idc) mnomask REPLACE
            (tr_mask s) (Mat Support) ;;
  A' <- apply idc btrue idc (NoAcc idc) (MVal Mask) REPLACE A (Mat A) ;;
  Ok (mkTruss A' (tr_new s) (nvals A') Mask Support).

(** [do body while (new_num_edges != num_edges)]. *)
Definition k_truss2 (n : nat) (Ain : lil Z) (k_size : nat) : res (option (lil Z)) :=
  let num_vertices := ncols Ain in
  s <- k_truss2_body k_size
         (mkTruss Ain 0%Z (nvals Ain) (lil_new num_vertices num_vertices)
            (lil_new num_vertices num_vertices)) ;;
  r <- mwhile n (fun s => negb (tr_new s =? tr_old s)%Z) (k_truss2_body k_size) s ;;
  Ok (option_map tr_A r).

(** ** [k_truss], k_truss.hpp:87-274 *)

(** [DiagMask], k_truss.hpp:98-105. *)
Definition diag_mask (n : nat) : res (lil bool) :=
  mfor (seq 0 n) (fun ix M => lil_setElement M ix ix true) (lil_new n n).

(** The edge supports: [mxv(s, NoMask, NoAccumulate, Support2Semiring, R, OnesN, REPLACE)] into a
    new vector, k_truss.hpp:141-144 and 247-250. *)
Definition edge_support (R : lil Z) (ones : bvec Z) : res (bvec Z) :=
  s <- vec_new 0%Z (nrows R) ;;
  mxv Z.add first_equals_two (fun y x => first_equals_two x y) btrue idc (NoAcc idc) vnomask REPLACE
    s (Mat R) ones.

(** The edges that pass a test: two calls of [apply], the second a masked copy that removes the
    stored falses (the values pass through [EdgeType] unchanged), k_truss.hpp:149-155, 174-183 and
    253-262. *)
Definition edges_where (test : Z -> bool) (s : bvec Z) : res (bvec bool) :=
  x <- vec_new false (vsize s) ;;
  x <- apply_v test btrue idc (NoAcc idc) vnomask REPLACE x s ;;
  apply_v idc btrue idc (NoAcc idc) (MVal x) REPLACE x x.

(** [M(indices, :)] extracted into a new matrix, k_truss.hpp:194-201, 206-214 and 222-229. *)
Definition extract_rows (M : lil Z) (indices : list nat) : res (lil Z) :=
  extract_m btrue idc (NoAcc idc) mnomask REPLACE (lil_new (length indices) (ncols M)) (Mat M)
    (IdxArr indices) AllIdx.

Record ktruss_state := mkKtruss {
  kt_E : lil Z; kt_R : lil Z; kt_s : bvec Z; kt_x : bvec bool; kt_break : bool }.

(** One iteration, k_truss.hpp:157-263; [kt_break] is set by the [break].  The arrays of indices are
    filled as in [get_vertex_IDs]. *)
Definition k_truss_body (k_size : nat) (DiagMask : lil bool) (ones : bvec Z) (st : ktruss_state)
  : res ktruss_state :=
  let num_vertices := ncols DiagMask in
  let E := kt_E st in
  x_indices <- get_vertex_IDs (kt_x st) ;;
  xc <- edges_where (support_min_test (threshold k_size)) (kt_s st) ;;
  xc_indices <- get_vertex_IDs xc ;;
  Ex <- extract_rows E x_indices ;;
  Enew <- extract_rows E xc_indices ;;
  if length xc_indices =? 0
  then Ok (mkKtruss Enew (kt_R st) (kt_s st) (kt_x st) true)
  else
    Rnew <- extract_rows (kt_R st) xc_indices ;;
    ExT_Ex <- mxm Z.add Z.mul Z.mul idc idc btrue idc (NoAcc idc) (MComp DiagMask) REPLACE
                (lil_new num_vertices num_vertices) (Trn Ex) (Mat Ex) ;;
    Rnew <- mxm Z.add Z.mul Z.mul idc idc btrue idc (Acc Z.sub idc idc) mnomask REPLACE
              Rnew (Mat Enew) (Mat ExT_Ex) ;;
    s <- edge_support Rnew ones ;;
    x <- edges_where (support_test (threshold k_size)) s ;;
    Ok (mkKtruss Enew Rnew s x false).

Definition k_truss (n : nat) (Ein : lil Z) (k_size : nat) : res (option (lil Z)) :=
  let num_vertices := ncols Ein in
  let num_edges := nrows Ein in
  DiagMask <- diag_mask num_vertices ;;
  A <- mxm Z.add Z.mul Z.mul idc idc btrue idc (NoAcc idc) (MComp DiagMask) REPLACE
         (lil_new num_vertices num_vertices) (Trn Ein) (Mat Ein) ;;
  R <- mxm Z.add Z.mul Z.mul idc idc btrue idc (NoAcc idc) mnomask MERGE
         (lil_new num_edges num_vertices) (Mat Ein) (Mat A) ;;
  ones <- vec_new 0%Z num_vertices ;;
  ones <- assign_const_v idc btrue idc (NoAcc idc) vnomask REPLACE ones 1%Z
            (IdxArr (seq 0 num_vertices)) ;;
  s <- edge_support R ones ;;
  x <- edges_where (support_test (threshold k_size)) s ;;
  r <- mwhile n (fun st => negb (kt_break st) && (0 <? vnvals (kt_x st))%Z)
         (k_truss_body k_size DiagMask ones) (mkKtruss Ein R s x false) ;;
  Ok (option_map kt_E r).
