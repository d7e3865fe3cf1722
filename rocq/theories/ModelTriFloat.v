(** Model of triangle counting over [float] and [double].  /repo/src/algorithms/triangle_count.hpp.
    ModelTriangle is the same over the unbounded integers, ModelTriInts over the integer types. *)
From Coq Require Import ZArith Floats.SpecFloat.
From Verif Require Import Base ModelLil ModelVec ModelHelpers ModelViews ModelMul ModelElem ModelUtils ModelAlgoBase
  ModelAlgebra ModelOps ModelFloat ModelConv ModelFsssp.

Section Triangles.
Context (t : ftype).

(** [mxm(B, m, NoAccumulate(), ArithmeticSemiring<T>(), A, U)] into a new matrix, without a mask and with the mask [L]. *)
Definition tri_fmxm (C : lil fval) (A B : mview fval) : res (lil fval) :=
  mxm (FPlus t) (FTimes t) (FTimes t) idc idc btrue idc (NoAcc idc) mnomask MERGE C A B.
Definition tri_fmxm_masked (L : lil fval) (C : lil fval) (A B : mview fval) : res (lil fval) :=
  mxm (FPlus t) (FTimes t) (FTimes t) idc idc ftrue idc (NoAcc idc) (MVal L) MERGE C A B.
(** [eWiseMult(C, NoMask(), NoAccumulate(), Times<T>(), A, B, outp)]. *)
Definition fewise_times (outp : outmode) (C : lil fval) (A B : mview fval) : res (lil fval) :=
  eWiseMult (FTimes t) (FTimes t) idc btrue idc (NoAcc idc) mnomask outp C A B.
(** [reduce(sum, accum, PlusMonoid<T>(), C)] with [NoAccumulate] and [Plus<T>]. *)
Definition fsum (C : lil fval) : res fval :=
  reduce_ms f0 idc (FPlus t) (FPlus t) (FPlus t) idc (NoAcc idc) f0 C.
Definition fsum_plus (sum : fval) (C : lil fval) : res fval :=
  reduce_ms f0 idc (FPlus t) (FPlus t) (FPlus t) idc (Acc (FPlus t) idc idc) sum C.
(** [sum / static_cast<T>(2)]. *)
Definition fhalf (sum : fval) : fval := FDiv t sum (of_int t 2).

(** [triangle_count], triangle_count.hpp:67-87. *)
Definition ftriangle_count (graph : lil fval) : res fval :=
  let rows := nrows graph in
  let cols := ncols graph in
  LU <- split graph (lil_new rows cols) (lil_new rows cols) ;;
  B <- tri_fmxm (lil_new rows cols) (Mat (fst LU)) (Mat (snd LU)) ;;
  C <- fewise_times MERGE (lil_new rows cols) (Mat graph) (Mat B) ;;
  sum <- fsum C ;;
  Ok (fhalf sum).

(** [triangle_count_masked(L, U)], triangle_count.hpp:95-108. *)
Definition ftriangle_count_masked_LU (L U : lil fval) : res fval :=
  B <- tri_fmxm_masked L (lil_new (nrows L) (ncols L)) (Mat L) (Mat U) ;; fsum B.
(** [triangle_count_masked(L)], triangle_count.hpp:116-129. *)
Definition ftriangle_count_masked (L : lil fval) : res fval :=
  B <- tri_fmxm_masked L (lil_new (nrows L) (ncols L)) (Mat L) (Trn L) ;; fsum B.
(** [triangle_count_masked_noT], triangle_count.hpp:137-149. *)
Definition ftriangle_count_masked_noT (L : lil fval) : res fval :=
  B <- tri_fmxm_masked L (lil_new (nrows L) (ncols L)) (Mat L) (Mat L) ;; fsum B.

(** [triangle_count_newGBTL], triangle_count.hpp:161-190. *)
Definition ftriangle_count_newGBTL (L : mview fval) (U : lil fval) : res fval :=
  let rows := vrows L in
  let cols := vcols L in
  B <- tri_fmxm (lil_new rows cols) L (Mat U) ;;
  C <- fewise_times REPLACE (lil_new rows cols) L (Mat B) ;;
  sum <- fsum C ;;
  C <- fewise_times REPLACE C (Mat U) (Mat B) ;;
  sum <- fsum_plus sum C ;;
  Ok (fhalf sum).
End Triangles.
