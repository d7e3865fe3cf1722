(** Model of triangle counting.  /repo/src/algorithms/triangle_count.hpp.  The scalar type is the
    unbounded integers; [Z.quot] is the division of C++. *)
From Verif Require Import Base ModelLil ModelVec ModelHelpers ModelViews ModelMul ModelElem
  ModelUtils ModelAlgoBase.

(** [grb::reduce(sum, NoAccumulate, PlusMonoid, C)]. *)
Definition sum_all (C : lil Z) : res Z :=
  reduce_ms 0%Z idc Z.add Z.add Z.add idc (NoAcc idc) 0%Z C.

(** [triangle_count], triangle_count.hpp:67-87. *)
Definition triangle_count (graph : lil Z) : res Z :=
  let rows := nrows graph in
  let cols := ncols graph in
  LU <- split graph (lil_new rows cols) (lil_new rows cols) ;;
  B <- mxm Z.add Z.mul Z.mul idc idc btrue idc (NoAcc idc) mnomask MERGE (lil_new rows cols)
         (Mat (fst LU)) (Mat (snd LU)) ;;
  C <- eWiseMult Z.mul Z.mul idc btrue idc (NoAcc idc) mnomask MERGE (lil_new rows cols)
         (Mat graph) (Mat B) ;;
  sum <- sum_all C ;;
  Ok (Z.quot sum 2).

(** [triangle_count_masked(L, U)], triangle_count.hpp:95-108. *)
Definition triangle_count_masked_LU (L U : lil Z) : res Z :=
  B <- mxm Z.add Z.mul Z.mul idc idc ztrue idc (NoAcc idc) (MVal L) MERGE
         (lil_new (nrows L) (ncols L)) (Mat L) (Mat U) ;;
  sum_all B.

(** [triangle_count_masked(L)], triangle_count.hpp:116-129. *)
Definition triangle_count_masked (L : lil Z) : res Z :=
  B <- mxm Z.add Z.mul Z.mul idc idc ztrue idc (NoAcc idc) (MVal L) MERGE
         (lil_new (nrows L) (ncols L)) (Mat L) (Trn L) ;;
  sum_all B.

(** [triangle_count_masked_noT], triangle_count.hpp:137-149. *)
Definition triangle_count_masked_noT (L : lil Z) : res Z :=
  B <- mxm Z.add Z.mul Z.mul idc idc ztrue idc (NoAcc idc) (MVal L) MERGE
         (lil_new (nrows L) (ncols L)) (Mat L) (Mat L) ;;
  sum_all B.

(** [triangle_count_newGBTL], triangle_count.hpp:161-190.  [L] may be a [TransposeView]. *)
Definition triangle_count_newGBTL (L : mview Z) (U : lil Z) : res Z :=
  let rows := vrows L in
  let cols := vcols L in
  B <- mxm Z.add Z.mul Z.mul idc idc btrue idc (NoAcc idc) mnomask MERGE (lil_new rows cols)
         L (Mat U) ;;
  C <- eWiseMult Z.mul Z.mul idc btrue idc (NoAcc idc) mnomask REPLACE (lil_new rows cols)
         L (Mat B) ;;
  sum <- sum_all C ;;
  C <- eWiseMult Z.mul Z.mul idc btrue idc (NoAcc idc) mnomask REPLACE C (Mat U) (Mat B) ;;
  sum <- reduce_ms 0%Z idc Z.add Z.add Z.add idc (Acc Z.add idc idc) sum C ;;
  Ok (Z.quot sum 2).
