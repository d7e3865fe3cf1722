(** Model of triangle counting over the built-in integer types and [bool].  /repo/src/algorithms/triangle_count.hpp.
    Scalars as in ModelInts: a call in which some computed element is [UB] is undefined. *)
From Coq Require Import ZArith.
From Verif Require Import Base ModelLil ModelVec ModelHelpers ModelViews ModelMul ModelElem ModelUtils ModelAlgoBase
  ModelAlgebra ModelOps ModelInts.

(** A value used as a mask element; the elements of a mask are inputs, never [UB]. *)
Definition itrue (x : ival) : bool := match x with Ok z => ztrue z | _ => false end.

(** [mxm(B, L, NoAccumulate(), ArithmeticSemiring<T>(), A, U)]: the whole product is computed before the mask is applied
    (sparse_mxm.hpp:65-107), so it must be defined everywhere. *)
Definition imxm_masked (t : ctype) (L : lil ival) (C : lil ival) (A B : mview ival) : res (lil ival) :=
  _ <- imxm t C A B ;;
  mxm (op2 Plus t) (op2 Times t) (op2 Times t) idc idc itrue idc (NoAcc idc) (MVal L) MERGE C A B.
(** [eWiseMult(C, NoMask(), NoAccumulate(), Times<T>(), A, B, outp)]. *)
Definition iewise_times (t : ctype) (outp : outmode) (C : lil ival) (A B : mview ival) : res (lil ival) :=
  C <- eWiseMult (op2 Times t) (op2 Times t) idc btrue idc (NoAcc idc) mnomask outp C A B ;; defined_m C.
(** [reduce(sum, accum, PlusMonoid<T>(), C)] with [NoAccumulate] and [Plus<T>]. *)
Definition isum (t : ctype) (C : lil ival) : res Z :=
  sum <- reduce_ms (Ok 0%Z) idc (op2 Plus t) (op2 Plus t) (op2 Plus t) idc (NoAcc idc) (Ok 0%Z) C ;; sum.
Definition isum_plus (t : ctype) (sum : Z) (C : lil ival) : res Z :=
  sum <- reduce_ms (Ok 0%Z) idc (op2 Plus t) (op2 Plus t) (op2 Plus t) idc (Acc (op2 Plus t) idc idc) (Ok sum) C ;; sum.
(** [return sum / static_cast<T>(2)]. *)
Definition ihalf (t : ctype) (sum : Z) : res Z := Div t t t sum (convert t 2).

(** [triangle_count], triangle_count.hpp:67-87. *)
Definition itriangle_count (t : ctype) (graph : lil ival) : res Z :=
  let rows := nrows graph in
  let cols := ncols graph in
  LU <- split graph (lil_new rows cols) (lil_new rows cols) ;;
  B <- imxm t (lil_new rows cols) (Mat (fst LU)) (Mat (snd LU)) ;;
  C <- iewise_times t MERGE (lil_new rows cols) (Mat graph) (Mat B) ;;
  sum <- isum t C ;;
  ihalf t sum.

(** [triangle_count_masked(L, U)], triangle_count.hpp:95-108. *)
Definition itriangle_count_masked_LU (t : ctype) (L U : lil ival) : res Z :=
  B <- imxm_masked t L (lil_new (nrows L) (ncols L)) (Mat L) (Mat U) ;; isum t B.
(** [triangle_count_masked(L)], triangle_count.hpp:116-129. *)
Definition itriangle_count_masked (t : ctype) (L : lil ival) : res Z :=
  B <- imxm_masked t L (lil_new (nrows L) (ncols L)) (Mat L) (Trn L) ;; isum t B.
(** [triangle_count_masked_noT], triangle_count.hpp:137-149. *)
Definition itriangle_count_masked_noT (t : ctype) (L : lil ival) : res Z :=
  B <- imxm_masked t L (lil_new (nrows L) (ncols L)) (Mat L) (Mat L) ;; isum t B.

(** [triangle_count_newGBTL], triangle_count.hpp:161-190. *)
Definition itriangle_count_newGBTL (t : ctype) (L : mview ival) (U : lil ival) : res Z :=
  let rows := vrows L in
  let cols := vcols L in
  B <- imxm t (lil_new rows cols) L (Mat U) ;;
  C <- iewise_times t REPLACE (lil_new rows cols) L (Mat B) ;;
  sum <- isum t C ;;
  C <- iewise_times t REPLACE C (Mat U) (Mat B) ;;
  sum <- isum_plus t sum C ;;
  ihalf t sum.
