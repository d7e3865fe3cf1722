(** Products and reductions over [float] and [double]. *)
From Coq Require Import ZArith Floats.SpecFloat.
From Verif Require Import Base ModelLil ModelVec ModelHelpers ModelViews ModelMul ModelElem ModelUtils ModelAlgoBase ModelFloat.

(** [mxm(C, NoMask(), NoAccumulate(), ArithmeticSemiring<T>(), A, B)], operations.hpp:64-104 with algebra.hpp:521. *)
Definition fmxm (t : ftype) (C : lil fval) (A B : mview fval) : res (lil fval) :=
  mxm (FPlus t) (FTimes t) (FTimes t) idc idc btrue idc (NoAcc idc) mnomask MERGE C A B.
(** [mxv] and [vxm], operations.hpp:107-178. *)
Definition fmxv (t : ftype) (w : bvec fval) (A : mview fval) (u : bvec fval) : res (bvec fval) :=
  mxv (FPlus t) (FTimes t) (FTimes t) btrue idc (NoAcc idc) vnomask MERGE w A u.
Definition fvxm (t : ftype) (w : bvec fval) (u : bvec fval) (A : mview fval) : res (bvec fval) :=
  vxm (FPlus t) (FTimes t) btrue idc (NoAcc idc) vnomask MERGE w u A.
(** [reduce(w, NoMask(), NoAccumulate(), Plus<T>(), A)], operations.hpp:957-988. *)
Definition freduce (t : ftype) (w : bvec fval) (A : mview fval) : res (bvec fval) :=
  reduce idc (FPlus t) (FPlus t) btrue idc (NoAcc idc) vnomask MERGE w A.
(** [reduce(val, NoAccumulate(), PlusMonoid<T>(), u)], operations.hpp:996-1016; the sum of the elements of a vector. *)
Definition freduce_vs (t : ftype) (val : fval) (u : bvec fval) : res fval :=
  reduce_vs (fm_id FPlusMonoid t) idc (FPlus t) (FPlus t) idc (NoAcc idc) val u.
(** [reduce(val, NoAccumulate(), PlusMonoid<T>(), A)], operations.hpp:1024-1044; the sum of the elements of a matrix. *)
Definition freduce_ms (t : ftype) (val : fval) (A : lil fval) : res fval :=
  reduce_ms (fm_id FPlusMonoid t) idc (FPlus t) (FPlus t) (FPlus t) idc (NoAcc idc) val A.
