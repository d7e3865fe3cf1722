(** Model of the products, reductions and shortest paths over the built-in integer types.
    A scalar is a value or [UB], the outcome of an operator whose evaluation is undefined; an operator applied to [UB] gives
    [UB].  A call in which some element is [UB] is undefined ([defined_m], [defined_v]).  Without a mask every result of an
    operator that these calls evaluate enters an element of the output, so that none is missed. *)
From Coq Require Import ZArith.
From Verif Require Import Base ModelLil ModelVec ModelHelpers ModelViews ModelMul ModelElem ModelUtils ModelAlgoBase ModelSssp
  ModelAlgebra ModelFsssp.

Definition ival : Type := res Z.
Definition op2 (op : binop) (t : ctype) (x y : ival) : ival :=
  match x, y with Ok a, Ok b => op t a b | _, _ => UB end.

Definition is_ok (x : ival) : bool := match x with Ok _ => true | _ => false end.
Definition defined_m (M : lil ival) : res (lil ival) :=
  if forallb (fun r => forallb (fun e => is_ok (snd e)) r) (data M) then Ok M else UB.
Definition defined_v (u : bvec ival) : res (bvec ival) :=
  if forallb (fun e : bool * ival => negb (fst e) || is_ok (snd e)) (combine (vbits u) (vvals u)) then Ok u else UB.

(** [mxm(C, NoMask(), NoAccumulate(), ArithmeticSemiring<T>(), A, B)], operations.hpp:64-104 with algebra.hpp:521. *)
Definition imxm (t : ctype) (C : lil ival) (A B : mview ival) : res (lil ival) :=
  C <- mxm (op2 Plus t) (op2 Times t) (op2 Times t) idc idc btrue idc (NoAcc idc) mnomask MERGE C A B ;; defined_m C.
(** [mxv] and [vxm], operations.hpp:107-178. *)
Definition imxv (t : ctype) (w : bvec ival) (A : mview ival) (u : bvec ival) : res (bvec ival) :=
  w <- mxv (op2 Plus t) (op2 Times t) (op2 Times t) btrue idc (NoAcc idc) vnomask MERGE w A u ;; defined_v w.
Definition ivxm (t : ctype) (w : bvec ival) (u : bvec ival) (A : mview ival) : res (bvec ival) :=
  w <- vxm (op2 Plus t) (op2 Times t) btrue idc (NoAcc idc) vnomask MERGE w u A ;; defined_v w.
(** [reduce(w, NoMask(), NoAccumulate(), Plus<T>(), A)], operations.hpp:957-988. *)
Definition ireduce (t : ctype) (w : bvec ival) (A : mview ival) : res (bvec ival) :=
  w <- reduce idc (op2 Plus t) (op2 Plus t) btrue idc (NoAcc idc) vnomask MERGE w A ;; defined_v w.

(** [sssp] with weights of type [T], sssp.hpp:62-114. *)
Definition ieqb (x y : ival) : bool := match x, y with Ok a, Ok b => (a =? b)%Z | _, _ => false end.
Definition istep (t : ctype) (graph : lil ival) (dist : bvec ival) : res (bvec ival) :=
  dist <- gstep (op2 Min t) (op2 Plus t) graph dist ;; defined_v dist.
Definition isssp (t : ctype) (graph : lil ival) (dist : bvec ival) : res (bool * bvec ival) :=
  if negb (nrows graph =? vsize dist) || negb (ncols graph =? vsize dist)
  then Throw DimensionException
  else
    dist <- mfor (seq 0 (nrows graph - 1)) (fun _ dist => istep t graph dist) dist ;;
    dist2 <- istep t graph dist ;;
    equal_flags <- vec_new false (nrows graph) ;;
    equal_flags <- eWiseMult_v ieqb btrue idc (NoAcc idc) vnomask MERGE equal_flags dist dist2 ;;
    Ok (negb (any_false_v equal_flags), dist).
