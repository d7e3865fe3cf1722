(** Model of moving the elements of a container to one of another scalar type,
    [apply(C, NoMask(), NoAccumulate(), Identity<D1,D2>(), A)], operations.hpp:771-801 and 734-763 with algebra.hpp:81-85: a
    conversion may be undefined, and then so is the call. *)
From Coq Require Import ZArith.
From Verif Require Import Base ModelLil ModelVec ModelHelpers ModelViews ModelElem ModelAlgoBase ModelConv.

Fixpoint traverse {A B : Type} (f : A -> res B) (l : list A) : res (list B) :=
  match l with
  | [] => Ok []
  | x :: l => y <- f x ;; r <- traverse f l ;; Ok (y :: r)
  end.
(** A container of outcomes as a container of values, undefined if some element is. *)
Definition values_m {T : Type} (M : lil (res T)) : res (lil T) :=
  d <- traverse (traverse (fun e => v <- snd e ;; Ok (fst e, v))) (data M) ;; Ok (mkLil (nrows M) (ncols M) (nvals M) d).
Definition values_v {T : Type} (dflt : T) (w : bvec (res T)) : res (bvec T) :=
  d <- traverse (fun e : bool * res T => if fst e then snd e else Ok dflt) (combine (vbits w) (vvals w)) ;;
  Ok (mkVec (vsize w) (vnvals w) d (vbits w)).
(** A container of values as one of outcomes. *)
Definition outcomes_m {T : Type} (M : lil T) : lil (res T) :=
  mkLil (nrows M) (ncols M) (nvals M) (map (map (fun e => (fst e, Ok (snd e)))) (data M)).
Definition outcomes_v {T : Type} (w : bvec T) : bvec (res T) :=
  mkVec (vsize w) (vnvals w) (map Ok (vvals w)) (vbits w).

Definition recast_m (t1 t2 : stype) (C : lil scalar) (A : mview scalar) : res (lil scalar) :=
  D <- apply (SIdentity t1 t2) btrue idc (NoAcc idc) mnomask MERGE (outcomes_m C) A ;; values_m D.
(** The array of a vector holds default values where no element is stored. *)
Definition recast_v (t1 t2 : stype) (w u : bvec scalar) : res (bvec scalar) :=
  d <- apply_v (SIdentity t1 t2) btrue idc (NoAcc idc) vnomask MERGE (outcomes_v w) u ;; values_v (constant 0 t2) d.
