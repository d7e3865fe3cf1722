(** Calls without mask and accumulator over one scalar type, for stating the laws that relate them. *)
From Verif Require Import Base ModelLil ModelVec ModelHelpers ModelViews ModelMul ModelElem ModelIndex ModelAlgoBase Spec SpecOps.

(** A well-formed matrix with [r] rows and [k] columns, a well-formed vector of size [n]. *)
Definition shaped {T : Type} (r k : nat) (M : lil T) : Prop := wfm M /\ nrows M = r /\ ncols M = k.
Definition vshaped {T : Type} (n : nat) (w : bvec T) : Prop := wfv w /\ vsize w = n.

(** Both calls return, with the same matrix, or with vectors of the same contents. *)
Definition agree {X : Type} (a b : res X) : Prop := exists x, a = Ok x /\ b = Ok x.
Definition vagree {T : Type} (a b : res (bvec T)) : Prop :=
  exists u v, a = Ok u /\ b = Ok v /\ wfv u /\ wfv v /\ vsize u = vsize v /\ forall i, vget u i = vget v i.

Section Calls.
Context {T : Type} (o : outmode).
Definition add_call (op : T -> T -> T) (C A B : lil T) : res (lil T) :=
  eWiseAdd op idc idc op idc idc btrue idc (NoAcc idc) mnomask o C (Mat A) (Mat B).
Definition mult_call (op : T -> T -> T) (C A B : lil T) : res (lil T) :=
  eWiseMult op op idc btrue idc (NoAcc idc) mnomask o C (Mat A) (Mat B).
Definition mxm_call (add mult : T -> T -> T) (C A B : lil T) : res (lil T) :=
  mxm add mult mult idc idc btrue idc (NoAcc idc) mnomask o C (Mat A) (Mat B).
Definition transpose_call (C A : lil T) : res (lil T) :=
  transpose btrue idc (NoAcc idc) mnomask o C (Mat A).
Definition apply_call (f : T -> T) (C A : lil T) : res (lil T) :=
  apply f btrue idc (NoAcc idc) mnomask o C (Mat A).
Definition kronecker_call (op : T -> T -> T) (C A B : lil T) : res (lil T) :=
  kronecker op btrue idc (NoAcc idc) mnomask o C (Mat A) (Mat B).
Definition extract_call (C A : lil T) (rs cs : idxseq) : res (lil T) :=
  extract_m btrue idc (NoAcc idc) mnomask o C (Mat A) rs cs.
Definition mxv_call (add mult : T -> T -> T) (w : bvec T) (A : mview T) (u : bvec T) : res (bvec T) :=
  mxv add mult mult btrue idc (NoAcc idc) vnomask o w A u.
Definition vxm_call (add mult : T -> T -> T) (w u : bvec T) (A : mview T) : res (bvec T) :=
  vxm add mult btrue idc (NoAcc idc) vnomask o w u A.
Definition vadd_call (op : T -> T -> T) (w u v : bvec T) : res (bvec T) :=
  eWiseAdd_v op idc idc btrue idc (NoAcc idc) vnomask o w u v.
Definition vmult_call (op : T -> T -> T) (w u v : bvec T) : res (bvec T) :=
  eWiseMult_v op btrue idc (NoAcc idc) vnomask o w u v.
Definition vapply_call (f : T -> T) (w u : bvec T) : res (bvec T) :=
  apply_v f btrue idc (NoAcc idc) vnomask o w u.
Definition reduce_call (op : T -> T -> T) (w : bvec T) (A : mview T) : res (bvec T) :=
  reduce idc op op btrue idc (NoAcc idc) vnomask o w A.
End Calls.

(** The mask that allows the other positions. *)
Definition mask_not {X : Type} (m : mask X) : mask X :=
  match m with
  | NoMask => NoMask
  | MVal M => MComp M | MComp M => MVal M
  | MStruct M => MSComp M | MSComp M => MStruct M
  end.
