(** Well-formed stores, conforming operations and the calls covered by the machine's
    properties. *)
From Verif Require Import Base ModelLil ModelVec ModelHelpers ModelViews ModelIndex ModelCalls
  ModelMachine Spec SpecOps SpecIndex SpecCalls.

Definition wfstore {T : Type} (st : store T) : Prop :=
  Forall wfm (mats st) /\ Forall wfv (vecs st).

Section Conform.
Context {T : Type}.

(** The dimensions of the operands, the mask, the output and the lengths of the index
    sequences fit. *)
Definition mop_shape (m : mask (lil T)) (C : lil T) (o : mop T (mview T)) : Prop :=
  mask_fits m (nrows C) (ncols C) /\
  match o with
  | OMxm _ _ _ _ _ A B => nrows C = vrows A /\ ncols C = vcols B /\ vcols A = vrows B
  | OEwiseMult _ _ _ A B | OEwiseAdd _ _ _ _ _ _ A B =>
      nrows C = vrows A /\ ncols C = vcols A /\ vrows A = vrows B /\ vcols A = vcols B
  | OApply _ A => nrows C = vrows A /\ ncols C = vcols A
  | OTranspose A => nrows C = vcols A /\ ncols C = vrows A
  | OKron _ A B => nrows C = vrows A * vrows B /\ ncols C = vcols A * vcols B
  | OExtract A rs cs => idx_size rs (nrows C) /\ idx_size cs (ncols C)
  | OAssign A rs cs => idx_size rs (vrows A) /\ idx_size cs (vcols A)
  | OAssignC _ rs cs => idx_size_le rs (nrows C) /\ idx_size_le cs (ncols C)
  end.
(** The elements of the index sequences are valid. *)
Definition mop_inrange (C : lil T) (o : mop T (mview T)) : Prop :=
  match o with
  | OExtract A rs cs => idx_in rs (vrows A) /\ idx_in cs (vcols A)
  | OAssign _ rs cs | OAssignC _ rs cs => idx_in rs (nrows C) /\ idx_in cs (ncols C)
  | _ => True
  end.

Definition vop_shape (m : mask (bvec T)) (w : bvec T) (o : vop T (mview T) (bvec T)) : Prop :=
  vmask_fits m (vsize w) /\
  match o with
  | OMxv _ _ _ A u => vsize w = vrows A /\ vsize u = vcols A
  | OVxm _ _ u A => vsize w = vcols A /\ vsize u = vrows A
  | OEwiseMultV _ u v | OEwiseAddV _ _ _ u v => vsize w = vsize u /\ vsize u = vsize v
  | OApplyV _ u => vsize w = vsize u
  | OReduce _ _ _ A => vsize w = vrows A
  | OExtractV u s => idx_size s (vsize w)
  | OExtractCol A rs col => idx_size rs (vsize w)
  | OAssignV u s => idx_size s (vsize u)
  | OAssignCV _ s => idx_size_le s (vsize w)
  end.
(** The single row or column index is valid. *)
Definition vop_single (o : vop T (mview T) (bvec T)) : Prop :=
  match o with OExtractCol A _ col => col < vcols A | _ => True end.
Definition vop_inrange (w : bvec T) (o : vop T (mview T) (bvec T)) : Prop :=
  match o with
  | OExtractV u s => idx_in s (vsize u)
  | OExtractCol A rs _ => idx_in rs (vrows A)
  | OAssignV _ s | OAssignCV _ s => idx_in s (vsize w)
  | _ => True
  end.

Definition rop_shape (m : mask (bvec T)) (C : lil T) (o : rop (bvec T)) : Prop :=
  match o with
  | OAssignCol u rs col => vmask_fits m (nrows C) /\ idx_size rs (vsize u)
  | OAssignRow u row cs => vmask_fits m (ncols C) /\ idx_size cs (vsize u)
  end.
Definition rop_single (C : lil T) (o : rop (bvec T)) : Prop :=
  match o with
  | OAssignCol u rs col => col < ncols C
  | OAssignRow u row cs => row < nrows C
  end.
Definition rop_inrange (C : lil T) (o : rop (bvec T)) : Prop :=
  match o with
  | OAssignCol u rs col => idx_in rs (nrows C)
  | OAssignRow u row cs => idx_in cs (ncols C)
  end.

(** What the caller has to guarantee and the code does not test: index ranges are not
    backward (C55); no duplicates in the index lists of assign; AllIndices only with a source
    that is not larger than the output (C34); increasing lists for constants (C29); matrix
    dimensions whose product fits in 64 bits (C51). *)
Definition mop_pre (C : lil T) (o : mop T (mview T)) : Prop :=
  match o with
  | OKron _ A B => (Z.of_nat (vrows A) * Z.of_nat (vrows B) < 2 ^ 64)%Z /\
                   (Z.of_nat (vcols A) * Z.of_nat (vcols B) < 2 ^ 64)%Z
  | OExtract A rs cs => idx_fwd rs /\ idx_fwd cs
  | OAssign A rs cs => idx_fwd rs /\ idx_fwd cs /\ idx_nodup rs /\ idx_nodup cs /\
                       all_fits rs (vrows A) (nrows C) /\ all_fits cs (vcols A) (ncols C)
  | OAssignC _ rs cs => idx_fwd rs /\ idx_fwd cs /\ idx_nodup rs /\ idx_sorted cs
  | _ => True
  end.

Definition vop_pre (w : bvec T) (o : vop T (mview T) (bvec T)) : Prop :=
  match o with
  | OExtractV _ s | OExtractCol _ s _ => idx_fwd s
  | OAssignV u s => idx_fwd s /\ idx_nodup s /\ all_fits s (vsize u) (vsize w)
  | OAssignCV _ s => idx_fwd s /\ idx_sorted s
  | _ => True
  end.

(** (A matrix without rows or columns cannot take part in a row or column assignment: the
    code makes a vector of that length, and vectors are not empty.) *)
Definition rop_pre (C : lil T) (o : rop (bvec T)) : Prop :=
  match o with
  | OAssignCol u rs _ => nrows C <> 0 /\ idx_fwd rs /\ idx_nodup rs /\ all_fits rs (vsize u) (nrows C)
  | OAssignRow u _ cs => ncols C <> 0 /\ idx_fwd cs /\ idx_nodup cs /\ all_fits cs (vsize u) (ncols C)
  end.

(** Matrix calls with a defined meaning: no dense construction from zero rows. *)
Definition mcall_pre (c : mcall T) : Prop :=
  match c with
  | MDense [] | MDenseZero [] _ => False
  | _ => True
  end.

Definition call_pre (st : store T) (c : call T) : Prop :=
  match c with
  | CMat c => mcall_pre c
  | CVec c => vclean_call c
  | CMop out _ _ o => forall C o', nth_error (mats st) out = Some C ->
                        mop_look (mats st) o = Some o' -> mop_pre C o'
  | CVop out _ _ o => forall w o', nth_error (vecs st) out = Some w ->
                        vop_look (mats st) (vecs st) o = Some o' -> vop_pre w o'
  | CRop out _ _ o => forall C o', nth_error (mats st) out = Some C ->
                        rop_look (vecs st) o = Some o' -> rop_pre C o'
  | CSop _ _ => True
  end.

(** Every call of a program meets its precondition when it is reached. *)
Fixpoint program_pre (dflt : T) (eqb : T -> T -> bool) (st : store T) (cs : list (call T)) : Prop :=
  match cs with
  | [] => True
  | c :: cs' => call_pre st c /\ program_pre dflt eqb (fst (step dflt eqb st c)) cs'
  end.
End Conform.
