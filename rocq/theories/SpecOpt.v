(** When the optimized product computes what the sequential one does. *)
From Verif Require Import Base ModelLil ModelVec ModelHelpers ModelViews ModelOptMxm Spec SpecOps.

(** Converting a result through the accumulator's type is the same as converting it
    directly, and a value of the output survives the accumulator's type. *)
Definition casts_agree {TC TT TZ : Type} (tc : TT -> TC) (zc : TZ -> TC) (a : accum TC TT TZ) : Prop :=
  match a with
  | NoAcc tz => forall t, zc (tz t) = tc t
  | Acc f cz tz => (forall t, zc (tz t) = tc t) /\ (forall c, zc (cz c) = c)
  end.

(** Both operands transposed: the operator may be called with its arguments swapped, the
    element of [B] converted to [A]'s scalar type. *)
Definition swap_agrees {TC TA TB TT : Type} (mult : TA -> TB -> TT) (multA : TA -> TA -> TT)
    (cb : TB -> TA) (A : oview (TC := TC) TA) (B : oview (TC := TC) TB) : Prop :=
  match A, B with
  | OTrn _, OTrn _ => forall x y, multA (cb y) x = mult x y
  | _, _ => True
  end.

(** Accumulating without a mask into the matrix that is also the second operand: results
    are stored in the output's scalar type before they are accumulated. *)
Definition tmp_agrees {TC TA TB TT TZ TM : Type} (tc : TT -> TC) (ct : TC -> TT)
    (a : accum TC TT TZ) (m : mask (obj TC TM)) (A : oview (TC := TC) TA) (B : oview (TC := TC) TB)
  : Prop :=
  match m, a, A, B with
  | NoMask, Acc _ _ _, OMat _, OMat (TheOutput _)
  | NoMask, Acc _ _ _, OMat _, OTrn (TheOutput _) => forall t, ct (tc t) = t
  | _, _, _, _ => True
  end.

(** [A * B'] without mask and accumulator: every row of the output for which [A] has no
    stored value is empty before the call (unless an operand has no value at all). *)
Definition no_stale_rows {TC TA TB TT TZ TM : Type} (a : accum TC TT TZ) (m : mask (obj TC TM))
    (C : lil TC) (A : oview (TC := TC) TA) (B : oview (TC := TC) TB) : Prop :=
  match m, a, A, B with
  | NoMask, NoAcc _, OMat A, OTrn (Other B) =>
      nvals (now C A) <> 0%Z -> nvals B <> 0%Z ->
      forall i, i < nrows C -> (forall k, mget (now C A) i k = None) -> forall j, mget C i j = None
  | _, _, _, _ => True
  end.
