(** Properties of the optimized platform's matrix product: C37 (and C36 for it). *)
From Coq Require Import Lia.
From Verif Require Import Base ModelLil ModelVec ModelHelpers ModelViews ModelMul ModelOptMxm
  Spec SpecOps SpecOpt ProofViews ProofMul ProofOptKernel ProofOptOps PropMul.

Definition ex_opt_A : lil Z := mkLil 2 2 1 [[]; [(0, 3%Z)]].
Definition ex_opt_C : lil Z := mkLil 2 2 2 [[(1, 100%Z)]; [(1, 7%Z)]].

(** ** The result is that of the mathematical product, also when the output is itself an
    operand or the mask. *)
Theorem C37_opt_mxm_product :
  forall (TA TB TT TC TZ TM : Type) (add : TT -> TT -> TT) (mult : TA -> TB -> TT)
    (multA : TA -> TA -> TT) (cb : TB -> TA) (truthy : TM -> bool) (tc : TT -> TC) (ct : TC -> TT)
    (zc : TZ -> TC) (a : accum TC TT TZ) (m : mask (obj TC TM)) (outp : outmode)
    (C : lil TC) (A : oview (TC := TC) TA) (B : oview (TC := TC) TB),
    wfm C -> wfview (vnow C A) -> wfview (vnow C B) -> wfmask (mask_now C m) ->
    mxm_conforms (mask_now C m) C (vnow C A) (vnow C B) ->
    casts_agree tc zc a -> swap_agrees mult multA cb A B ->
    tmp_agrees tc ct a m A B -> no_stale_rows a m C A B ->
    written truthy zc a (mask_now C m) outp C
      (fun i j => osum add (map (fun k => omap2 mult (sview (vnow C A) i k) (sview (vnow C B) k j))
                                (seq 0 (vcols (vnow C A)))))
      (opt_mxm add mult multA cb truthy tc ct zc a m outp C A B).
Proof.
  exact (fun TA TB TT TC TZ TM add mult multA cb truthy tc ct zc a m outp C A B =>
    opt_mxm_ok add mult multA cb truthy tc ct zc a m outp C A B).
Qed.
Print Assumptions C37_opt_mxm_product.

Theorem C37_opt_mxm_shapes :
  forall (TA TB TT TC TZ TM : Type) (add : TT -> TT -> TT) (mult : TA -> TB -> TT)
    (multA : TA -> TA -> TT) (cb : TB -> TA) (truthy : TM -> bool) (tc : TT -> TC) (ct : TC -> TT)
    (zc : TZ -> TC) (a : accum TC TT TZ) (m : mask (obj TC TM)) (outp : outmode)
    (C : lil TC) (A : oview (TC := TC) TA) (B : oview (TC := TC) TB),
    ~ mxm_conforms (mask_now C m) C (vnow C A) (vnow C B) ->
    opt_mxm add mult multA cb truthy tc ct zc a m outp C A B = Throw DimensionException.
Proof.
  exact (fun TA TB TT TC TZ TM add mult multA cb truthy tc ct zc a m outp C A B =>
    opt_mxm_throws add mult multA cb truthy tc ct zc a m outp C A B).
Qed.
Print Assumptions C37_opt_mxm_shapes.

(** ** Both platforms have the same outcome, conforming shapes or not.  For [A' * B'] the
    operator is called with swapped arguments on both platforms, so it need not commute. *)
Theorem C37_opt_mxm_agrees :
  forall (TA TB TT TC TZ TM : Type) (add : TT -> TT -> TT) (mult : TA -> TB -> TT)
    (multS : TB -> TA -> TT) (multA : TA -> TA -> TT) (cb : TB -> TA) (truthy : TM -> bool)
    (tc : TT -> TC) (ct : TC -> TT) (zc : TZ -> TC) (a : accum TC TT TZ) (m : mask (obj TC TM))
    (outp : outmode) (C : lil TC) (A : oview (TC := TC) TA) (B : oview (TC := TC) TB),
    wfm C -> wfview (vnow C A) -> wfview (vnow C B) -> wfmask (mask_now C m) ->
    casts_agree tc zc a ->
    (match A, B with
     | OTrn _, OTrn _ => (forall x y, multA (cb y) x = multS y x) /\ (forall v, ct (tc v) = v)
     | _, _ => True
     end) ->
    tmp_agrees tc ct a m A B -> no_stale_rows a m C A B ->
    opt_mxm add mult multA cb truthy tc ct zc a m outp C A B =
    mxm add mult multS tc ct truthy zc a (mask_now C m) outp C (vnow C A) (vnow C B).
Proof. exact opt_mxm_agrees. Qed.
Print Assumptions C37_opt_mxm_agrees.

(** The hypotheses are met by a masked accumulation into a matrix that is also the left
    operand and the mask. *)
Example C37_agrees_example :
  let A := OMat (TheOutput idz) in
  let B := OTrn (Other ex_opt_A) in
  wfm ex_opt_C /\ wfview (vnow ex_opt_C A) /\ wfview (vnow ex_opt_C B) /\
  casts_agree idz idz plus /\ tmp_agrees idz idz plus (MComp (TheOutput idz)) A B /\
  no_stale_rows plus (MComp (TheOutput idz)) ex_opt_C A B /\
  opt_mxm Z.add Z.mul Z.mul idz ex_t idz idz idz plus (MComp (TheOutput idz)) MERGE
    (mkLil 2 2 2 [[(0, 100%Z)]; [(0, 7%Z)]]) A B =
  Ok (mkLil 2 2 4 [[(0, 100%Z); (1, 300%Z)]; [(0, 7%Z); (1, 21%Z)]]).
Proof. split; [wf_mat|]. split; [wf_mat|]. split; [wf_mat|]. repeat split. Qed.

(** ** What the unmasked, unaccumulated [A * B'] stores, in every case: rows for which
    [A] has no value keep the old content of [C]. *)
Theorem C37_opt_ABT_exact :
  forall (TA TB TT TC TZ TM : Type) (add : TT -> TT -> TT) (mult : TA -> TB -> TT)
    (multA : TA -> TA -> TT) (cb : TB -> TA) (truthy : TM -> bool) (tc : TT -> TC) (ct : TC -> TT)
    (zc : TZ -> TC) (tz : TT -> TZ) (outp : outmode) (C : lil TC) (A : lil TA) (B : lil TB),
    wfm C -> wfm A -> wfm B ->
    nrows C = nrows A -> ncols C = nrows B -> ncols A = ncols B ->
    nvals A <> 0%Z -> nvals B <> 0%Z ->
    exists C' : lil TC,
      opt_mxm (TM := TM) add mult multA cb truthy tc ct zc (NoAcc tz) NoMask outp C
        (OMat (Other A)) (OTrn (Other B)) = Ok C' /\
      wfm C' /\ nrows C' = nrows C /\ ncols C' = ncols C /\
      forall i j, i < nrows C -> j < ncols C ->
        ((forall k, mget A i k = None) -> mget C' i j = mget C i j) /\
        (~ (forall k, mget A i k = None) ->
         mget C' i j = option_map tc
           (osum add (map (fun k => omap2 mult (mget A i k) (mget B j k)) (seq 0 (ncols A))))).
Proof. exact opt_ABT_exact. Qed.
Print Assumptions C37_opt_ABT_exact.

(** ** Where the platforms differ *)
Theorem C37_opt_ABT_stale_refuted :
  exists C A B : lil Z,
    wfm C /\ wfm A /\ wfm B /\ mxm_conforms (NoMask (X := lil Z)) C (Mat A) (Trn B) /\
    opt_mxm (TM := Z) Z.add Z.mul Z.mul idz ex_t idz idz idz (NoAcc idz) NoMask REPLACE C
      (OMat (Other A)) (OTrn (Other B)) <>
    mxm Z.add Z.mul Z.mul idz idz ex_t idz (NoAcc idz) NoMask REPLACE C (Mat A) (Trn B).
Proof.
  exists ex_opt_C, ex_opt_A, ex_opt_A. split; [wf_mat|]. split; [wf_mat|]. split; [wf_mat|].
  split; [repeat split|]. vm_compute. discriminate.
Qed.
Print Assumptions C37_opt_ABT_stale_refuted.

(** [A' * B'] with a boolean [A] and an integer [B]: the integers become booleans first. *)
Definition b2z (b : bool) : Z := if b then 1%Z else 0%Z.
Theorem C37_opt_ATBT_cast_refuted :
  exists (C B : lil Z) (A : lil bool),
    wfm C /\ wfm A /\ wfm B /\ mxm_conforms (NoMask (X := lil Z)) C (Trn A) (Trn B) /\
    opt_mxm (TM := Z) Z.add (fun x y => b2z x * y)%Z (fun x y => b2z x * b2z y)%Z ex_t
      ex_t idz idz idz (NoAcc idz) NoMask REPLACE C (OTrn (Other A)) (OTrn (Other B)) <>
    mxm Z.add (fun x y => b2z x * y)%Z (fun y x => y * b2z x)%Z idz idz ex_t idz
      (NoAcc idz) NoMask REPLACE C (Trn A) (Trn B).
Proof.
  exists (mkLil 1 1 0 [[]]), (mkLil 1 1 1 [[(0, 5%Z)]]), (mkLil 1 1 1 [[(0, true)]]).
  split; [wf_mat|]. split; [wf_mat|]. split; [wf_mat|].
  split; [repeat split|]. vm_compute. discriminate.
Qed.
Print Assumptions C37_opt_ATBT_cast_refuted.

(** Accumulating into a boolean matrix that is also the second operand: the integer
    results become booleans before the accumulator sees them. *)
Theorem C37_opt_alias_accum_refuted :
  exists (C : lil bool) (A : lil Z) (f : bool -> Z -> bool),
    wfm C /\ wfm A /\ mxm_conforms (NoMask (X := lil Z)) C (Mat A) (Mat C) /\
    opt_mxm (TM := Z) Z.add (fun x y => x * b2z y)%Z (fun x y => x * y)%Z b2z
      ex_t ex_t b2z (fun b : bool => b) (Acc f (fun b => b) ex_t) NoMask REPLACE C
      (OMat (Other A)) (OMat (TheOutput (fun b => b))) <>
    mxm Z.add (fun x y => x * b2z y)%Z (fun y x => b2z y * x)%Z ex_t b2z ex_t (fun b : bool => b)
      (Acc f (fun b => b) ex_t) NoMask REPLACE C (Mat A) (Mat C).
Proof.
  exists (mkLil 1 1 1 [[(0, true)]]), (mkLil 1 1 1 [[(0, 20%Z)]]), (fun _ t => Z.ltb 10 t).
  split; [wf_mat|]. split; [wf_mat|]. split; [repeat split|]. vm_compute. discriminate.
Qed.
Print Assumptions C37_opt_alias_accum_refuted.
