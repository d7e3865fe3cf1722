(** Operations treat related scalars alike: C113. *)
From Coq Require Import Lia ZArith.
From Verif Require Import Base ModelLil ModelVec ModelHelpers ModelViews ModelMul ModelElem ModelIndex ModelAlgoBase Spec SpecOps SpecIndex
  SpecRel ProofRel.

(** ** C113.  [RA], [RB], ... relate the scalars of a first and a second set of operands; the operators, conversions and
    accumulators of the two calls take related scalars to related scalars. *)
Theorem C113_mxm :
  forall (TA TA' TB TB' TT TT' TC TC' TZ TZ' TM TM' : Type)
    (RA : TA -> TA' -> Prop) (RB : TB -> TB' -> Prop) (RT : TT -> TT' -> Prop) (RC : TC -> TC' -> Prop)
    (RZ : TZ -> TZ' -> Prop) (RM : TM -> TM' -> Prop)
    (tr : TM -> bool) (tr' : TM' -> bool) (zc : TZ -> TC) (zc' : TZ' -> TC') (outp : outmode)
    (a : accum TC TT TZ) (a' : accum TC' TT' TZ')
    (add : TT -> TT -> TT) (add' : TT' -> TT' -> TT') (mult : TA -> TB -> TT) (mult' : TA' -> TB' -> TT')
    (multS : TB -> TA -> TT) (multS' : TB' -> TA' -> TT') (tc : TT -> TC) (ct : TC -> TT) (tc' : TT' -> TC') (ct' : TC' -> TT')
    (m : mask (lil TM)) (m' : mask (lil TM')) (C : lil TC) (C' : lil TC') (A : mview TA) (A' : mview TA') (B : mview TB) (B' : mview TB'),
    rel1 RM eq tr tr' -> rel1 RZ RC zc zc' -> accrel RC RT RZ a a' -> rel2 RT RT RT add add' -> rel2 RA RB RT mult mult' ->
    (* both operands transposed: see C14 *)
    match A with Trn _ => match B with Trn _ => (forall x y, multS y x = mult x y) /\ (forall v, ct (tc v) = v) | _ => True end | _ => True end ->
    match A' with Trn _ => match B' with Trn _ => (forall x y, multS' y x = mult' x y) /\ (forall v, ct' (tc' v) = v) | _ => True end | _ => True end ->
    maskrel (mrel RM) m m' -> mrel RC C C' -> viewrel RA A A' -> viewrel RB B B' -> mxm_conforms m C A B ->
    mresult RC (mxm add mult multS tc ct tr zc a m outp C A B) (mxm add' mult' multS' tc' ct' tr' zc' a' m' outp C' A' B').
Proof.
  intros. eapply (mxm_rel RA RB RT RC RZ RM); eauto; [destruct A, B; auto|destruct A', B'; auto].
Qed.
Print Assumptions C113_mxm.

Theorem C113_mxv_vxm :
  forall (TA TA' TU TU' TT TT' TW TW' TZ TZ' TM TM' : Type)
    (RA : TA -> TA' -> Prop) (RU : TU -> TU' -> Prop) (RT : TT -> TT' -> Prop) (RW : TW -> TW' -> Prop)
    (RZ : TZ -> TZ' -> Prop) (RM : TM -> TM' -> Prop)
    (tr : TM -> bool) (tr' : TM' -> bool) (zc : TZ -> TW) (zc' : TZ' -> TW') (outp : outmode)
    (a : accum TW TT TZ) (a' : accum TW' TT' TZ')
    (add : TT -> TT -> TT) (add' : TT' -> TT' -> TT') (mult : TA -> TU -> TT) (mult' : TA' -> TU' -> TT')
    (multS : TU -> TA -> TT) (multS' : TU' -> TA' -> TT')
    (m : mask (bvec TM)) (m' : mask (bvec TM')) (w : bvec TW) (w' : bvec TW') (A : mview TA) (A' : mview TA') (u : bvec TU) (u' : bvec TU'),
    rel1 RM eq tr tr' -> rel1 RZ RW zc zc' -> accrel RW RT RZ a a' -> rel2 RT RT RT add add' ->
    maskrel (vrel RM) m m' -> vrel RW w w' -> viewrel RA A A' -> vrel RU u u' ->
    (rel2 RA RU RT mult mult' ->
     (* transposed operand: see C16 *)
     match A with Trn _ => forall x y, multS y x = mult x y | _ => True end ->
     match A' with Trn _ => forall x y, multS' y x = mult' x y | _ => True end -> mxv_conforms m w A u ->
     vresult RW (mxv add mult multS tr zc a m outp w A u) (mxv add' mult' multS' tr' zc' a' m' outp w' A' u')) /\
    (rel2 RU RA RT multS multS' -> vxm_conforms m w u A ->
     vresult RW (vxm add multS tr zc a m outp w u A) (vxm add' multS' tr' zc' a' m' outp w' u' A')).
Proof.
  intros. split; intros.
  - eapply (mxv_rel RA RU RT RW RZ RM); eauto.
  - eapply (vxm_rel RA RU RT RW RZ RM); eauto.
Qed.
Print Assumptions C113_mxv_vxm.

Theorem C113_eWise_matrix :
  forall (TA TA' TB TB' TT TT' TC TC' TZ TZ' TM TM' : Type)
    (RA : TA -> TA' -> Prop) (RB : TB -> TB' -> Prop) (RT : TT -> TT' -> Prop) (RC : TC -> TC' -> Prop)
    (RZ : TZ -> TZ' -> Prop) (RM : TM -> TM' -> Prop)
    (tr : TM -> bool) (tr' : TM' -> bool) (zc : TZ -> TC) (zc' : TZ' -> TC') (outp : outmode)
    (a : accum TC TT TZ) (a' : accum TC' TT' TZ') (op : TA -> TB -> TT) (op' : TA' -> TB' -> TT')
    (c1 : TA -> TT) (c1' : TA' -> TT') (c2 : TB -> TT) (c2' : TB' -> TT')
    (opA : TA -> TA -> TT) (opA' : TA' -> TA' -> TT') (c2A : TA -> TT) (c2A' : TA' -> TT') (ba : TB -> TA) (ba' : TB' -> TA')
    (m : mask (lil TM)) (m' : mask (lil TM')) (C : lil TC) (C' : lil TC') (A : mview TA) (A' : mview TA') (B : mview TB) (B' : mview TB'),
    rel1 RM eq tr tr' -> rel1 RZ RC zc zc' -> accrel RC RT RZ a a' -> rel2 RA RB RT op op' -> rel1 RA RT c1 c1' -> rel1 RB RT c2 c2' ->
    (* second operand transposed: see C20 *)
    match A with Mat _ => match B with Trn _ => (forall x y, opA x (ba y) = op x y) /\ (forall y, c2A (ba y) = c2 y) | _ => True end | _ => True end ->
    match A' with Mat _ => match B' with Trn _ => (forall x y, opA' x (ba' y) = op' x y) /\ (forall y, c2A' (ba' y) = c2' y) | _ => True end | _ => True end ->
    maskrel (mrel RM) m m' -> mrel RC C C' -> viewrel RA A A' -> viewrel RB B B' ->
    (ewise_conforms m C A B ->
     mresult RC (eWiseAdd op c1 c2 opA c2A ba tr zc a m outp C A B) (eWiseAdd op' c1' c2' opA' c2A' ba' tr' zc' a' m' outp C' A' B') /\
     mresult RC (eWiseMult op opA ba tr zc a m outp C A B) (eWiseMult op' opA' ba' tr' zc' a' m' outp C' A' B')) /\
    (kron_conforms m C A B -> (Z.of_nat (nrows C) < 2 ^ 64)%Z -> (Z.of_nat (ncols C) < 2 ^ 64)%Z ->
     mresult RC (kronecker op tr zc a m outp C A B) (kronecker op' tr' zc' a' m' outp C' A' B')).
Proof.
  intros. split; [intro; split|intros].
  - eapply (eWiseAdd_rel RA RB RT RC RZ RM); eauto; [destruct A, B; auto|destruct A', B'; auto].
  - eapply (eWiseMult_rel RA RB RT RC RZ RM); eauto; [destruct A, B; tauto|destruct A', B'; tauto].
  - eapply (kronecker_rel RA RB RT RC RZ RM); eauto.
Qed.
Print Assumptions C113_eWise_matrix.

Theorem C113_eWise_vector :
  forall (TU TU' TV TV' TT TT' TW TW' TZ TZ' TM TM' : Type)
    (RU : TU -> TU' -> Prop) (RV : TV -> TV' -> Prop) (RT : TT -> TT' -> Prop) (RW : TW -> TW' -> Prop)
    (RZ : TZ -> TZ' -> Prop) (RM : TM -> TM' -> Prop)
    (tr : TM -> bool) (tr' : TM' -> bool) (zc : TZ -> TW) (zc' : TZ' -> TW') (outp : outmode)
    (a : accum TW TT TZ) (a' : accum TW' TT' TZ') (op : TU -> TV -> TT) (op' : TU' -> TV' -> TT')
    (c1 : TU -> TT) (c1' : TU' -> TT') (c2 : TV -> TT) (c2' : TV' -> TT')
    (m : mask (bvec TM)) (m' : mask (bvec TM')) (w : bvec TW) (w' : bvec TW') (u : bvec TU) (u' : bvec TU') (v : bvec TV) (v' : bvec TV'),
    rel1 RM eq tr tr' -> rel1 RZ RW zc zc' -> accrel RW RT RZ a a' -> rel2 RU RV RT op op' -> rel1 RU RT c1 c1' -> rel1 RV RT c2 c2' ->
    maskrel (vrel RM) m m' -> vrel RW w w' -> vrel RU u u' -> vrel RV v v' -> vewise_conforms m w u v ->
    vresult RW (eWiseAdd_v op c1 c2 tr zc a m outp w u v) (eWiseAdd_v op' c1' c2' tr' zc' a' m' outp w' u' v') /\
    vresult RW (eWiseMult_v op tr zc a m outp w u v) (eWiseMult_v op' tr' zc' a' m' outp w' u' v').
Proof.
  intros. split.
  - eapply (eWiseAdd_v_rel RU RV RT RW RZ RM); eauto.
  - eapply (eWiseMult_v_rel RU RV RT RW RZ RM); eauto.
Qed.
Print Assumptions C113_eWise_vector.

Theorem C113_apply_reduce :
  forall (TA TA' TT TT' TC TC' TZ TZ' TM TM' : Type)
    (RA : TA -> TA' -> Prop) (RT : TT -> TT' -> Prop) (RC : TC -> TC' -> Prop) (RZ : TZ -> TZ' -> Prop) (RM : TM -> TM' -> Prop)
    (tr : TM -> bool) (tr' : TM' -> bool) (zc : TZ -> TC) (zc' : TZ' -> TC') (outp : outmode)
    (a : accum TC TT TZ) (a' : accum TC' TT' TZ') (f : TA -> TT) (f' : TA' -> TT')
    (op01 : TA -> TA -> TT) (op01' : TA' -> TA' -> TT') (op : TT -> TA -> TT) (op' : TT' -> TA' -> TT')
    (m : mask (lil TM)) (m' : mask (lil TM')) (mv : mask (bvec TM)) (mv' : mask (bvec TM'))
    (C : lil TC) (C' : lil TC') (w : bvec TC) (w' : bvec TC') (A : mview TA) (A' : mview TA') (u : bvec TA) (u' : bvec TA'),
    rel1 RM eq tr tr' -> rel1 RZ RC zc zc' -> accrel RC RT RZ a a' -> rel1 RA RT f f' ->
    maskrel (mrel RM) m m' -> maskrel (vrel RM) mv mv' -> mrel RC C C' -> vrel RC w w' -> viewrel RA A A' -> vrel RA u u' ->
    (apply_conforms m C A -> mresult RC (apply f tr zc a m outp C A) (apply f' tr' zc' a' m' outp C' A')) /\
    (vapply_conforms mv w u -> vresult RC (apply_v f tr zc a mv outp w u) (apply_v f' tr' zc' a' mv' outp w' u')) /\
    (rel2 RT RA RT op op' -> (forall x y, op01 x y = op (f x) y) -> (forall x y, op01' x y = op' (f' x) y) -> reduce_conforms mv w A ->
     vresult RC (reduce f op01 op tr zc a mv outp w A) (reduce f' op01' op' tr' zc' a' mv' outp w' A')).
Proof.
  intros. split; [intro|split; [intro|intros]].
  - eapply (apply_rel RA RT RC RZ RM); eauto.
  - eapply (apply_v_rel RA RT RC RZ RM); eauto.
  - eapply (reduce_rel RA RT RC RZ RM); eauto.
Qed.
Print Assumptions C113_apply_reduce.

Theorem C113_reduce_scalar :
  forall (TA TA' TT TT' TC TC' TZ TZ' : Type)
    (RA : TA -> TA' -> Prop) (RT : TT -> TT' -> Prop) (RC : TC -> TC' -> Prop) (RZ : TZ -> TZ' -> Prop)
    (zc : TZ -> TC) (zc' : TZ' -> TC') (a : accum TC TT TZ) (a' : accum TC' TT' TZ') (ident : TT) (ident' : TT')
    (c1 : TA -> TT) (c1' : TA' -> TT') (op01 : TA -> TA -> TT) (op01' : TA' -> TA' -> TT') (op : TT -> TA -> TT) (op' : TT' -> TA' -> TT')
    (op2 : TT -> TT -> TT) (op2' : TT' -> TT' -> TT') (val : TC) (val' : TC') (A : lil TA) (A' : lil TA') (u : bvec TA) (u' : bvec TA'),
    rel1 RZ RC zc zc' -> accrel RC RT RZ a a' -> RT ident ident' -> rel1 RA RT c1 c1' -> rel2 RT RA RT op op' -> rel2 RT RT RT op2 op2' ->
    (forall x y, op01 x y = op (c1 x) y) -> (forall x y, op01' x y = op' (c1' x) y) -> RC val val' -> mrel RA A A' -> vrel RA u u' ->
    (exists x x', reduce_vs ident c1 op01 op zc a val u = Ok x /\ reduce_vs ident' c1' op01' op' zc' a' val' u' = Ok x' /\ RC x x') /\
    (exists x x', reduce_ms ident c1 op01 op op2 zc a val A = Ok x /\ reduce_ms ident' c1' op01' op' op2' zc' a' val' A' = Ok x' /\ RC x x').
Proof.
  intros. split.
  - eapply (reduce_vs_rel RA RT RC RZ); eauto.
  - eapply (reduce_ms_rel RA RT RC RZ); eauto.
Qed.
Print Assumptions C113_reduce_scalar.

Theorem C113_transpose_extract :
  forall (TA TA' TC TC' TZ TZ' TM TM' : Type)
    (RA : TA -> TA' -> Prop) (RC : TC -> TC' -> Prop) (RZ : TZ -> TZ' -> Prop) (RM : TM -> TM' -> Prop)
    (tr : TM -> bool) (tr' : TM' -> bool) (zc : TZ -> TC) (zc' : TZ' -> TC') (outp : outmode)
    (a : accum TC TA TZ) (a' : accum TC' TA' TZ')
    (m : mask (lil TM)) (m' : mask (lil TM')) (mv : mask (bvec TM)) (mv' : mask (bvec TM'))
    (C : lil TC) (C' : lil TC') (w : bvec TC) (w' : bvec TC') (A : mview TA) (A' : mview TA') (u : bvec TA) (u' : bvec TA')
    (rs cs : idxseq) (col : nat),
    rel1 RM eq tr tr' -> rel1 RZ RC zc zc' -> accrel RC RA RZ a a' ->
    maskrel (mrel RM) m m' -> maskrel (vrel RM) mv mv' -> mrel RC C C' -> vrel RC w w' -> viewrel RA A A' -> vrel RA u u' ->
    (transpose_conforms m C A -> mresult RC (transpose tr zc a m outp C A) (transpose tr' zc' a' m' outp C' A')) /\
    (extract_conforms m C A rs cs -> mresult RC (extract_m tr zc a m outp C A rs cs) (extract_m tr' zc' a' m' outp C' A' rs cs)) /\
    (vextract_conforms mv w u rs -> vresult RC (extract_v tr zc a mv outp w u rs) (extract_v tr' zc' a' mv' outp w' u' rs)) /\
    (cextract_conforms mv w A rs col -> vresult RC (extract_col tr zc a mv outp w A rs col) (extract_col tr' zc' a' mv' outp w' A' rs col)).
Proof.
  intros. split; [intro|split; [intro|split; intro]].
  - eapply (transpose_rel RA RC RZ RM); eauto.
  - eapply (extract_m_rel RA RC RZ RM); eauto.
  - eapply (extract_v_rel RA RC RZ RM); eauto.
  - eapply (extract_col_rel RA RC RZ RM); eauto.
Qed.
Print Assumptions C113_transpose_extract.

Theorem C113_assign :
  forall (TA TA' TC TC' TZ TZ' TM TM' : Type)
    (RA : TA -> TA' -> Prop) (RC : TC -> TC' -> Prop) (RZ : TZ -> TZ' -> Prop) (RM : TM -> TM' -> Prop)
    (tr : TM -> bool) (tr' : TM' -> bool) (zc : TZ -> TC) (zc' : TZ' -> TC') (cz : TC -> TZ) (cz' : TC' -> TZ') (outp : outmode)
    (a : accum TC TA TZ) (a' : accum TC' TA' TZ')
    (m : mask (lil TM)) (m' : mask (lil TM')) (mv : mask (bvec TM)) (mv' : mask (bvec TM'))
    (C : lil TC) (C' : lil TC') (w : bvec TC) (w' : bvec TC') (A : mview TA) (A' : mview TA') (u : bvec TA) (u' : bvec TA')
    (val : TA) (val' : TA') (rs cs : idxseq),
    rel1 RM eq tr tr' -> rel1 RZ RC zc zc' -> rel1 RC RZ cz cz' -> accrel RC RA RZ a a' -> RA val val' ->
    maskrel (mrel RM) m m' -> maskrel (vrel RM) mv mv' -> mrel RC C C' -> vrel RC w w' -> viewrel RA A A' -> vrel RA u u' ->
    (assign_conforms m C A rs cs -> idx_nodup rs -> idx_nodup cs -> all_fits rs (vrows A) (nrows C) -> all_fits cs (vcols A) (ncols C) ->
     mresult RC (assign_m cz tr zc a m outp C A rs cs) (assign_m cz' tr' zc' a' m' outp C' A' rs cs)) /\
    (vassign_conforms mv w u rs -> idx_nodup rs -> all_fits rs (vsize u) (vsize w) ->
     vresult RC (assign_v cz tr zc a mv outp w u rs) (assign_v cz' tr' zc' a' mv' outp w' u' rs)) /\
    (mcassign_conforms m C rs cs -> idx_nodup rs -> idx_sorted cs ->
     mresult RC (assign_const_m cz tr zc a m outp C val rs cs) (assign_const_m cz' tr' zc' a' m' outp C' val' rs cs)) /\
    (vcassign_conforms mv w rs -> idx_sorted rs ->
     vresult RC (assign_const_v cz tr zc a mv outp w val rs) (assign_const_v cz' tr' zc' a' mv' outp w' val' rs)).
Proof.
  intros. split; [intros|split; [intros|split; intros]].
  - eapply (assign_m_rel RA RC RZ RM); eauto.
  - eapply (assign_v_rel RA RC RZ RM); eauto.
  - eapply (assign_const_m_rel RA RC RZ RM); eauto.
  - eapply (assign_const_v_rel RA RC RZ RM); eauto.
Qed.
Print Assumptions C113_assign.

(** Integers and their parities: the parity of a product is the product of the parities over [bool] with exclusive or. *)
Definition e113_R (z : Z) (b : bool) : Prop := Z.odd z = b.
Definition e113_A : lil Z := mkLil 2 2 3%Z [[(0, 3%Z); (1, 5%Z)]; [(1, 4%Z)]].
Definition e113_B : lil bool := mkLil 2 2 3%Z [[(0, true); (1, true)]; [(1, false)]].
Example C113_example :
  rel2 e113_R e113_R e113_R Z.add xorb /\ rel2 e113_R e113_R e113_R Z.mul andb /\ mrel e113_R e113_A e113_B /\
  mxm Z.add Z.mul Z.mul idc idc btrue idc (NoAcc idc) mnomask MERGE e113_A (Mat e113_A) (Trn e113_A) =
    Ok (mkLil 2 2 4%Z [[(0, 34%Z); (1, 20%Z)]; [(0, 20%Z); (1, 16%Z)]]) /\
  mxm xorb andb andb idc idc btrue idc (NoAcc idc) mnomask MERGE e113_B (Mat e113_B) (Trn e113_B) =
    Ok (mkLil 2 2 4%Z [[(0, false); (1, false)]; [(0, false); (1, false)]]).
Proof.
  split; [intros a x b y <- <-; apply Z.odd_add|]. split; [intros a x b y <- <-; apply Z.odd_mul|]. split.
  - split; [repeat split; repeat constructor|]. split; [repeat split; repeat constructor|]. split; [auto|]. split; [auto|].
    intros [|[|i]] j; [| |destruct i; exact I]; destruct j as [|[|j]]; simpl; try reflexivity; exact I.
  - split; reflexivity.
Qed.
