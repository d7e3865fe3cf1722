(** Operations take related containers to related containers. *)
From Coq Require Import Lia.
From Verif Require Import Base ModelLil ModelVec ModelHelpers ModelViews ModelMul ModelElem ModelIndex Spec SpecOps SpecIndex SpecRel
  ProofBase ProofLil ProofVec ProofViews ProofMul ProofElem ProofReduce ProofKron ProofAlgebra ProofIndex ProofAssign ProofAssignRC.

(** ** Options and lists *)
Lemma orel_map {A A' B B'} (RA : A -> A' -> Prop) (RB : B -> B' -> Prop) f f' o o' :
  rel1 RA RB f f' -> orel RA o o' -> orel RB (option_map f o) (option_map f' o').
Proof. intro H. destruct o, o'; simpl; auto. Qed.
Lemma orel_map2 {A A' B B' C C'} (RA : A -> A' -> Prop) (RB : B -> B' -> Prop) (RC : C -> C' -> Prop) f f' o o' p p' :
  rel2 RA RB RC f f' -> orel RA o o' -> orel RB p p' -> orel RC (omap2 f o p) (omap2 f' o' p').
Proof. intro H. destruct o, o'; simpl; try contradiction; destruct p, p'; simpl; auto; contradiction. Qed.
Lemma orel_union {A A' B B' C C'} (RA : A -> A' -> Prop) (RB : B -> B' -> Prop) (RC : C -> C' -> Prop) f f' c1 c1' c2 c2' o o' p p' :
  rel2 RA RB RC f f' -> rel1 RA RC c1 c1' -> rel1 RB RC c2 c2' -> orel RA o o' -> orel RB p p' ->
  orel RC (ounion f c1 c2 o p) (ounion f' c1' c2' o' p').
Proof. intros H H1 H2. destruct o, o'; simpl; try contradiction; destruct p, p'; simpl; auto; contradiction. Qed.
Lemma orel_add {A A'} (R : A -> A' -> Prop) f f' o o' p p' : rel2 R R R f f' -> orel R o o' -> orel R p p' ->
  orel R (oadd f o p) (oadd f' o' p').
Proof. intro H. destruct o, o'; simpl; try contradiction; destruct p, p'; simpl; auto; contradiction. Qed.
Lemma Forall2_maps {A B C} (R : B -> C -> Prop) (f : A -> B) (g : A -> C) l :
  (forall x, R (f x) (g x)) -> Forall2 R (map f l) (map g l).
Proof. intro H. induction l; simpl; constructor; auto. Qed.
Lemma osum_rel {A A'} (R : A -> A' -> Prop) f f' l l' : rel2 R R R f f' -> Forall2 (orel R) l l' -> orel R (osum f l) (osum f' l').
Proof.
  intros H F. unfold osum.
  assert (G : forall a b, orel R a b -> orel R (fold_left (oadd f) l a) (fold_left (oadd f') l' b)).
  { induction F as [|x y l l' Hxy F IH]; intros a b Hab; simpl; [auto|]. apply IH, orel_add; auto. }
  apply G. exact I.
Qed.
Lemma ofold_rel {A A' T T'} (RA : A -> A' -> Prop) (R : T -> T' -> Prop) c c' f f' l l' :
  rel1 RA R c c' -> rel2 R RA R f f' -> Forall2 (orel RA) l l' -> orel R (ofold c f l) (ofold c' f' l').
Proof.
  intros Hc H F. unfold ofold.
  match goal with |- orel R (fold_left ?g _ _) (fold_left ?g' _ _) =>
    assert (G : forall a b, orel R a b -> orel R (fold_left g l a) (fold_left g' l' b)) end.
  { induction F as [|x y l l' Hxy F IH]; intros a b Hab; simpl; [auto|]. apply IH.
    destruct a, b; simpl in Hab; try contradiction; destruct x, y; simpl in Hxy; try contradiction; simpl; auto. }
  apply G. exact I.
Qed.

(** ** The write rule *)
Lemma spec_accum_rel {C C' T T' Z Z'} (RC : C -> C' -> Prop) (RT : T -> T' -> Prop) (RZ : Z -> Z' -> Prop) a a' c c' t t' :
  accrel RC RT RZ a a' -> orel RC c c' -> orel RT t t' -> orel RZ (spec_accum a c t) (spec_accum a' c' t').
Proof.
  intros Ha Hc Ht. destruct a, a'; simpl in Ha; try contradiction; simpl.
  - eapply orel_map; eauto.
  - destruct Ha as (H1 & H2 & H3). eapply orel_union; eauto.
Qed.
Lemma spec_assign_rel {C C' T T' Z Z'} (RC : C -> C' -> Prop) (RT : T -> T' -> Prop) (RZ : Z -> Z' -> Prop) a a' c c' t t' cz cz' r :
  accrel RC RT RZ a a' -> rel1 RC RZ cz cz' -> orel RC c c' -> orel RT t t' ->
  orel RZ (spec_assign a cz r c t) (spec_assign a' cz' r c' t').
Proof.
  intros Ha Hz Hc Ht. destruct a, a'; simpl in Ha; try contradiction; simpl.
  - destruct r; eapply orel_map; eauto.
  - destruct Ha as (H1 & H2 & H3). eapply orel_union; eauto.
Qed.
Lemma spec_write_rel {C C' Z Z'} (RC : C -> C' -> Prop) (RZ : Z -> Z' -> Prop) zc zc' b outp c c' z z' :
  rel1 RZ RC zc zc' -> orel RC c c' -> orel RZ z z' -> orel RC (spec_write zc b outp c z) (spec_write zc' b outp c' z').
Proof. intros H Hc Hz. unfold spec_write. destruct b; [eapply orel_map; eauto|destruct outp; simpl; auto]. Qed.
Lemma otrue_rel {M M'} (R : M -> M' -> Prop) tr tr' o o' : rel1 R eq tr tr' -> orel R o o' -> otrue tr o = otrue tr' o'.
Proof. intro H. destruct o, o'; simpl; auto; contradiction. Qed.
Lemma is_some_rel {M M'} (R : M -> M' -> Prop) o o' : orel R o o' -> is_some o = is_some o'.
Proof. destruct o, o'; simpl; auto; contradiction. Qed.
Lemma mask_allows_rel {M M'} (R : M -> M' -> Prop) tr tr' m m' i j : rel1 R eq tr tr' -> maskrel (mrel R) m m' ->
  mask_allows tr m i j = mask_allows tr' m' i j.
Proof.
  intros H. destruct m, m'; simpl; try contradiction; auto; intros (_ & _ & _ & _ & E); specialize (E i j);
    rewrite ?(otrue_rel R tr tr' _ _ H E), ?(is_some_rel R _ _ E); auto.
Qed.
Lemma vmask_allows_rel {M M'} (R : M -> M' -> Prop) tr tr' m m' i : rel1 R eq tr tr' -> maskrel (vrel R) m m' ->
  vmask_allows tr m i = vmask_allows tr' m' i.
Proof.
  intros H. destruct m, m'; simpl; try contradiction; auto; intros (_ & _ & _ & E); specialize (E i);
    rewrite ?(otrue_rel R tr tr' _ _ H E), ?(is_some_rel R _ _ E); auto.
Qed.
Lemma maskrel_wf {M M'} (R : M -> M' -> Prop) m m' : maskrel (mrel R) m m' -> wfmask m /\ wfmask m'.
Proof. destruct m, m'; simpl; try contradiction; auto; intros (H1 & H2 & _); auto. Qed.
Lemma vmaskrel_wf {M M'} (R : M -> M' -> Prop) m m' : maskrel (vrel R) m m' -> wfvmask m /\ wfvmask m'.
Proof. destruct m, m'; simpl; try contradiction; auto; intros (H1 & H2 & _); split; [apply H1|apply H2|apply H1|apply H2|apply H1|apply H2|apply H1|apply H2]. Qed.
Lemma maskrel_fits {M M'} (R : M -> M' -> Prop) m m' r c : maskrel (mrel R) m m' -> mask_fits m r c -> mask_fits m' r c.
Proof. destruct m, m'; simpl; try contradiction; auto; intros (_ & _ & E1 & E2 & _) [<- <-]; auto. Qed.
Lemma vmaskrel_fits {M M'} (R : M -> M' -> Prop) m m' n : maskrel (vrel R) m m' -> vmask_fits m n -> vmask_fits m' n.
Proof. destruct m, m'; simpl; try contradiction; auto; intros (_ & _ & E & _) <-; auto. Qed.

Section Write.
Context {TC TC' TT TT' TZ TZ' TM TM' : Type}.
Context (RC : TC -> TC' -> Prop) (RT : TT -> TT' -> Prop) (RZ : TZ -> TZ' -> Prop) (RM : TM -> TM' -> Prop).
Context (tr : TM -> bool) (tr' : TM' -> bool) (zc : TZ -> TC) (zc' : TZ' -> TC').
Context (a : accum TC TT TZ) (a' : accum TC' TT' TZ') (outp : outmode).
Hypothesis Htr : rel1 RM eq tr tr'.
Hypothesis Hzc : rel1 RZ RC zc zc'.
Hypothesis Ha : accrel RC RT RZ a a'.

Lemma written_rel m m' C C' T T' r r' : maskrel (mrel RM) m m' -> mrel RC C C' ->
  written tr zc a m outp C T r -> written tr' zc' a' m' outp C' T' r' ->
  (forall i j, i < nrows C -> j < ncols C -> orel RT (T i j) (T' i j)) -> mresult RC r r'.
Proof.
  intros Hm (WC & WC' & ER & EC & HC) (D & -> & WD & RD & CD & GD) (D' & -> & WD' & RD' & CD' & GD') HT.
  exists D, D'. split; [auto|]. split; [auto|]. split; [auto|]. split; [auto|]. split; [congruence|]. split; [congruence|].
  intros i j. destruct (Nat.lt_ge_cases i (nrows C)) as [Hi|Hi].
  - destruct (Nat.lt_ge_cases j (ncols C)) as [Hj|Hj].
    + rewrite GD, GD' by lia. rewrite (mask_allows_rel RM tr tr' m m' i j Htr Hm).
      eapply spec_write_rel; eauto. eapply spec_accum_rel; eauto.
    + rewrite !mget_oob; [exact I| | | |]; auto; right; congruence.
  - rewrite !mget_oob; [exact I| | | |]; auto; left; congruence.
Qed.
Lemma assigned_rel m m' C C' reg T T' cz cz' r r' : maskrel (mrel RM) m m' -> mrel RC C C' -> rel1 RC RZ cz cz' ->
  assigned cz tr zc a m outp C reg T r -> assigned cz' tr' zc' a' m' outp C' reg T' r' ->
  (forall i j, i < nrows C -> j < ncols C -> orel RT (T i j) (T' i j)) -> mresult RC r r'.
Proof.
  intros Hm (WC & WC' & ER & EC & HC) Hz (D & -> & WD & RD & CD & GD) (D' & -> & WD' & RD' & CD' & GD') HT.
  exists D, D'. split; [auto|]. split; [auto|]. split; [auto|]. split; [auto|]. split; [congruence|]. split; [congruence|].
  intros i j. destruct (Nat.lt_ge_cases i (nrows C)) as [Hi|Hi].
  - destruct (Nat.lt_ge_cases j (ncols C)) as [Hj|Hj].
    + rewrite GD, GD' by lia. rewrite (mask_allows_rel RM tr tr' m m' i j Htr Hm).
      eapply spec_write_rel; eauto. eapply spec_assign_rel; eauto.
    + rewrite !mget_oob; [exact I| | | |]; auto; right; congruence.
  - rewrite !mget_oob; [exact I| | | |]; auto; left; congruence.
Qed.
Lemma vwritten_rel m m' w w' T T' r r' : maskrel (vrel RM) m m' -> vrel RC w w' ->
  vwritten tr zc a m outp w T r -> vwritten tr' zc' a' m' outp w' T' r' ->
  (forall i, i < vsize w -> orel RT (T i) (T' i)) -> vresult RC r r'.
Proof.
  intros Hm (WC & WC' & ES & HC) (D & -> & WD & SD & GD) (D' & -> & WD' & SD' & GD') HT.
  exists D, D'. split; [auto|]. split; [auto|]. split; [auto|]. split; [auto|]. split; [congruence|].
  intro i. destruct (Nat.lt_ge_cases i (vsize w)) as [Hi|Hi].
  - rewrite GD, GD' by lia. rewrite (vmask_allows_rel RM tr tr' m m' i Htr Hm).
    eapply spec_write_rel; eauto. eapply spec_accum_rel; eauto.
  - rewrite !vget_oob; [exact I| | | |]; [apply WD'|lia|apply WD|lia].
Qed.
Lemma vassigned_rel m m' w w' reg T T' cz cz' r r' : maskrel (vrel RM) m m' -> vrel RC w w' -> rel1 RC RZ cz cz' ->
  vassigned cz tr zc a m outp w reg T r -> vassigned cz' tr' zc' a' m' outp w' reg T' r' ->
  (forall i, i < vsize w -> orel RT (T i) (T' i)) -> vresult RC r r'.
Proof.
  intros Hm (WC & WC' & ES & HC) Hz (D & -> & WD & SD & GD) (D' & -> & WD' & SD' & GD') HT.
  exists D, D'. split; [auto|]. split; [auto|]. split; [auto|]. split; [auto|]. split; [congruence|].
  intro i. destruct (Nat.lt_ge_cases i (vsize w)) as [Hi|Hi].
  - rewrite GD, GD' by lia. rewrite (vmask_allows_rel RM tr tr' m m' i Htr Hm).
    eapply spec_write_rel; eauto. eapply spec_assign_rel; eauto.
  - rewrite !vget_oob; [exact I| | | |]; [apply WD'|lia|apply WD|lia].
Qed.
End Write.

(** ** Operands *)
Lemma viewrel_wf {A A'} (R : A -> A' -> Prop) V V' : viewrel R V V' -> wfview V /\ wfview V'.
Proof. destruct V, V'; simpl; try contradiction; intros (H1 & H2 & _); auto. Qed.
Lemma viewrel_rows {A A'} (R : A -> A' -> Prop) V V' : viewrel R V V' -> vrows V = vrows V' /\ vcols V = vcols V'.
Proof. destruct V, V'; simpl; try contradiction; intros (_ & _ & H1 & H2 & _); auto. Qed.
Lemma viewrel_get {A A'} (R : A -> A' -> Prop) V V' i j : viewrel R V V' -> orel R (sview V i j) (sview V' i j).
Proof. destruct V, V'; simpl; try contradiction; intros (_ & _ & _ & _ & H); apply H. Qed.
Lemma vrel_wf {A A'} (R : A -> A' -> Prop) u u' : vrel R u u' -> wfv u /\ wfv u' /\ wfv0 u /\ wfv0 u' /\ wfvn u /\ wfvn u' /\ vsize u = vsize u'.
Proof. intros (H1 & H2 & H3 & _). pose proof (wfv_wfvn _ H1). pose proof (wfv_wfvn _ H2). destruct (H1), (H2). tauto. Qed.
Lemma mrel_wf {A A'} (R : A -> A' -> Prop) M M' : mrel R M M' -> wfm M /\ wfm M' /\ nrows M = nrows M' /\ ncols M = ncols M'.
Proof. intros (H1 & H2 & H3 & H4 & _). auto. Qed.

(** Consequences of every relation between containers in the context. *)
Definition seen (P : Prop) : Prop := P.
Ltac fresh_fact H := let P := type of H in lazymatch goal with _ : seen P |- _ => fail | _ => assert (seen P) by exact H end.
Ltac shapes :=
  repeat match goal with
  | H : maskrel (mrel _) _ _ |- _ => fresh_fact H; destruct (maskrel_wf _ _ _ H)
  | H : maskrel (vrel _) _ _ |- _ => fresh_fact H; destruct (vmaskrel_wf _ _ _ H)
  | H : viewrel _ _ _ |- _ => fresh_fact H; destruct (viewrel_wf _ _ _ H); destruct (viewrel_rows _ _ _ H)
  | H : mrel _ _ _ |- _ => fresh_fact H; destruct (mrel_wf _ _ _ H) as (? & ? & ? & ?)
  | H : vrel _ _ _ |- _ => fresh_fact H; destruct (vrel_wf _ _ _ H) as (? & ? & ? & ? & ? & ? & ?)
  end;
  repeat match goal with H : seen _ |- _ => clear H end.

Section Ops.
Context {TA TA' TB TB' TT TT' TC TC' TZ TZ' TM TM' : Type}.
Context (RA : TA -> TA' -> Prop) (RB : TB -> TB' -> Prop) (RT : TT -> TT' -> Prop) (RC : TC -> TC' -> Prop)
        (RZ : TZ -> TZ' -> Prop) (RM : TM -> TM' -> Prop).
Context (tr : TM -> bool) (tr' : TM' -> bool) (zc : TZ -> TC) (zc' : TZ' -> TC').
Context (outp : outmode).
Hypothesis Htr : rel1 RM eq tr tr'.
Hypothesis Hzc : rel1 RZ RC zc zc'.

Section Mul.
Context (a : accum TC TT TZ) (a' : accum TC' TT' TZ').
Hypothesis Ha : accrel RC RT RZ a a'.
Context (add : TT -> TT -> TT) (add' : TT' -> TT' -> TT') (mult : TA -> TB -> TT) (mult' : TA' -> TB' -> TT').
Hypothesis Hadd : rel2 RT RT RT add add'.
Hypothesis Hmult : rel2 RA RB RT mult mult'.

Lemma mxm_rel multS multS' tc ct tc' ct' (m : mask (lil TM)) (m' : mask (lil TM')) C C' A A' B B' :
  match A, B with Trn _, Trn _ => (forall x y, multS y x = mult x y) /\ (forall v, ct (tc v) = v) | _, _ => True end ->
  match A', B' with Trn _, Trn _ => (forall x y, multS' y x = mult' x y) /\ (forall v, ct' (tc' v) = v) | _, _ => True end ->
  maskrel (mrel RM) m m' -> mrel RC C C' -> viewrel RA A A' -> viewrel RB B B' -> mxm_conforms m C A B ->
  mresult RC (mxm add mult multS tc ct tr zc a m outp C A B) (mxm add' mult' multS' tc' ct' tr' zc' a' m' outp C' A' B').
Proof.
  intros X X' Hm HC HA HB (F & F1 & F2 & F3). shapes.
  eapply (written_rel RC RT RZ RM); eauto.
  - apply mxm_ok; auto. destruct A, B; auto.
  - apply mxm_ok; auto; try congruence; [|destruct A', B'; auto].
    replace (nrows C') with (nrows C) by congruence. replace (ncols C') with (ncols C) by congruence. eapply maskrel_fits; eauto.
  - intros i j Hi Hj. unfold smul. rewrite <- (proj2 (viewrel_rows _ _ _ HA)). apply osum_rel; auto. apply Forall2_maps. intro k.
    eapply orel_map2; eauto; apply viewrel_get; auto.
Qed.
Lemma mxv_rel multS multS' (m : mask (bvec TM)) (m' : mask (bvec TM')) w w' A A' u u' :
  match A with Trn _ => forall x y, multS y x = mult x y | _ => True end ->
  match A' with Trn _ => forall x y, multS' y x = mult' x y | _ => True end ->
  maskrel (vrel RM) m m' -> vrel RC w w' -> viewrel RA A A' -> vrel RB u u' -> mxv_conforms m w A u ->
  vresult RC (mxv add mult multS tr zc a m outp w A u) (mxv add' mult' multS' tr' zc' a' m' outp w' A' u').
Proof.
  intros X X' Hm HC HA HB (F & F1 & F2). shapes.
  eapply (vwritten_rel RC RT RZ RM); eauto.
  - apply mxv_ok; auto.
  - apply mxv_ok; auto; try congruence. replace (vsize w') with (vsize w) by congruence. eapply vmaskrel_fits; eauto.
  - intros i Hi. unfold smulv. rewrite <- (proj2 (viewrel_rows _ _ _ HA)). apply osum_rel; auto. apply Forall2_maps. intro k.
    eapply orel_map2; eauto; [apply viewrel_get; auto|apply HB].
Qed.
End Mul.
Lemma vxm_rel (a : accum TC TT TZ) (a' : accum TC' TT' TZ') add add' (mult : TB -> TA -> TT) mult'
  (m : mask (bvec TM)) (m' : mask (bvec TM')) w w' u u' A A' :
  accrel RC RT RZ a a' -> rel2 RT RT RT add add' -> rel2 RB RA RT mult mult' ->
  maskrel (vrel RM) m m' -> vrel RC w w' -> vrel RB u u' -> viewrel RA A A' -> vxm_conforms m w u A ->
  vresult RC (vxm add mult tr zc a m outp w u A) (vxm add' mult' tr' zc' a' m' outp w' u' A').
Proof.
  intros Ha Hadd Hmult Hm HC HB HA (F & F1 & F2). shapes.
  eapply (vwritten_rel RC RT RZ RM); eauto.
  - apply vxm_ok; auto.
  - apply vxm_ok; auto; try congruence. replace (vsize w') with (vsize w) by congruence. eapply vmaskrel_fits; eauto.
  - intros i Hi. unfold svmul. rewrite <- (proj1 (viewrel_rows _ _ _ HA)). apply osum_rel; auto. apply Forall2_maps. intro k.
    eapply orel_map2; eauto; [apply HB|apply viewrel_get; auto].
Qed.

(** Element-wise operations. *)
Section Elem.
Context (a : accum TC TT TZ) (a' : accum TC' TT' TZ').
Hypothesis Ha : accrel RC RT RZ a a'.
Context (op : TA -> TB -> TT) (op' : TA' -> TB' -> TT').
Hypothesis Hop : rel2 RA RB RT op op'.
Lemma eWiseAdd_rel c1 c1' c2 c2' opA opA' c2A c2A' ba ba' (m : mask (lil TM)) (m' : mask (lil TM')) C C' A A' B B' :
  rel1 RA RT c1 c1' -> rel1 RB RT c2 c2' ->
  match A, B with Mat _, Trn _ => (forall x y, opA x (ba y) = op x y) /\ (forall y, c2A (ba y) = c2 y) | _, _ => True end ->
  match A', B' with Mat _, Trn _ => (forall x y, opA' x (ba' y) = op' x y) /\ (forall y, c2A' (ba' y) = c2' y) | _, _ => True end ->
  maskrel (mrel RM) m m' -> mrel RC C C' -> viewrel RA A A' -> viewrel RB B B' -> ewise_conforms m C A B ->
  mresult RC (eWiseAdd op c1 c2 opA c2A ba tr zc a m outp C A B)
    (eWiseAdd op' c1' c2' opA' c2A' ba' tr' zc' a' m' outp C' A' B').
Proof.
  intros H1 H2 X X' Hm HC HA HB (F & F1 & F2 & F3 & F4). shapes.
  eapply (written_rel RC RT RZ RM); eauto.
  - apply eWiseAdd_coherent; auto; [destruct A, B; auto|split; auto].
  - apply eWiseAdd_coherent; auto; [destruct A', B'; auto|]. split; [|repeat split; congruence].
    replace (nrows C') with (nrows C) by congruence. replace (ncols C') with (ncols C) by congruence. eapply maskrel_fits; eauto.
  - intros i j Hi Hj. exact (orel_union RA RB RT op op' c1 c1' c2 c2' _ _ _ _ Hop H1 H2 (viewrel_get _ _ _ i j HA) (viewrel_get _ _ _ i j HB)).
Qed.
Lemma eWiseMult_rel opA opA' ba ba' (m : mask (lil TM)) (m' : mask (lil TM')) C C' A A' B B' :
  match A, B with Mat _, Trn _ => forall x y, opA x (ba y) = op x y | _, _ => True end ->
  match A', B' with Mat _, Trn _ => forall x y, opA' x (ba' y) = op' x y | _, _ => True end ->
  maskrel (mrel RM) m m' -> mrel RC C C' -> viewrel RA A A' -> viewrel RB B B' -> ewise_conforms m C A B ->
  mresult RC (eWiseMult op opA ba tr zc a m outp C A B) (eWiseMult op' opA' ba' tr' zc' a' m' outp C' A' B').
Proof.
  intros X X' Hm HC HA HB (F & F1 & F2 & F3 & F4). shapes.
  eapply (written_rel RC RT RZ RM); eauto.
  - apply eWiseMult_coherent; auto; [destruct A, B; auto|split; auto].
  - apply eWiseMult_coherent; auto; [destruct A', B'; auto|]. split; [|repeat split; congruence].
    replace (nrows C') with (nrows C) by congruence. replace (ncols C') with (ncols C) by congruence. eapply maskrel_fits; eauto.
  - intros i j Hi Hj. exact (orel_map2 RA RB RT op op' _ _ _ _ Hop (viewrel_get _ _ _ i j HA) (viewrel_get _ _ _ i j HB)).
Qed.
Lemma eWiseAdd_v_rel c1 c1' c2 c2' (m : mask (bvec TM)) (m' : mask (bvec TM')) w w' u u' v v' :
  rel1 RA RT c1 c1' -> rel1 RB RT c2 c2' ->
  maskrel (vrel RM) m m' -> vrel RC w w' -> vrel RA u u' -> vrel RB v v' -> vewise_conforms m w u v ->
  vresult RC (eWiseAdd_v op c1 c2 tr zc a m outp w u v) (eWiseAdd_v op' c1' c2' tr' zc' a' m' outp w' u' v').
Proof.
  intros H1 H2 Hm HC HA HB (F & F1 & F2). shapes.
  eapply (vwritten_rel RC RT RZ RM); eauto.
  - apply eWiseAdd_v_ok; auto. split; auto.
  - apply eWiseAdd_v_ok; auto. split; [|split; congruence]. replace (vsize w') with (vsize w) by congruence. eapply vmaskrel_fits; eauto.
  - intros i Hi. destruct HA as (_ & _ & _ & HA), HB as (_ & _ & _ & HB).
    exact (orel_union RA RB RT op op' c1 c1' c2 c2' _ _ _ _ Hop H1 H2 (HA i) (HB i)).
Qed.
Lemma eWiseMult_v_rel (m : mask (bvec TM)) (m' : mask (bvec TM')) w w' u u' v v' :
  maskrel (vrel RM) m m' -> vrel RC w w' -> vrel RA u u' -> vrel RB v v' -> vewise_conforms m w u v ->
  vresult RC (eWiseMult_v op tr zc a m outp w u v) (eWiseMult_v op' tr' zc' a' m' outp w' u' v').
Proof.
  intros Hm HC HA HB (F & F1 & F2). shapes.
  eapply (vwritten_rel RC RT RZ RM); eauto.
  - apply eWiseMult_v_ok; auto. split; auto.
  - apply eWiseMult_v_ok; auto. split; [|split; congruence]. replace (vsize w') with (vsize w) by congruence. eapply vmaskrel_fits; eauto.
  - intros i Hi. destruct HA as (_ & _ & _ & HA), HB as (_ & _ & _ & HB).
    exact (orel_map2 RA RB RT op op' _ _ _ _ Hop (HA i) (HB i)).
Qed.
Lemma kronecker_rel (m : mask (lil TM)) (m' : mask (lil TM')) C C' A A' B B' :
  maskrel (mrel RM) m m' -> mrel RC C C' -> viewrel RA A A' -> viewrel RB B B' -> kron_conforms m C A B ->
  (Z.of_nat (nrows C) < 2 ^ 64)%Z -> (Z.of_nat (ncols C) < 2 ^ 64)%Z ->
  mresult RC (kronecker op tr zc a m outp C A B) (kronecker op' tr' zc' a' m' outp C' A' B').
Proof.
  intros Hm HC HA HB (F & F1 & F2) B1 B2. shapes.
  eapply (written_rel RC RT RZ RM); eauto.
  - apply kronecker_ok; auto. split; auto.
  - apply kronecker_ok; auto; try congruence. split; [|split; congruence].
    replace (nrows C') with (nrows C) by congruence. replace (ncols C') with (ncols C) by congruence. eapply maskrel_fits; eauto.
  - intros i j Hi Hj. simpl. destruct (viewrel_rows _ _ _ HB) as [<- <-].
    exact (orel_map2 RA RB RT op op' _ _ _ _ Hop (viewrel_get _ _ _ _ _ HA) (viewrel_get _ _ _ _ _ HB)).
Qed.
End Elem.

Section Unary.
Context (a : accum TC TT TZ) (a' : accum TC' TT' TZ').
Hypothesis Ha : accrel RC RT RZ a a'.
Lemma apply_rel f f' (m : mask (lil TM)) (m' : mask (lil TM')) C C' A A' : rel1 RA RT f f' ->
  maskrel (mrel RM) m m' -> mrel RC C C' -> viewrel RA A A' -> apply_conforms m C A ->
  mresult RC (apply f tr zc a m outp C A) (apply f' tr' zc' a' m' outp C' A').
Proof.
  intros Hf Hm HC HA (F & F1 & F2). shapes.
  eapply (written_rel RC RT RZ RM); eauto.
  - apply apply_ok; auto. split; auto.
  - apply apply_ok; auto. split; [|split; congruence].
    replace (nrows C') with (nrows C) by congruence. replace (ncols C') with (ncols C) by congruence. eapply maskrel_fits; eauto.
  - intros i j Hi Hj. exact (orel_map RA RT f f' _ _ Hf (viewrel_get _ _ _ i j HA)).
Qed.
Lemma apply_v_rel f f' (m : mask (bvec TM)) (m' : mask (bvec TM')) w w' u u' : rel1 RA RT f f' ->
  maskrel (vrel RM) m m' -> vrel RC w w' -> vrel RA u u' -> vapply_conforms m w u ->
  vresult RC (apply_v f tr zc a m outp w u) (apply_v f' tr' zc' a' m' outp w' u').
Proof.
  intros Hf Hm HC HA (F & F1). shapes.
  eapply (vwritten_rel RC RT RZ RM); eauto.
  - apply apply_v_ok; auto. split; auto.
  - apply apply_v_ok; auto. split; [|congruence]. replace (vsize w') with (vsize w) by congruence. eapply vmaskrel_fits; eauto.
  - intros i Hi. destruct HA as (_ & _ & _ & HA). exact (orel_map RA RT f f' _ _ Hf (HA i)).
Qed.
Lemma reduce_rel c1 c1' op01 op01' op op' (m : mask (bvec TM)) (m' : mask (bvec TM')) w w' A A' :
  rel1 RA RT c1 c1' -> rel2 RT RA RT op op' -> (forall x y, op01 x y = op (c1 x) y) -> (forall x y, op01' x y = op' (c1' x) y) ->
  maskrel (vrel RM) m m' -> vrel RC w w' -> viewrel RA A A' -> reduce_conforms m w A ->
  vresult RC (reduce c1 op01 op tr zc a m outp w A) (reduce c1' op01' op' tr' zc' a' m' outp w' A').
Proof.
  intros H1 H2 X X' Hm HC HA (F & F1). shapes.
  eapply (vwritten_rel RC RT RZ RM); eauto.
  - apply reduce_ok; auto. split; auto.
  - apply reduce_ok; auto. split; [|congruence]. replace (vsize w') with (vsize w) by congruence. eapply vmaskrel_fits; eauto.
  - intros i Hi. simpl. rewrite <- (proj2 (viewrel_rows _ _ _ HA)). eapply ofold_rel; eauto. apply Forall2_maps. intro j.
    apply viewrel_get; auto.
Qed.
End Unary.

(** Scalar reductions. *)
Lemma reduce_vs_rel (a : accum TC TT TZ) (a' : accum TC' TT' TZ') ident ident' c1 c1' op01 op01' op op' val val' u u' :
  accrel RC RT RZ a a' -> RT ident ident' -> rel1 RA RT c1 c1' -> rel2 RT RA RT op op' ->
  (forall x y, op01 x y = op (c1 x) y) -> (forall x y, op01' x y = op' (c1' x) y) -> RC val val' -> vrel RA u u' ->
  exists x x', reduce_vs ident c1 op01 op zc a val u = Ok x /\ reduce_vs ident' c1' op01' op' zc' a' val' u' = Ok x' /\ RC x x'.
Proof.
  intros Ha Hi H1 H2 X X' Hv Hu. pose proof Hu as (_ & _ & E & G). shapes.
  rewrite (reduce_vs_ok ident c1 op01 op zc a val u), (reduce_vs_ok ident' c1' op01' op' zc' a' val' u') by auto.
  eexists. eexists. split; [reflexivity|]. split; [reflexivity|]. apply Hzc.
  assert (Hs : orel RT (ofold c1 op (map (vget u) (seq 0 (vsize u)))) (ofold c1' op' (map (vget u') (seq 0 (vsize u'))))).
  { rewrite <- E. eapply ofold_rel; eauto. apply Forall2_maps. auto. }
  destruct (ofold c1 op _), (ofold c1' op' _); simpl in Hs; try contradiction;
    destruct a, a'; simpl in Ha; try contradiction; auto; destruct Ha as (Hf & _); apply Hf; auto.
Qed.
Lemma reduce_ms_rel (a : accum TC TT TZ) (a' : accum TC' TT' TZ') ident ident' c1 c1' op01 op01' op op' op2 op2' val val' A A' :
  accrel RC RT RZ a a' -> RT ident ident' -> rel1 RA RT c1 c1' -> rel2 RT RA RT op op' -> rel2 RT RT RT op2 op2' ->
  (forall x y, op01 x y = op (c1 x) y) -> (forall x y, op01' x y = op' (c1' x) y) -> RC val val' -> mrel RA A A' ->
  exists x x', reduce_ms ident c1 op01 op op2 zc a val A = Ok x /\ reduce_ms ident' c1' op01' op' op2' zc' a' val' A' = Ok x' /\ RC x x'.
Proof.
  intros Ha Hi H1 H2 H3 X X' Hv (WA & WA' & ER & EC & G).
  rewrite (reduce_ms_rows ident c1 op01 op op2 zc a val A), (reduce_ms_rows ident' c1' op01' op' op2' zc' a' val' A') by auto.
  eexists. eexists. split; [reflexivity|]. split; [reflexivity|]. apply Hzc. rewrite <- ER, <- EC.
  assert (Hs : forall l s s', RT s s' ->
     RT (fold_left (fun t i => match ofold c1 op (map (mget A i) (seq 0 (ncols A))) with Some x => op2 t x | None => t end) l s)
        (fold_left (fun t i => match ofold c1' op' (map (mget A' i) (seq 0 (ncols A))) with Some x => op2' t x | None => t end) l s')).
  { intro l. induction l as [|i l IH]; intros s s' Hs; simpl; [auto|]. apply IH.
    assert (Ho : orel RT (ofold c1 op (map (mget A i) (seq 0 (ncols A)))) (ofold c1' op' (map (mget A' i) (seq 0 (ncols A))))).
    { eapply ofold_rel; eauto. apply Forall2_maps. auto. }
    destruct (ofold c1 op _), (ofold c1' op' _); simpl in Ho; try contradiction; auto. }
  specialize (Hs (seq 0 (nrows A)) _ _ Hi).
  destruct a, a'; simpl in Ha; try contradiction; auto; destruct Ha as (Hf & _); apply Hf; auto.
Qed.

(** Moving elements. *)
Section Move.
Context (a : accum TC TA TZ) (a' : accum TC' TA' TZ').
Hypothesis Ha : accrel RC RA RZ a a'.
Lemma transpose_rel (m : mask (lil TM)) (m' : mask (lil TM')) C C' A A' :
  maskrel (mrel RM) m m' -> mrel RC C C' -> viewrel RA A A' -> transpose_conforms m C A ->
  mresult RC (transpose tr zc a m outp C A) (transpose tr' zc' a' m' outp C' A').
Proof.
  intros Hm HC HA (F & F1 & F2). shapes.
  eapply (written_rel RC RA RZ RM); eauto.
  - apply transpose_ok; auto. split; auto.
  - apply transpose_ok; auto. split; [|split; congruence].
    replace (nrows C') with (nrows C) by congruence. replace (ncols C') with (ncols C) by congruence. eapply maskrel_fits; eauto.
  - intros i j Hi Hj. exact (viewrel_get _ _ _ j i HA).
Qed.
Lemma extract_v_rel (m : mask (bvec TM)) (m' : mask (bvec TM')) w w' u u' s :
  maskrel (vrel RM) m m' -> vrel RC w w' -> vrel RA u u' -> vextract_conforms m w u s ->
  vresult RC (extract_v tr zc a m outp w u s) (extract_v tr' zc' a' m' outp w' u' s).
Proof.
  intros Hm HC HA (F & F1 & F2). shapes.
  eapply (vwritten_rel RC RA RZ RM); eauto.
  - apply extract_v_ok; auto. split; auto.
  - apply extract_v_ok; auto. split; [|split; congruence].
    replace (vsize w') with (vsize w) by congruence. eapply vmaskrel_fits; eauto.
  - intros i Hi. unfold sextract. destruct (sel s i); simpl; [apply HA|exact I].
Qed.
Lemma extract_m_rel (m : mask (lil TM)) (m' : mask (lil TM')) C C' A A' rs cs :
  maskrel (mrel RM) m m' -> mrel RC C C' -> viewrel RA A A' -> extract_conforms m C A rs cs ->
  mresult RC (extract_m tr zc a m outp C A rs cs) (extract_m tr' zc' a' m' outp C' A' rs cs).
Proof.
  intros Hm HC HA (F & F1 & F2 & F3 & F4). shapes.
  eapply (written_rel RC RA RZ RM); eauto.
  - apply extract_m_ok; auto. repeat split; auto.
  - apply extract_m_ok; auto. split; [|repeat split; congruence].
    replace (nrows C') with (nrows C) by congruence. replace (ncols C') with (ncols C) by congruence. eapply maskrel_fits; eauto.
  - intros i j Hi Hj. unfold smextract. destruct (sel rs i); simpl; [|exact I]. destruct (sel cs j); simpl; [|exact I].
    apply viewrel_get; auto.
Qed.
Lemma extract_col_rel (m : mask (bvec TM)) (m' : mask (bvec TM')) w w' A A' rs col :
  maskrel (vrel RM) m m' -> vrel RC w w' -> viewrel RA A A' -> cextract_conforms m w A rs col ->
  vresult RC (extract_col tr zc a m outp w A rs col) (extract_col tr' zc' a' m' outp w' A' rs col).
Proof.
  intros Hm HC HA (F & F1 & F2 & F3). shapes.
  eapply (vwritten_rel RC RA RZ RM); eauto.
  - apply extract_col_ok; auto. repeat split; auto.
  - apply extract_col_ok; auto. split; [|repeat split; congruence].
    replace (vsize w') with (vsize w) by congruence. eapply vmaskrel_fits; eauto.
  - intros i Hi. unfold scextract. destruct (sel rs i); simpl; [|exact I]. apply viewrel_get; auto.
Qed.
Lemma assign_v_rel cz cz' (m : mask (bvec TM)) (m' : mask (bvec TM')) w w' u u' s : rel1 RC RZ cz cz' ->
  maskrel (vrel RM) m m' -> vrel RC w w' -> vrel RA u u' -> vassign_conforms m w u s -> idx_nodup s -> all_fits s (vsize u) (vsize w) ->
  vresult RC (assign_v cz tr zc a m outp w u s) (assign_v cz' tr' zc' a' m' outp w' u' s).
Proof.
  intros Hz Hm HC HA (F & F1 & F2) ND AF. shapes. pose proof HA as (_ & _ & EA & GA).
  eapply (vassigned_rel RC RA RZ RM) with (reg := in_idx s (vsize u)) (T := sassign (vget u) (vsize u) s) (T' := sassign (vget u') (vsize u) s); eauto.
  - apply assign_v_ok; auto. split; auto.
  - rewrite EA. apply assign_v_ok; auto; [|congruence]. split; [|split; congruence].
    replace (vsize w') with (vsize w) by congruence. eapply vmaskrel_fits; eauto.
  - intros i Hi. unfold sassign. destruct (pos s (vsize u) i); simpl; auto.
Qed.
Lemma assign_m_rel cz cz' (m : mask (lil TM)) (m' : mask (lil TM')) C C' A A' rs cs : rel1 RC RZ cz cz' ->
  maskrel (mrel RM) m m' -> mrel RC C C' -> viewrel RA A A' -> assign_conforms m C A rs cs -> idx_nodup rs -> idx_nodup cs ->
  all_fits rs (vrows A) (nrows C) -> all_fits cs (vcols A) (ncols C) ->
  mresult RC (assign_m cz tr zc a m outp C A rs cs) (assign_m cz' tr' zc' a' m' outp C' A' rs cs).
Proof.
  intros Hz Hm HC HA (F & F1 & F2 & F3 & F4) ND1 ND2 AF1 AF2. shapes. destruct (viewrel_rows _ _ _ HA) as [ER EC].
  eapply (assigned_rel RC RA RZ RM) with (reg := fun i j => in_idx rs (vrows A) i && in_idx cs (vcols A) j)
    (T := smassign (sview A) (vrows A) (vcols A) rs cs) (T' := smassign (sview A') (vrows A) (vcols A) rs cs); eauto.
  - apply assign_m_ok; auto. repeat split; auto.
  - rewrite ER, EC. apply assign_m_ok; auto; try congruence. split; [|repeat split; congruence].
    replace (nrows C') with (nrows C) by congruence. replace (ncols C') with (ncols C) by congruence. eapply maskrel_fits; eauto.
  - intros i j Hi Hj. unfold smassign. destruct (pos rs (vrows A) i); simpl; [|exact I].
    destruct (pos cs (vcols A) j); simpl; [|exact I]. apply viewrel_get; auto.
Qed.
Lemma assign_const_v_rel cz cz' (m : mask (bvec TM)) (m' : mask (bvec TM')) w w' val val' s : rel1 RC RZ cz cz' -> RA val val' ->
  maskrel (vrel RM) m m' -> vrel RC w w' -> vcassign_conforms m w s -> idx_sorted s ->
  vresult RC (assign_const_v cz tr zc a m outp w val s) (assign_const_v cz' tr' zc' a' m' outp w' val' s).
Proof.
  intros Hz Hv Hm HC (F & F1 & F2) SO. shapes. pose proof HC as (_ & _ & EA & GA).
  eapply (vassigned_rel RC RA RZ RM) with (reg := in_idx s (idx_count s (vsize w)))
    (T := fun i => if in_idx s (idx_count s (vsize w)) i then Some val else None)
    (T' := fun i => if in_idx s (idx_count s (vsize w)) i then Some val' else None); eauto.
  - apply assign_const_v_ok; auto. split; auto.
  - rewrite EA. apply assign_const_v_ok; auto. split; [|split; congruence].
    replace (vsize w') with (vsize w) by congruence. eapply vmaskrel_fits; eauto.
  - intros i Hi. simpl. destruct (in_idx _ _ i); simpl; auto.
Qed.
Lemma assign_const_m_rel cz cz' (m : mask (lil TM)) (m' : mask (lil TM')) C C' val val' rs cs : rel1 RC RZ cz cz' -> RA val val' ->
  maskrel (mrel RM) m m' -> mrel RC C C' -> mcassign_conforms m C rs cs -> idx_nodup rs -> idx_sorted cs ->
  mresult RC (assign_const_m cz tr zc a m outp C val rs cs) (assign_const_m cz' tr' zc' a' m' outp C' val' rs cs).
Proof.
  intros Hz Hv Hm HC (F & F1 & F2 & F3 & F4) ND SO. shapes. pose proof HC as (_ & _ & ER & EC & GA).
  set (reg := fun i j => in_idx rs (idx_count rs (nrows C)) i && in_idx cs (idx_count cs (ncols C)) j).
  eapply (assigned_rel RC RA RZ RM) with (reg := reg)
    (T := fun i j => if reg i j then Some val else None) (T' := fun i j => if reg i j then Some val' else None); eauto.
  - apply assign_const_m_ok; auto. repeat split; auto.
  - unfold reg. rewrite ER, EC. apply assign_const_m_ok; auto. split; [|repeat split; congruence].
    replace (nrows C') with (nrows C) by congruence. replace (ncols C') with (ncols C) by congruence. eapply maskrel_fits; eauto.
  - intros i j Hi Hj. simpl. destruct (reg i j); simpl; auto.
Qed.
End Move.
End Ops.
