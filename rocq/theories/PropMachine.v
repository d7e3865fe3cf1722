(** Properties of programs over a store of containers: C32, C33, C35, C36. *)
From Coq Require Import Lia.
From Verif Require Import Base ModelLil ModelVec ModelHelpers ModelViews ModelIndex ModelCalls
  ModelMachine Spec SpecOps SpecIndex SpecCalls SpecMachine ProofLil ProofViews
  ProofContainers ProofExec.

(** Example store: a square matrix, a mask of the same shape, a vector. *)
Definition em_A : lil Z := mkLil 2 2 3 [[(0, 1%Z); (1, 2%Z)]; [(1, 3%Z)]].
Definition em_M : lil Z := mkLil 2 2 2 [[(0, 1%Z)]; [(0, 1%Z)]].
Definition em_R : lil Z := mkLil 2 3 1 [[]; [(2, 7%Z)]].
Definition em_u : bvec Z := mkVec 2 1 [5%Z; 0%Z] [true; false].
Definition em_st : store Z := mkStore [em_A; em_M; em_R] [em_u].
Definition em_w : wargs Z := mkW (fun v => negb (v =? 0)%Z) (fun v => v) (fun v => v)
  (Acc Z.add (fun v => v) (fun v => v)) MERGE.
Definition em_mxm (A B : mref) : mop Z mref := OMxm Z.add Z.mul Z.mul (fun v => v) (fun v => v) A B.

Lemma em_wf : wfstore em_st.
Proof. split; repeat (apply Forall_cons; [first [wf_mat|wf_vec]|]); apply Forall_nil. Qed.

(** ** C32: a call that does not conform throws the documented exception and changes
    nothing; a conforming call returns normally. *)
Theorem C32_matrix_operations :
  forall (T : Type) (dflt : T) (eqb : T -> T -> bool) (st : store T) (out : nat) (m : mask nat)
    (w : wargs T) (o : mop T mref) (C : lil T) (m' : mask (lil T)) (o' : mop T (mview T)),
    wfstore st -> nth_error (mats st) out = Some C -> mask_look (mats st) m = Some m' ->
    mop_look (mats st) o = Some o' -> mop_pre C o' ->
    (~ mop_shape m' C o' ->
     step dflt eqb st (CMop out m w o) = (st, Throw DimensionException)) /\
    (mop_shape m' C o' -> ~ mop_inrange C o' ->
     step dflt eqb st (CMop out m w o) = (st, Throw IndexOutOfBoundsException)) /\
    (mop_shape m' C o' -> mop_inrange C o' ->
     exists st', step dflt eqb st (CMop out m w o) = (st', Ok ADone)).
Proof.
  intros T dflt eqb st out m w o C m' o' W HC Hm Ho P.
  destruct (mop_step dflt eqb st out m w o C m' o' W HC Hm Ho P)
    as [(F & I & C' & _ & _ & _ & _ & E)|[(F & _ & E)|(F & I & _ & E)]]; rewrite E;
    repeat split; intros; try tauto; eauto.
Qed.
Print Assumptions C32_matrix_operations.

Theorem C32_vector_operations :
  forall (T : Type) (dflt : T) (eqb : T -> T -> bool) (st : store T) (out : nat) (m : mask nat)
    (w : wargs T) (o : vop T mref nat) (x : bvec T) (m' : mask (bvec T))
    (o' : vop T (mview T) (bvec T)),
    wfstore st -> nth_error (vecs st) out = Some x -> mask_look (vecs st) m = Some m' ->
    vop_look (mats st) (vecs st) o = Some o' -> vop_pre x o' ->
    (~ vop_shape m' x o' ->
     step dflt eqb st (CVop out m w o) = (st, Throw DimensionException)) /\
    (vop_shape m' x o' -> ~ vop_single o' ->
     step dflt eqb st (CVop out m w o) = (st, Throw InvalidIndexException)) /\
    (vop_shape m' x o' -> vop_single o' -> ~ vop_inrange x o' ->
     step dflt eqb st (CVop out m w o) = (st, Throw IndexOutOfBoundsException)) /\
    (vop_shape m' x o' -> vop_single o' -> vop_inrange x o' ->
     exists st', step dflt eqb st (CVop out m w o) = (st', Ok ADone)).
Proof.
  intros T dflt eqb st out m w o C m' o' W HC Hm Ho P.
  destruct (vop_step dflt eqb st out m w o C m' o' W HC Hm Ho P)
    as [(F & G & I & C' & _ & _ & _ & E)|[(F & _ & E)|[(F & G & _ & E)|(F & G & I & _ & E)]]];
    rewrite E; repeat split; intros; try tauto; eauto.
Qed.
Print Assumptions C32_vector_operations.

Theorem C32_row_column_assignment :
  forall (T : Type) (dflt : T) (eqb : T -> T -> bool) (st : store T) (out : nat) (m : mask nat)
    (w : wargs T) (o : rop nat) (C : lil T) (m' : mask (bvec T)) (o' : rop (bvec T)),
    wfstore st -> nth_error (mats st) out = Some C -> mask_look (vecs st) m = Some m' ->
    rop_look (vecs st) o = Some o' -> rop_pre C o' ->
    (~ rop_shape m' C o' ->
     step dflt eqb st (CRop out m w o) = (st, Throw DimensionException)) /\
    (rop_shape m' C o' -> ~ rop_single C o' ->
     step dflt eqb st (CRop out m w o) = (st, Throw InvalidIndexException)) /\
    (rop_shape m' C o' -> rop_single C o' -> ~ rop_inrange C o' ->
     step dflt eqb st (CRop out m w o) = (st, Throw IndexOutOfBoundsException)) /\
    (rop_shape m' C o' -> rop_single C o' -> rop_inrange C o' ->
     exists st', step dflt eqb st (CRop out m w o) = (st', Ok ADone)).
Proof.
  intros T dflt eqb st out m w o C m' o' W HC Hm Ho P.
  destruct (rop_step dflt eqb st out m w o C m' o' W HC Hm Ho P)
    as [(F & G & I & C' & _ & _ & _ & _ & E)|[(F & _ & E)|[(F & G & _ & E)|(F & G & I & _ & E)]]];
    rewrite E; repeat split; intros; try tauto; eauto.
Qed.
Print Assumptions C32_row_column_assignment.

Example C32_example :
  wfstore em_st /\
  step 0%Z Z.eqb em_st (CMop 0 (MVal 1) em_w (em_mxm (RMat 0) (RMat 0))) =
    (mkStore [mkLil 2 2 3 [[(0, 2%Z); (1, 2%Z)]; [(1, 3%Z)]]; em_M; em_R] [em_u], Ok ADone) /\
  step 0%Z Z.eqb em_st (CMop 0 (MVal 2) em_w (em_mxm (RMat 0) (RMat 0))) =
    (em_st, Throw DimensionException) /\
  step 0%Z Z.eqb em_st (CMop 0 NoMask em_w (em_mxm (RMat 2) (RMat 0))) =
    (em_st, Throw DimensionException) /\
  step 0%Z Z.eqb em_st (CMop 0 NoMask em_w (OExtract (RMat 2) (IdxArr [1; 1]) (IdxArr [0; 3]))) =
    (em_st, Throw IndexOutOfBoundsException) /\
  step 0%Z Z.eqb em_st (CVop 0 NoMask em_w (OExtractCol (RMat 2) AllIdx 3)) =
    (em_st, Throw InvalidIndexException) /\
  step 0%Z Z.eqb em_st (CRop 2 NoMask em_w (OAssignRow 0 1 (IdxArr [0; 5]))) =
    (em_st, Throw IndexOutOfBoundsException) /\
  step 0%Z Z.eqb em_st (CRop 2 NoMask em_w (OAssignRow 0 1 (IdxArr [2; 0]))) =
    (mkStore [em_A; em_M; mkLil 2 3 1 [[]; [(2, 12%Z)]]] [em_u], Ok ADone).
Proof. split; [apply em_wf|repeat split; reflexivity]. Qed.

(** ** C33: no call on well-formed containers reaches undefined behaviour. *)
Theorem C33_no_undefined_behaviour :
  forall (T : Type) (dflt : T) (eqb : T -> T -> bool) (st : store T) (c : call T),
    wfstore st -> call_pre st c -> snd (step dflt eqb st c) <> UB.
Proof. intros. apply step_good; auto. Qed.
Print Assumptions C33_no_undefined_behaviour.

Theorem C33_no_undefined_behaviour_program :
  forall (T : Type) (dflt : T) (eqb : T -> T -> bool) (cs : list (call T)),
    program_pre dflt eqb (mkStore [] []) cs ->
    ~ In UB (snd (exec dflt eqb (mkStore [] []) cs)).
Proof. intros. apply exec_good; auto. split; constructor. Qed.
Print Assumptions C33_no_undefined_behaviour_program.

(** ** C35: programs keep every container well formed. *)
Theorem C35_programs_preserve_wellformedness :
  forall (T : Type) (dflt : T) (eqb : T -> T -> bool) (cs : list (call T)),
    program_pre dflt eqb (mkStore [] []) cs ->
    let st := fst (exec dflt eqb (mkStore [] []) cs) in
    (forall k M, nth_error (mats st) k = Some M ->
       wfm M /\ nvals M = Z.of_nat (mcount (nrows M) (ncols M) (mhas M))) /\
    (forall k u, nth_error (vecs st) k = Some u ->
       wfv u /\ vnvals u = Z.of_nat (vcount (vsize u) (vhas u))).
Proof.
  intros T dflt eqb cs P st.
  assert (W : wfstore st) by (apply exec_good; auto; split; constructor).
  destruct W as [Wm Wv]. split.
  - intros k M H. pose proof (wfm_at _ _ _ Wm H) as WM. split; [auto|]. apply wfm_count_has; auto.
  - intros k u H. pose proof (wfv_at _ _ _ Wv H) as WU. split; [auto|]. apply wfv_count_has; auto.
Qed.
Print Assumptions C35_programs_preserve_wellformedness.

(** A program with element calls, a build, masked and accumulated operations on aliased
    operands, and calls that throw. *)
Definition em_prog : list (call Z) :=
  [CMat (MNew 2 2); CMat (MNew 2 3); CVec (VNew 2);
   CMat (MBuild 0 Z.add [0; 0; 1; 0] [0; 1; 1; 1] [1%Z; 2%Z; 3%Z; 4%Z]);
   CMat (MSet 1 1 2 7%Z); CVec (VSet 0 1 5%Z);
   CMop 0 (MVal 0) em_w (em_mxm (RMat 0) (RTrn 0));
   CMop 1 (MComp 0) em_w (em_mxm (RMat 0) (RMat 1));
   CMop 1 NoMask em_w (em_mxm (RMat 0) (RMat 1));
   CVop 0 (MStruct 0) em_w (OMxv Z.add Z.mul Z.mul (RTrn 0) 0);
   CRop 1 (MSComp 0) em_w (OAssignCol 0 AllIdx 1);
   CMop 0 NoMask em_w (OAssignC 9%Z (IdxArr [1; 0]) (IdxRange 0 1));
   CVop 0 NoMask em_w (OAssignV 0 (IdxArr [1; 0]));
   CSop em_w (OReduceMS 0%Z (fun v => v) Z.add Z.add Z.add 100%Z 0);
   CMat (MRemove 0 0 1); CMat (MClear 1)].

Example C35_example :
  program_pre 0%Z Z.eqb (mkStore [] []) em_prog /\
  exec 0%Z Z.eqb (mkStore [] []) em_prog =
    (mkStore [mkLil 2 2 3 [[(0, 47%Z)]; [(0, 9%Z); (1, 12%Z)]]; mkLil 2 3 0 [[]; []]]
       [mkVec 2 2 [65%Z; 65%Z] [true; true]],
     [Ok ADone; Ok ADone; Ok ADone; Ok ADone; Ok ADone; Ok ADone; Ok ADone;
      Throw DimensionException; Ok ADone; Ok ADone; Ok ADone; Ok ADone; Ok ADone;
      Ok (AVal 192%Z); Ok ADone; Ok ADone]).
Proof.
  split; [|vm_compute; reflexivity].
  cbn [program_pre em_prog].
  repeat match goal with
  | |- True => exact I
  | |- call_pre _ (CMat _) /\ _ => split; [exact I|]
  | |- call_pre _ (CVec _) /\ _ => split; [exact I|]
  | |- call_pre _ (CSop _ _) /\ _ => split; [exact I|]
  | |- call_pre _ _ /\ _ =>
      split; [intros ? ? H1 H2; vm_compute in H1, H2; injection H1 as <-; injection H2 as <-;
              repeat split; cbn; try lia|]
  end.
  - repeat constructor; simpl; intuition discriminate.
  - repeat constructor; simpl; intuition discriminate.
Qed.

(** ** C36: the outcome of a call depends on the values of the containers it names, not on
    which of them are the same container.  The two calls below name containers holding the
    same values; in [st2] they may be distinct copies. *)
Theorem C36_aliasing_matrix_operations :
  forall (T : Type) (dflt : T) (eqb : T -> T -> bool) (st1 st2 : store T) (out1 out2 : nat)
    (m1 m2 : mask nat) (w : wargs T) (o1 o2 : mop T mref) (C : lil T) (m' : mask (lil T))
    (o' : mop T (mview T)),
    wfstore st1 -> wfstore st2 ->
    nth_error (mats st1) out1 = Some C -> nth_error (mats st2) out2 = Some C ->
    mask_look (mats st1) m1 = Some m' -> mask_look (mats st2) m2 = Some m' ->
    mop_look (mats st1) o1 = Some o' -> mop_look (mats st2) o2 = Some o' ->
    mop_pre C o' ->
    let r1 := step dflt eqb st1 (CMop out1 m1 w o1) in
    let r2 := step dflt eqb st2 (CMop out2 m2 w o2) in
    snd r1 = snd r2 /\
    nth_error (mats (fst r1)) out1 = nth_error (mats (fst r2)) out2 /\
    (forall k, k <> out1 -> nth_error (mats (fst r1)) k = nth_error (mats st1) k) /\
    vecs (fst r1) = vecs st1.
Proof. exact @alias_mop. Qed.
Print Assumptions C36_aliasing_matrix_operations.

Theorem C36_aliasing_vector_operations :
  forall (T : Type) (dflt : T) (eqb : T -> T -> bool) (st1 st2 : store T) (out1 out2 : nat)
    (m1 m2 : mask nat) (w : wargs T) (o1 o2 : vop T mref nat) (x : bvec T) (m' : mask (bvec T))
    (o' : vop T (mview T) (bvec T)),
    nth_error (vecs st1) out1 = Some x -> nth_error (vecs st2) out2 = Some x ->
    mask_look (vecs st1) m1 = Some m' -> mask_look (vecs st2) m2 = Some m' ->
    vop_look (mats st1) (vecs st1) o1 = Some o' -> vop_look (mats st2) (vecs st2) o2 = Some o' ->
    let r1 := step dflt eqb st1 (CVop out1 m1 w o1) in
    let r2 := step dflt eqb st2 (CVop out2 m2 w o2) in
    snd r1 = snd r2 /\
    nth_error (vecs (fst r1)) out1 = nth_error (vecs (fst r2)) out2 /\
    (forall k, k <> out1 -> nth_error (vecs (fst r1)) k = nth_error (vecs st1) k) /\
    mats (fst r1) = mats st1.
Proof. exact @alias_vop. Qed.
Print Assumptions C36_aliasing_vector_operations.

Theorem C36_aliasing_row_column_assignment :
  forall (T : Type) (dflt : T) (eqb : T -> T -> bool) (st1 st2 : store T) (out1 out2 : nat)
    (m1 m2 : mask nat) (w : wargs T) (o1 o2 : rop nat) (C : lil T) (m' : mask (bvec T))
    (o' : rop (bvec T)),
    nth_error (mats st1) out1 = Some C -> nth_error (mats st2) out2 = Some C ->
    mask_look (vecs st1) m1 = Some m' -> mask_look (vecs st2) m2 = Some m' ->
    rop_look (vecs st1) o1 = Some o' -> rop_look (vecs st2) o2 = Some o' ->
    let r1 := step dflt eqb st1 (CRop out1 m1 w o1) in
    let r2 := step dflt eqb st2 (CRop out2 m2 w o2) in
    snd r1 = snd r2 /\
    nth_error (mats (fst r1)) out1 = nth_error (mats (fst r2)) out2 /\
    (forall k, k <> out1 -> nth_error (mats (fst r1)) k = nth_error (mats st1) k) /\
    vecs (fst r1) = vecs st1.
Proof. exact @alias_rop. Qed.
Print Assumptions C36_aliasing_row_column_assignment.

(** One matrix as output, mask and both operands, against four copies. *)
Example C36_example :
  let st1 := mkStore [em_A] [] in
  let st2 := mkStore [em_A; em_A; em_A; em_A] [] in
  wfstore st1 /\ wfstore st2 /\
  mop_look (mats st1) (em_mxm (RMat 0) (RTrn 0)) = mop_look (mats st2) (em_mxm (RMat 2) (RTrn 3)) /\
  step 0%Z Z.eqb st1 (CMop 0 (MVal 0) em_w (em_mxm (RMat 0) (RTrn 0))) =
    (mkStore [mkLil 2 2 3 [[(0, 6%Z); (1, 8%Z)]; [(1, 12%Z)]]] [], Ok ADone) /\
  step 0%Z Z.eqb st2 (CMop 0 (MVal 1) em_w (em_mxm (RMat 2) (RTrn 3))) =
    (mkStore [mkLil 2 2 3 [[(0, 6%Z); (1, 8%Z)]; [(1, 12%Z)]]; em_A; em_A; em_A] [], Ok ADone).
Proof.
  cbv zeta. split; [split; repeat (apply Forall_cons; [wf_mat|]); apply Forall_nil|].
  split; [split; repeat (apply Forall_cons; [wf_mat|]); apply Forall_nil|].
  repeat split; reflexivity.
Qed.
