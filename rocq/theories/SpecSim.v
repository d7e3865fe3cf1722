(** Two runs of the same program over two scalar types: the calls are the same except for the
    scalars and operators in them. *)
From Verif Require Import Base ModelLil ModelVec ModelHelpers ModelViews ModelCalls ModelMachine SpecRel.

Section Sim.
Context {T T' : Type} (R : T -> T' -> Prop).

(** ** What the two runs leave: the same positions, related elements *)
Definition same_row (r : row T) (r' : row T') : Prop :=
  Forall2 (fun p p' => fst p = fst p' /\ R (snd p) (snd p')) r r'.
Definition same_lil (M : lil T) (M' : lil T') : Prop :=
  nrows M = nrows M' /\ ncols M = ncols M' /\ nvals M = nvals M' /\ Forall2 same_row (data M) (data M').
Definition same_vec (u : bvec T) (u' : bvec T') : Prop :=
  vsize u = vsize u' /\ vnvals u = vnvals u' /\ Forall2 R (vvals u) (vvals u') /\ vbits u = vbits u'.
Definition same_store (st : store T) (st' : store T') : Prop :=
  Forall2 same_lil (mats st) (mats st') /\ Forall2 same_vec (vecs st) (vecs st').

(** Both return related results, both throw the same exception, or both are undefined. *)
Definition same_res {A A' : Type} (RA : A -> A' -> Prop) (r : res A) (r' : res A') : Prop :=
  match r, r' with
  | Ok a, Ok a' => RA a a'
  | Throw e, Throw e' => e = e'
  | UB, UB => True
  | _, _ => False
  end.
Definition same_answer (a : answer T) (a' : answer T') : Prop :=
  match a, a' with
  | ADone, ADone => True
  | ABool b, ABool b' => b = b'
  | AVal v, AVal v' => R v v'
  | ANum n, ANum n' => n = n'
  | ATuples l, ATuples l' => Forall2 (fun p p' => fst p = fst p' /\ R (snd p) (snd p')) l l'
  | _, _ => False
  end.

(** ** Calls: the same containers, indices and output modes; related scalars and operators *)
Context (eqb : T -> T -> bool) (eqb' : T' -> T' -> bool).

Definition same_mcall (c : mcall T) (c' : mcall T') : Prop :=
  match c, c' with
  | MNew nr nc, MNew nr' nc' => nr = nr' /\ nc = nc'
  | MCopy s, MCopy s' => s = s'
  | MDense vs, MDense vs' => Forall2 (Forall2 R) vs vs'
  | MDenseZero vs z, MDenseZero vs' z' => Forall2 (Forall2 R) vs vs' /\ R z z' /\ rel2 R R eq eqb eqb'
  | MAssign d s, MAssign d' s' => d = d' /\ s = s'
  | MEq a b, MEq a' b' => a = a' /\ b = b' /\ rel2 R R eq eqb eqb'
  | MBuild k f is js vs, MBuild k' f' is' js' vs' =>
      k = k' /\ rel2 R R R f f' /\ is = is' /\ js = js' /\ Forall2 R vs vs'
  | MClear k, MClear k' => k = k'
  | MNvals k, MNvals k' => k = k'
  | MResize k nr nc, MResize k' nr' nc' => k = k' /\ nr = nr' /\ nc = nc'
  | MHas k i j, MHas k' i' j' => k = k' /\ i = i' /\ j = j'
  | MSet k i j v, MSet k' i' j' v' => k = k' /\ i = i' /\ j = j' /\ R v v'
  | MSetMerge k i j v f, MSetMerge k' i' j' v' f' => k = k' /\ i = i' /\ j = j' /\ R v v' /\ rel2 R R R f f'
  | MRemove k i j, MRemove k' i' j' => k = k' /\ i = i' /\ j = j'
  | MExtract k i j, MExtract k' i' j' => k = k' /\ i = i' /\ j = j'
  | MTuples k, MTuples k' => k = k'
  | _, _ => False
  end.

Definition same_vcall (c : vcall T) (c' : vcall T') : Prop :=
  match c, c' with
  | VNew n, VNew n' => n = n'
  | VFill n v, VFill n' v' => n = n' /\ R v v'
  | VDense vs, VDense vs' => Forall2 R vs vs'
  | VDenseZero vs z, VDenseZero vs' z' => Forall2 R vs vs' /\ R z z' /\ rel2 R R eq eqb eqb'
  | VCopy s, VCopy s' => s = s'
  | VAssign d s, VAssign d' s' => d = d' /\ s = s'
  | VAssignDense d vs, VAssignDense d' vs' => d = d' /\ Forall2 R vs vs'
  | VEq a b, VEq a' b' => a = a' /\ b = b' /\ rel2 R R eq eqb eqb'
  | VBuild k f is vs, VBuild k' f' is' vs' => k = k' /\ rel2 R R R f f' /\ is = is' /\ Forall2 R vs vs'
  | VClear k, VClear k' => k = k'
  | VNvals k, VNvals k' => k = k'
  | VResize k n, VResize k' n' => k = k' /\ n = n'
  | VHas k i, VHas k' i' => k = k' /\ i = i'
  | VSet k i v, VSet k' i' v' => k = k' /\ i = i' /\ R v v'
  | VRemove k i, VRemove k' i' => k = k' /\ i = i'
  | VExtract k i, VExtract k' i' => k = k' /\ i = i'
  | VTuples k, VTuples k' => k = k'
  | _, _ => False
  end.

Definition same_mop (o : mop T mref) (o' : mop T' mref) : Prop :=
  match o, o' with
  | OMxm add mult multS tc ct A B, OMxm add' mult' multS' tc' ct' A' B' =>
      rel2 R R R add add' /\ rel2 R R R mult mult' /\ rel2 R R R multS multS' /\ rel1 R R tc tc' /\ rel1 R R ct ct' /\ A = A' /\ B = B'
  | OEwiseMult op opA ba A B, OEwiseMult op' opA' ba' A' B' =>
      rel2 R R R op op' /\ rel2 R R R opA opA' /\ rel1 R R ba ba' /\ A = A' /\ B = B'
  | OEwiseAdd op c1 c2 opA c2A ba A B, OEwiseAdd op' c1' c2' opA' c2A' ba' A' B' =>
      rel2 R R R op op' /\ rel1 R R c1 c1' /\ rel1 R R c2 c2' /\ rel2 R R R opA opA' /\ rel1 R R c2A c2A' /\ rel1 R R ba ba' /\ A = A' /\ B = B'
  | OApply f A, OApply f' A' => rel1 R R f f' /\ A = A'
  | OTranspose A, OTranspose A' => A = A'
  | OKron op A B, OKron op' A' B' => rel2 R R R op op' /\ A = A' /\ B = B'
  | OExtract A rs cs, OExtract A' rs' cs' => A = A' /\ rs = rs' /\ cs = cs'
  | OAssign A rs cs, OAssign A' rs' cs' => A = A' /\ rs = rs' /\ cs = cs'
  | OAssignC v rs cs, OAssignC v' rs' cs' => R v v' /\ rs = rs' /\ cs = cs'
  | _, _ => False
  end.

Definition same_vop (o : vop T mref nat) (o' : vop T' mref nat) : Prop :=
  match o, o' with
  | OMxv add mult multS A u, OMxv add' mult' multS' A' u' =>
      rel2 R R R add add' /\ rel2 R R R mult mult' /\ rel2 R R R multS multS' /\ A = A' /\ u = u'
  | OVxm add mult u A, OVxm add' mult' u' A' => rel2 R R R add add' /\ rel2 R R R mult mult' /\ A = A' /\ u = u'
  | OEwiseMultV op u v, OEwiseMultV op' u' v' => rel2 R R R op op' /\ u = u' /\ v = v'
  | OEwiseAddV op c1 c2 u v, OEwiseAddV op' c1' c2' u' v' =>
      rel2 R R R op op' /\ rel1 R R c1 c1' /\ rel1 R R c2 c2' /\ u = u' /\ v = v'
  | OApplyV f u, OApplyV f' u' => rel1 R R f f' /\ u = u'
  | OReduce c1 op01 op A, OReduce c1' op01' op' A' => rel1 R R c1 c1' /\ rel2 R R R op01 op01' /\ rel2 R R R op op' /\ A = A'
  | OExtractV u s, OExtractV u' s' => u = u' /\ s = s'
  | OExtractCol A rs c, OExtractCol A' rs' c' => A = A' /\ rs = rs' /\ c = c'
  | OAssignV u s, OAssignV u' s' => u = u' /\ s = s'
  | OAssignCV v s, OAssignCV v' s' => R v v' /\ s = s'
  | _, _ => False
  end.

Definition same_sop (o : sop T nat nat) (o' : sop T' nat nat) : Prop :=
  match o, o' with
  | OReduceVS id c1 op01 op val u, OReduceVS id' c1' op01' op' val' u' =>
      R id id' /\ rel1 R R c1 c1' /\ rel2 R R R op01 op01' /\ rel2 R R R op op' /\ R val val' /\ u = u'
  | OReduceMS id c1 op01 op op2 val A, OReduceMS id' c1' op01' op' op2' val' A' =>
      R id id' /\ rel1 R R c1 c1' /\ rel2 R R R op01 op01' /\ rel2 R R R op op' /\ rel2 R R R op2 op2' /\ R val val' /\ A = A'
  | _, _ => False
  end.

(** The conversion of mask elements to [bool] matters only for masks used by value. *)
Definition same_truth (m : mask nat) (tr : T -> bool) (tr' : T' -> bool) : Prop :=
  match m with
  | MVal _ | MComp _ => rel1 R eq tr tr'
  | _ => True
  end.
Definition same_wargs (m : mask nat) (w : wargs T) (w' : wargs T') : Prop :=
  same_truth m (w_truthy w) (w_truthy w') /\ rel1 R R (w_cz w) (w_cz w') /\ rel1 R R (w_zc w) (w_zc w') /\
  accrel R R R (w_acc w) (w_acc w') /\ w_outp w = w_outp w'.

Definition same_call (c : call T) (c' : call T') : Prop :=
  match c, c' with
  | CMat c, CMat c' => same_mcall c c'
  | CVec c, CVec c' => same_vcall c c'
  | CMop out m w o, CMop out' m' w' o' => out = out' /\ m = m' /\ same_wargs m w w' /\ same_mop o o'
  | CVop out m w o, CVop out' m' w' o' => out = out' /\ m = m' /\ same_wargs m w w' /\ same_vop o o'
  | CRop out m w o, CRop out' m' w' o' => out = out' /\ m = m' /\ same_wargs m w w' /\ o = o'
  | CSop w o, CSop w' o' => same_wargs NoMask w w' /\ same_sop o o'
  | _, _ => False
  end.
End Sim.
