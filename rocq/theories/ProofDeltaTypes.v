(** Delta stepping over a scalar type whose values stand for bounded integers runs alike with delta stepping over the integers. *)
From Coq Require Import Lia ZArith Floats.SpecFloat.
From Verif Require Import Base ModelLil ModelVec ModelHelpers ModelViews ModelMul ModelElem ModelIndex ModelAlgoBase ModelDelta
  ModelAlgebra ModelFloat ModelFsssp ModelInts ModelIntPaths ModelMstTypes ModelDeltaTypes
  Spec SpecOps SpecAlgebra SpecFloats SpecInts SpecIntPaths
  ProofBase ProofLil ProofVec ProofGraph ProofVis ProofRel ProofLaws ProofFloat ProofInts ProofExact ProofIntPaths ProofFloatOps SpecRel.
Local Open Scope Z_scope.

(** ** Related vectors of size [N] *)
Section Sized.
Context (N : nat).
Definition vr {A A'} (R : A -> A' -> Prop) (u : bvec A) (u' : bvec A') : Prop := vrel R u u' /\ vsize u = N.
Lemma vr_vis {A A'} (R : A -> A' -> Prop) u u' : vr R u u' -> vis N u (vget u) /\ vis N u' (vget u').
Proof. intros [(W & W' & E & _) S]. split; (split; [auto|split; [congruence|auto]]). Qed.
Lemma vr_get {A A'} (R : A -> A' -> Prop) u u' i : vr R u u' -> orel R (vget u i) (vget u' i).
Proof. intros [(_ & _ & _ & G) _]. apply G. Qed.
Lemma vr_of {A A'} (R : A -> A' -> Prop) u u' f f' : vis N u f -> vis N u' f' -> (forall i, (i < N)%nat -> orel R (f i) (f' i)) -> vr R u u'.
Proof.
  intros V V' H. pose proof V as (W & S & G). pose proof V' as (W' & S' & G'). split; [|auto].
  split; [auto|]. split; [auto|]. split; [congruence|]. intro i. destruct (Nat.lt_ge_cases i N) as [Hi|Hi].
  - rewrite G, G' by auto. auto.
  - rewrite (vis_oob _ _ _ _ V Hi), (vis_oob _ _ _ _ V' Hi). exact I.
Qed.
Lemma vr_impl {A A'} (R R' : A -> A' -> Prop) u u' : (forall x y, R x y -> R' x y) -> vr R u u' -> vr R' u u'.
Proof. intros H [V S]. split; [|auto]. revert V. apply vrel_impl. auto. Qed.
Lemma vr_nvals {A A'} (R : A -> A' -> Prop) u u' : vr R u u' -> vnvals u = vnvals u'.
Proof. intros [V _]. eapply vrel_nvals; eauto. Qed.

(** Masks that allow the same positions. *)
Definition samemask {X X'} (tr : X -> bool) (tr' : X' -> bool) (m : mask (bvec X)) (m' : mask (bvec X')) (b : nat -> bool) : Prop :=
  vmis N tr m b /\ vmis N tr' m' b.
Lemma same_none {X X'} (tr : X -> bool) (tr' : X' -> bool) : samemask tr tr' NoMask NoMask (fun _ => true).
Proof. split; apply vmis_none. Qed.
Lemma same_val {X X'} (RM : X -> X' -> Prop) (tr : X -> bool) (tr' : X' -> bool) u u' : rel1 RM eq tr tr' -> vr RM u u' ->
  samemask tr tr' (MVal u) (MVal u') (fun i => otrue tr (vget u i)).
Proof.
  intros T V. destruct (vr_vis _ _ _ V) as [V1 V2]. split; [apply vmis_val; auto|].
  destruct (vmis_val N tr' u' _ V2) as (W & F & H). split; [auto|]. split; [auto|]. intros i Hi. rewrite H by auto.
  symmetry. apply (otrue_rel RM); auto. apply vr_get; auto.
Qed.

Lemma wr_rel {A A'} (R : A -> A' -> Prop) b outp o o' p p' : orel R o o' -> orel R p p' -> orel R (wr b outp o p) (wr b outp o' p').
Proof. intros. unfold wr. destruct b; auto. destruct outp; simpl; auto. Qed.

Section Ops.
Context {A A' B B' C C' X X' : Type} (RA : A -> A' -> Prop) (RB : B -> B' -> Prop) (RC : C -> C' -> Prop).
Context (tr : X -> bool) (tr' : X' -> bool) (m : mask (bvec X)) (m' : mask (bvec X')) (b : nat -> bool) (outp : outmode).
Hypothesis Hm : samemask tr tr' m m' b.

Lemma vr_apply f f' w w' u u' : rel1 RA RC f f' -> vr RC w w' -> vr RA u u' ->
  exists r r', apply_v f tr idc (NoAcc idc) m outp w u = Ok r /\ apply_v f' tr' idc (NoAcc idc) m' outp w' u' = Ok r' /\ vr RC r r' /\
    vis N r (fun i => wr (b i) outp (vget w i) (option_map f (vget u i))).
Proof.
  intros Hf Hw Hu. destruct (vr_vis _ _ _ Hw) as [W1 W2]. destruct (vr_vis _ _ _ Hu) as [U1 U2]. destruct Hm as [M1 M2].
  destruct (vis_apply N f tr m b outp _ _ _ _ W1 U1 M1) as (r & E & V).
  destruct (vis_apply N f' tr' m' b outp _ _ _ _ W2 U2 M2) as (r' & E' & V').
  exists r, r'. split; [auto|]. split; [auto|]. split; [|auto]. apply (vr_of _ _ _ _ _ V V').
  intros i Hi. apply wr_rel; [apply vr_get; auto|]. eapply orel_map; [exact Hf|apply vr_get; auto].
Qed.
Lemma vr_add f f' c1 c1' c2 c2' w w' u u' v v' : rel2 RA RB RC f f' -> rel1 RA RC c1 c1' -> rel1 RB RC c2 c2' ->
  vr RC w w' -> vr RA u u' -> vr RB v v' ->
  exists r r', eWiseAdd_v f c1 c2 tr idc (NoAcc idc) m outp w u v = Ok r /\
    eWiseAdd_v f' c1' c2' tr' idc (NoAcc idc) m' outp w' u' v' = Ok r' /\ vr RC r r' /\
    vis N r (fun i => wr (b i) outp (vget w i) (ounion f c1 c2 (vget u i) (vget v i))).
Proof.
  intros Hf H1 H2 Hw Hu Hv. destruct (vr_vis _ _ _ Hw) as [W1 W2]. destruct (vr_vis _ _ _ Hu) as [U1 U2].
  destruct (vr_vis _ _ _ Hv) as [V1 V2]. destruct Hm as [M1 M2].
  destruct (vis_add N f c1 c2 tr m b outp _ _ _ _ _ _ W1 U1 V1 M1) as (r & E & V).
  destruct (vis_add N f' c1' c2' tr' m' b outp _ _ _ _ _ _ W2 U2 V2 M2) as (r' & E' & V').
  exists r, r'. split; [auto|]. split; [auto|]. split; [|auto]. apply (vr_of _ _ _ _ _ V V').
  intros i Hi. apply wr_rel; [apply vr_get; auto|]. eapply (orel_union RA RB); eauto using vr_get.
Qed.
Lemma vr_vxm add add' mul mul' w w' u u' M M' : rel2 RC RC RC add add' -> rel2 RA RB RC mul mul' ->
  vr RC w w' -> vr RA u u' -> mrel RB M M' -> nrows M = N -> ncols M = N ->
  exists r r', vxm add mul tr idc (NoAcc idc) m outp w u (Mat M) = Ok r /\
    vxm add' mul' tr' idc (NoAcc idc) m' outp w' u' (Mat M') = Ok r' /\ vr RC r r'.
Proof.
  intros Ha Hmul Hw Hu (WM & WM' & ER & EC & GM) RM CM. destruct (vr_vis _ _ _ Hw) as [W1 W2]. destruct (vr_vis _ _ _ Hu) as [U1 U2].
  destruct Hm as [M1 M2].
  assert (S1 : sq N M (mget M)) by (split; auto).
  assert (S2 : sq N M' (mget M')) by (split; [auto|split; [congruence|split; [congruence|auto]]]).
  destruct (vis_vxm N add mul tr m b outp _ _ M _ _ _ W1 U1 S1 M1) as (r & E & V).
  destruct (vis_vxm N add' mul' tr' m' b outp _ _ M' _ _ _ W2 U2 S2 M2) as (r' & E' & V').
  exists r, r'. split; [auto|]. split; [auto|]. apply (vr_of _ _ _ _ _ V V').
  intros i Hi. apply wr_rel; [apply vr_get; auto|]. apply osum_rel; auto. apply Forall2_maps. intro k.
  eapply (orel_map2 RA RB); eauto using vr_get.
Qed.
End Ops.
End Sized.

Section Delta.
Context {D : Type} (R : Z -> D -> Prop) (B : Z).
Context (leb ltb : D -> D -> bool) (min plus times : D -> D -> D) (dtrue : D -> bool) (ofb : bool -> D)
  (ofn : nat -> D) (zero : D) (chk : D -> res D) (chkv : bvec D -> res (bvec D)).
Hypothesis R_leb : rel2 R R eq Z.leb leb.
Hypothesis R_ltb : rel2 R R eq Z.ltb ltb.
Hypothesis R_min : rel2 R R R zmin min.
Hypothesis R_plus : forall a x b y, Z.abs a <= B -> Z.abs b <= B -> Z.abs (a + b) <= B -> R a x -> R b y -> R (a + b) (plus x y).
Hypothesis R_times : forall a x b y, Z.abs a <= B -> Z.abs b <= B -> Z.abs (a * b) <= B -> R a x -> R b y -> R (a * b) (times x y).
Hypothesis R_true : rel1 R eq ztrue dtrue.
Hypothesis R_bool : forall b, R (bz b) (ofb b).
Hypothesis R_nat : forall i, Z.of_nat i <= B -> R (Z.of_nat i) (ofn i).
Hypothesis R_0 : R 0 zero.
Hypothesis chk_ok : forall z x, R z x -> chk x = Ok x.
Hypothesis chkv_ok : forall u u', vrel R u u' -> chkv u' = Ok u'.

Context (G : lil Z) (G' : lil D) (N src : nat) (delta W : Z) (delta' : D).
Hypothesis HG : mrel R G G'.
Hypothesis RG : nrows G = N.
Hypothesis CG : ncols G = N.
Hypothesis Hsrc : (src < N)%nat.
Hypothesis Hdelta : 0 < delta.
Hypothesis Rdelta : R delta delta'.
Hypothesis W0 : 0 <= W.
Hypothesis HW : forall u v g, mget G u v = Some g -> 0 <= g <= W.
Hypothesis B1 : Z.of_nat N * W <= B.
Hypothesis B2 : (Z.of_nat N - 1) * W + delta <= B.

Definition bd (M z : Z) (x : D) : Prop := R z x /\ 0 <= z <= M.
Lemma bd_R M z x : bd M z x -> R z x.
Proof. intros [H _]. auto. Qed.
Lemma bd_le M M' z x : M <= M' -> bd M z x -> bd M' z x.
Proof. intros L [H K]. split; [auto|lia]. Qed.
Lemma bd_min M : rel2 (bd M) (bd M) (bd M) zmin min.
Proof. intros a x b y [H1 L1] [H2 L2]. split; [apply R_min; auto|]. unfold zmin. destruct (a <? b); lia. Qed.
Lemma bd_plus M M' : M + M' <= B -> rel2 (bd M) (bd M') (bd (M + M')) Z.add plus.
Proof. intros L a x b y [H1 L1] [H2 L2]. split; [apply R_plus; auto; lia|lia]. Qed.
Lemma bd_id M M' : M <= M' -> rel1 (bd M) (bd M') idc idc.
Proof. intros L a x H. eapply bd_le; eauto. Qed.
Lemma eq_id {T} : rel1 (@eq T) eq idc idc.
Proof. intros a b ->. auto. Qed.
Lemma eq_orb : rel2 (@eq bool) eq eq orb orb.
Proof. intros a b c d -> ->. auto. Qed.
Lemma eq_btrue : rel1 (@eq bool) eq btrue btrue.
Proof. intros a b ->. auto. Qed.
Lemma eq_bool : rel1 (@eq bool) eq (fun b => ztrue (bz b)) (fun b => dtrue (ofb b)).
Proof. intros a b ->. apply R_true, R_bool. Qed.
Lemma bd_pred M (p : Z -> bool) (p' : D -> bool) : rel1 R eq p p' -> rel1 (bd M) eq p p'.
Proof. intros H z x [E _]. apply H. auto. Qed.

Let N0 : N <> O.
Proof. intro E. rewrite E in Hsrc. inversion Hsrc. Qed.

(** ** The products [i * delta] *)
Lemma low_rel i : ds_low delta i <= (Z.of_nat N - 1) * W + delta -> exists x, gds_low times ofn chk delta' i = Ok x /\ R (ds_low delta i) x.
Proof.
  intro L. unfold ds_low in *. exists (times (ofn i) delta').
  assert (H : R (Z.of_nat i * delta) (times (ofn i) delta')).
  { assert (0 <= (Z.of_nat N - 1) * W) by (apply Z.mul_nonneg_nonneg; lia).
    assert (Z.of_nat i <= Z.of_nat i * delta) by nia.
    apply R_times; auto; try lia. apply R_nat. lia. }
  split; [|auto]. unfold gds_low. eapply chk_ok; eauto.
Qed.

(** ** The two matrices of edges *)
Lemma select_rel (p : Z -> bool) (p' : D -> bool) : rel1 R eq p p' ->
  exists A A', ds_select p N G = Ok A /\ gds_select dtrue ofb p' N G' = Ok A' /\ mrel (bd W) A A' /\ nrows A = N /\ ncols A = N.
Proof.
  intro Hp. unfold ds_select, gds_select. pose proof HG as (WG & WG' & ER & EC & GG).
  assert (SG : sq N G (mget G)) by (split; auto).
  assert (SG' : sq N G' (mget G')) by (split; [auto|split; [congruence|split; [congruence|auto]]]).
  destruct (sq_apply N (fun x => bz (p x)) btrue mnomask _ MERGE _ G _ _ (sq_new N) SG (mmis_none N btrue)) as (A & -> & HA). cbn [bind].
  destruct (sq_apply N (fun x => ofb (p' x)) btrue mnomask _ MERGE _ G' _ _ (sq_new N) SG' (mmis_none N btrue)) as (A' & -> & HA'). cbn [bind].
  destruct (sq_apply N (@idc Z) ztrue (MVal A) _ REPLACE _ G _ _ HA SG (mmis_val N ztrue A _ HA)) as (C & -> & HC).
  destruct (sq_apply N (@idc D) dtrue (MVal A') _ REPLACE _ G' _ _ HA' SG' (mmis_val N dtrue A' _ HA')) as (C' & -> & HC').
  exists C, C'. split; [auto|]. split; [auto|]. pose proof HC as (WC & RC & CC & GC). pose proof HC' as (WC' & RC' & CC' & GC').
  split; [|auto]. split; [auto|]. split; [auto|]. split; [congruence|]. split; [congruence|].
  intros i j. destruct (Nat.lt_ge_cases i N) as [Hi|Hi], (Nat.lt_ge_cases j N) as [Hj|Hj].
  2-4: rewrite !mget_oob by (auto; lia); exact I.
  rewrite GC, GC' by auto. simpl. unfold wr. specialize (GG i j).
  destruct (mget G i j) as [z|] eqn:Ez, (mget G' i j) as [x|]; simpl in GG; try contradiction; simpl.
  - pose proof (Hp z x GG) as E. cbv beta in E. rewrite (R_true _ _ (R_bool (p z))). rewrite E.
    destruct (dtrue (ofb (p' x))); simpl; auto. split; [auto|]. eapply HW; eauto.
  - auto.
Qed.

(** ** The states *)
Definition bnd (t : bvec Z) : Z := (vnvals t - 1) * W.
Definition dsr (x : ds_state) (x' : gds_state (D := D)) : Prop :=
  vr N (bd (bnd (ds_t x))) (ds_t x) (gds_t x') /\ vr N (bd (bnd (ds_t x))) (ds_masked x) (gds_masked x') /\
  vr N (bd (Z.of_nat N * W)) (ds_req x) (gds_req x') /\ vr N eq (ds_bi x) (gds_bi x') /\ vr N eq (ds_comp x) (gds_comp x') /\
  vr N eq (ds_less x) (gds_less x') /\ vr N eq (ds_s x) (gds_s x') /\ ds_i x = gds_i x'.

Lemma nvals_le {T} (u : bvec T) f : vis N u f -> vnvals u <= Z.of_nat N.
Proof. intro V. rewrite (vis_nvals _ _ _ V). pose proof (vcount_le_N N f). lia. Qed.
Lemma bnd_le t f : vis N t f -> bnd t <= (Z.of_nat N - 1) * W.
Proof. intro V. pose proof (nvals_le t f V). unfold bnd. apply Z.mul_le_mono_nonneg_r; lia. Qed.

Lemma vcount_mono {T U} (f : nat -> option T) (g : nat -> option U) :
  (forall i, (i < N)%nat -> f i <> None -> g i <> None) -> (vcount N f <= vcount N g)%nat.
Proof.
  intro H. destruct (Nat.le_gt_cases (vcount N f) (vcount N g)) as [|L]; auto. exfalso.
  assert (K : forall M, (forall i, (i < M)%nat -> f i <> None -> g i <> None) -> (vcount M f <= vcount M g)%nat).
  { clear. intro M. unfold vcount. induction M as [|M IH]; intro H; [auto|]. rewrite seq_S, !filter_app, !app_length. simpl.
    specialize (IH (fun i Hi => H i (Nat.lt_lt_succ_r _ _ Hi))). specialize (H M (Nat.lt_succ_diag_r M)).
    destruct (f M), (g M); simpl; try lia. exfalso. apply H; congruence. }
  specialize (K N H). lia.
Qed.

(** [t = min(t, tReq)] *)
Lemma relax_rel t t' q q' : vr N (bd (bnd t)) t t' -> vr N (bd (bnd t + W)) q q' ->
  exists r r', eWiseAdd_v zmin idc idc btrue idc (NoAcc idc) vnomask MERGE t t q = Ok r /\
    eWiseAdd_v min idc idc btrue idc (NoAcc idc) vnomask MERGE t' t' q' = Ok r' /\
    vr N (bd (bnd r)) r r' /\ bnd t <= bnd r.
Proof.
  intros Ht Hq. assert (L : bnd t <= bnd t + W) by lia.
  assert (Ht' : vr N (bd (bnd t + W)) t t') by (eapply vr_impl; [|exact Ht]; intros; eapply bd_le; eauto).
  destruct (vr_add N (bd (bnd t + W)) (bd (bnd t + W)) (bd (bnd t + W)) btrue btrue vnomask vnomask _ MERGE (same_none N btrue btrue)
              zmin min idc idc idc idc t t' t t' q q' (bd_min _) (bd_id _ _ (Z.le_refl _)) (bd_id _ _ (Z.le_refl _)) Ht' Ht' Hq)
    as (r & r' & E & E' & V & VR).
  exists r, r'. split; [auto|]. split; [auto|].
  assert (VR' : vis N r (fun i => ounion zmin idc idc (vget t i) (vget q i))) by (eapply vis_ext; [exact VR|]; reflexivity).
  destruct (vr_vis _ _ _ _ Ht) as [VT _].
  assert (C : vnvals t <= vnvals r).
  { rewrite (vis_nvals _ _ _ VT), (vis_nvals _ _ _ VR'). apply Nat2Z.inj_le. apply vcount_mono.
    intros i Hi Hn. destruct (vget t i); [|congruence]. destruct (vget q i); simpl; congruence. }
  assert (LB : bnd t <= bnd r) by (unfold bnd; apply Z.mul_le_mono_nonneg_r; lia).
  split; [|auto]. split; [|apply V]. destruct V as [(Wr & Wr' & Er & Gr) Sr]. split; [auto|]. split; [auto|]. split; [auto|].
  intro i. specialize (Gr i). destruct (vget r i) as [z|] eqn:Ez; [|destruct (vget r' i); auto].
  destruct (vget r' i) as [y|]; [|auto]. simpl in Gr |- *. destruct Gr as [Hz Lz]. split; [auto|]. split; [lia|].
  assert (Hi : (i < N)%nat).
  { destruct (Nat.lt_ge_cases i N); auto. rewrite (vis_oob _ _ _ _ VR') in Ez by auto. discriminate. }
  pose proof (vis_get _ _ _ _ VR' Hi) as E1. rewrite Ez in E1.
  pose proof (vr_get N _ _ _ i Ht) as Gt. pose proof (vr_get N _ _ _ i Hq) as Gq.
  destruct (vget t i) as [a|] eqn:Ea.
  - assert (La : a <= bnd t) by (destruct (vget t' i); [apply Gt|contradiction]).
    assert (z <= a); [|lia]. destruct (vget q i); simpl in E1; injection E1 as ->; unfold idc, zmin; [|lia].
    destruct (Z.ltb_spec a z0); lia.
  - assert (C1 : (vcount N (vget t) < vcount N (fun i => ounion zmin idc idc (vget t i) (vget q i)))%nat).
    { apply (vcount_lt N _ _ i); auto.
      - intros k Hk Hn. destruct (vget t k); [|congruence]. destruct (vget q k); simpl; congruence.
      - rewrite Ea, <- E1. congruence. }
    assert (C2 : vnvals t + 1 <= vnvals r) by (rewrite (vis_nvals _ _ _ VT), (vis_nvals _ _ _ VR'); lia).
    unfold bnd in *. assert ((vnvals t - 1) * W + W <= (vnvals r - 1) * W) by nia. lia.
Qed.

(** [tReq] *)
Lemma request_rel t t' m m' q q' A A' : vr N (bd (bnd t)) t t' -> vr N (bd (bnd t)) m m' -> vr N (bd (Z.of_nat N * W)) q q' ->
  mrel (bd W) A A' -> nrows A = N -> ncols A = N ->
  exists r r', vxm zmin Z.add btrue idc (NoAcc idc) vnomask MERGE q m (Mat A) = Ok r /\
    (r <- vxm min plus btrue idc (NoAcc idc) vnomask MERGE q' m' (Mat A') ;; chkv r) = Ok r' /\
    vr N (bd (bnd t + W)) r r' /\ vr N (bd (Z.of_nat N * W)) r r'.
Proof.
  intros Ht Hm Hq HA RA CA. destruct (vr_vis _ _ _ _ Ht) as [VT _]. pose proof (bnd_le t _ VT) as LB.
  assert (L : bnd t + W <= Z.of_nat N * W) by nia.
  assert (LP : bnd t + W <= B) by lia.
  assert (Hq0 : vr N (bd (bnd t + W)) (vec_clear q) (vec_clear q')).
  { destruct (vr_vis _ _ _ _ Hq) as [V1 V2].
    apply (vr_of N _ _ _ (fun _ => None) (fun _ => None)); [apply vis_clear; apply V1|apply vis_clear; apply V2|]. intros; exact I. }
  (* without a mask the old contents do not matter *)
  assert (X : forall T (add : T -> T -> T) TA (mul : T -> TA -> T) (a b : bvec T) M r, wfm M -> nrows M = N -> ncols M = N ->
    (exists f, vis N a f) -> (exists f, vis N b f) ->
    vxm add mul btrue idc (NoAcc idc) vnomask MERGE (vec_clear a) b (Mat M) = Ok r ->
    exists r1, vxm add mul btrue idc (NoAcc idc) vnomask MERGE a b (Mat M) = Ok r1 /\ wfv r1 /\ vsize r1 = N /\ forall i, vget r1 i = vget r i).
  { intros T add TA mul a b M r WM RM CM (fa & Va) (fb & Vb) E.
    assert (SM : sq N M (mget M)) by (split; auto).
    destruct (vis_vxm N add mul btrue vnomask _ MERGE _ _ M _ _ _ Va Vb SM (vmis_none N btrue)) as (r1 & E1 & V1).
    assert (Vc : vis N (vec_clear a) (fun _ => None)) by (apply vis_clear; apply Va).
    destruct (vis_vxm N add mul btrue vnomask _ MERGE _ _ M _ _ _ Vc Vb SM (vmis_none N btrue)) as (r2 & E2 & V2).
    assert (r2 = r) by congruence. subst r2. exists r1. split; [auto|]. split; [apply V1|]. split; [apply V1|].
    intro i. destruct (Nat.lt_ge_cases i N) as [Hi|Hi].
    - rewrite (vis_get _ _ _ _ V1 Hi), (vis_get _ _ _ _ V2 Hi). reflexivity.
    - rewrite (vis_oob _ _ _ _ V1 Hi), (vis_oob _ _ _ _ V2 Hi). reflexivity. }
  destruct (vr_vxm N (bd (bnd t)) (bd W) (bd (bnd t + W)) btrue btrue vnomask vnomask _ MERGE (same_none N btrue btrue)
              zmin min Z.add plus _ _ m m' A A' (bd_min _) (bd_plus _ _ LP) Hq0 Hm HA RA CA) as (r & r' & E & E' & V).
  pose proof HA as (WA & WA' & ER & EC & _).
  destruct (vr_vis _ _ _ _ Hq) as [Q1 Q2]. destruct (vr_vis _ _ _ _ Hm) as [M1 M2].
  destruct (X _ _ _ _ q m A r WA RA CA (ex_intro _ _ Q1) (ex_intro _ _ M1) E) as (r1 & F & F1 & F2 & F3).
  destruct (X _ _ _ _ q' m' A' r' WA' ltac:(congruence) ltac:(congruence) (ex_intro _ _ Q2) (ex_intro _ _ M2) E') as (r1' & F' & F1' & F2' & F3').
  assert (V1 : vr N (bd (bnd t + W)) r1 r1').
  { split; [|auto]. split; [auto|]. split; [auto|]. split; [congruence|]. intro i. rewrite F3, F3'. apply (vr_get N _ _ _ i V). }
  exists r1, r1'. split; [auto|]. split.
  - rewrite F'. cbn [bind]. apply (chkv_ok r1). apply (vrel_impl (bd (bnd t + W))); [intros; eapply bd_R; eauto|apply V1].
  - split; [auto|]. eapply vr_impl; [|exact V1]. intros. eapply bd_le; eauto.
Qed.

Lemma range_rel l x h y : R l x -> R h y -> rel1 R eq (in_range l h) (gin_range leb ltb x y).
Proof.
  intros Hx Hy z v Hz. unfold in_range, gin_range. rewrite (R_leb l x z v), (R_ltb z v h y); auto.
Qed.

Lemma inner_rel (rng : D -> bool) AL AL' x x' :
  rel1 R eq (in_range (ds_low delta (ds_i x)) (ds_low delta (ds_i x + 1))) rng -> mrel (bd W) AL AL' -> nrows AL = N -> ncols AL = N ->
  dsr x x' ->
  exists y y', ds_inner_body delta AL x = Ok y /\ gds_inner_body ltb min plus dtrue chkv rng AL' x' = Ok y' /\ dsr y y' /\ ds_i y = ds_i x.
Proof.
  intros Hr HA RA CA (T & M & Q & Bi & Co & Le & S & Ei). unfold ds_inner_body, gds_inner_body.
  destruct (request_rel _ _ _ _ _ _ _ _ T M Q HA RA CA) as (q & q' & -> & E' & Q1 & Q2). cbn [bind].
  match goal with |- context [bind ?a _] => match a with vxm min _ _ _ _ _ _ _ _ _ => remember a as v eqn:Ev end end.
  destruct v as [v| |]; cbn [bind] in E' |- *; try discriminate. rewrite E'. cbn [bind].
  destruct (vr_add N eq eq eq btrue btrue vnomask vnomask _ MERGE (same_none N btrue btrue) orb orb idc idc idc idc _ _ _ _ _ _ eq_orb eq_id eq_id S S Bi)
    as (s & s' & -> & -> & S1 & _). cbn [bind].
  assert (Q3 : vr N R q q') by (eapply vr_impl; [|exact Q1]; intros; eapply bd_R; eauto).
  assert (T3 : vr N R (ds_t x) (gds_t x')) by (eapply vr_impl; [|exact T]; intros; eapply bd_R; eauto).
  destruct (vr_add N R R eq ztrue dtrue (MVal q) (MVal q') _ REPLACE (same_val N R ztrue dtrue q q' R_true Q3) Z.ltb ltb ztrue dtrue ztrue dtrue
              _ _ _ _ _ _ R_ltb R_true R_true Le Q3 T3) as (l & l' & -> & -> & L1 & _). cbn [bind].
  destruct (vr_apply N R eq btrue btrue (MVal l) (MVal l') _ REPLACE (same_val N eq btrue btrue l l' eq_btrue L1) _ _ _ _ _ _ Hr Bi Q3)
    as (b & b' & -> & -> & B1' & _). cbn [bind].
  destruct (relax_rel _ _ _ _ T Q1) as (t & t' & -> & -> & T1 & LB). cbn [bind].
  assert (M1 : vr N (bd (bnd t)) (ds_masked x) (gds_masked x')) by (eapply vr_impl; [|exact M]; intros; eapply bd_le; eauto).
  destruct (vr_apply N (bd (bnd t)) (bd (bnd t)) btrue btrue (MVal b) (MVal b') _ REPLACE (same_val N eq btrue btrue b b' eq_btrue B1') idc idc
              _ _ _ _ (bd_id _ _ (Z.le_refl _)) M1 T1) as (m & m' & -> & -> & M2 & _). cbn [bind].
  eexists. eexists. split; [reflexivity|]. split; [reflexivity|]. split; [|reflexivity].
  unfold dsr. cbn [ds_t ds_masked ds_req ds_bi ds_comp ds_less ds_s ds_i gds_t gds_masked gds_req gds_bi gds_comp gds_less gds_s gds_i].
  split; [auto|]. split; [auto|]. split; [auto|]. split; [auto|]. split; [auto|]. split; [auto|]. split; [auto|auto].
Qed.

Lemma inner_loop_rel (rng : D -> bool) AL AL' i n : forall x x',
  ds_i x = i -> rel1 R eq (in_range (ds_low delta i) (ds_low delta (i + 1))) rng -> mrel (bd W) AL AL' -> nrows AL = N -> ncols AL = N ->
  dsr x x' ->
  exists o o', mwhile n (fun x => has_vals (vnvals (ds_masked x))) (ds_inner_body delta AL) x = Ok o /\
    mwhile n (fun x => has_vals (vnvals (gds_masked x))) (gds_inner_body ltb min plus dtrue chkv rng AL') x' = Ok o' /\
    orel (fun y y' => dsr y y' /\ ds_i y = i) o o'.
Proof.
  induction n as [|n IH]; intros x x' Ei Hr HA RA CA H; simpl.
  - exists None, None. repeat split; auto.
  - pose proof H as (_ & M & _). rewrite <- (vr_nvals _ _ _ _ M). destruct (has_vals _).
    + subst i. destruct (inner_rel rng AL AL' x x' Hr HA RA CA H) as (y & y' & -> & -> & Hy & Ey). cbn [bind].
      apply IH; auto.
    + exists (Some x), (Some x'). simpl. auto.
Qed.

(** [tcomp] *)
Lemma compare_rel outp i c c' t t' : vr N eq c c' -> vr N (bd (bnd t)) t t' -> ds_low delta i <= (Z.of_nat N - 1) * W + delta ->
  exists r r', ds_compare outp delta i c t = Ok r /\ gds_compare leb times ofn chk outp delta' i c' t' = Ok r' /\ vr N eq r r' /\
    (outp = REPLACE -> has_vals (vnvals r) = true -> ds_low delta i <= (Z.of_nat N - 1) * W).
Proof.
  intros Hc Ht L. unfold ds_compare, gds_compare. destruct (low_rel i L) as (low & -> & Hl). cbn [bind].
  destruct (vr_apply N (bd (bnd t)) eq btrue btrue vnomask vnomask _ MERGE (same_none N btrue btrue)
              (fun v => ds_low delta i <=? v) (fun v => leb low v) c c' t t') as (d & d' & -> & -> & D1 & D2); auto.
  { intros z v [Hz _]. apply R_leb; auto. }
  cbn [bind].
  destruct (vr_apply N eq eq btrue btrue (MVal d) (MVal d') _ outp (same_val N eq btrue btrue d d' eq_btrue D1) idc idc
              d d' d d' eq_id D1 D1) as (e & e' & -> & -> & E1 & E2).
  exists e, e'. split; [auto|]. split; [auto|]. split; [auto|]. intros -> HV.
  destruct (vis_vals _ _ _ E2 HV) as (u & Hu & Fu). unfold wr in Fu. rewrite (vis_get _ _ _ _ D2 Hu) in Fu. unfold wr in Fu.
  pose proof (vr_get N _ _ _ u Ht) as Gu. destruct (vr_vis _ _ _ _ Ht) as [VT _]. pose proof (bnd_le t _ VT) as LB.
  destruct (vget t u) as [z|]; simpl in Fu; [|congruence]. destruct (vget t' u); [|contradiction]. destruct Gu as [_ Lz].
  unfold btrue in Fu. destruct (Z.leb_spec (ds_low delta i) z); [lia|congruence].
Qed.

Definition osr (x : ds_state) (x' : gds_state (D := D)) : Prop :=
  dsr x x' /\ (has_vals (vnvals (ds_comp x)) = true -> ds_low delta (ds_i x) <= (Z.of_nat N - 1) * W).

Lemma low_next i : ds_low delta (i + 1) = ds_low delta i + delta.
Proof. unfold ds_low. lia. Qed.

Lemma outer_rel n AL AL' AH AH' x x' :
  mrel (bd W) AL AL' -> nrows AL = N -> ncols AL = N -> mrel (bd W) AH AH' -> nrows AH = N -> ncols AH = N ->
  osr x x' -> has_vals (vnvals (ds_comp x)) = true ->
  exists o o', ds_outer_body n delta AL AH x = Ok o /\
    gds_outer_body leb ltb min plus times dtrue ofb ofn chk chkv n delta' AL' AH' x' = Ok o' /\ orel osr o o'.
Proof.
  intros HL RL CL HH RH CH [(T & M & Q & Bi & Co & Le & S & Ei) HI] HV. specialize (HI HV).
  unfold ds_outer_body, gds_outer_body. rewrite <- Ei.
  destruct (low_rel (ds_i x)) as (lo & -> & Hlo); [lia|]. cbn [bind].
  destruct (low_rel (ds_i x + 1)) as (hi & -> & Hhi); [rewrite low_next; lia|]. cbn [bind].
  pose proof (range_rel _ _ _ _ Hlo Hhi) as Hr.
  assert (T3 : vr N R (ds_t x) (gds_t x')) by (eapply vr_impl; [|exact T]; intros; eapply bd_R; eauto).
  destruct (vr_apply N R eq btrue btrue vnomask vnomask _ MERGE (same_none N btrue btrue) _ _ _ _ _ _ Hr Bi T3)
    as (b & b' & -> & -> & B3 & _). cbn [bind].
  destruct (vr_apply N eq eq btrue btrue (MVal b) (MVal b') _ REPLACE (same_val N eq btrue btrue b b' eq_btrue B3) _ _ b b' b b' eq_bool B3 B3)
    as (c & c' & -> & -> & C3 & _). cbn [bind].
  destruct (vr_apply N (bd (bnd (ds_t x))) (bd (bnd (ds_t x))) btrue btrue (MVal c) (MVal c') _ REPLACE (same_val N eq btrue btrue c c' eq_btrue C3) idc idc
              _ _ _ _ (bd_id _ _ (Z.le_refl _)) M T) as (m & m' & -> & -> & M2 & _). cbn [bind].
  destruct (inner_loop_rel (gin_range leb ltb lo hi) AL AL' (ds_i x) n
              (mkDs (ds_t x) m (ds_req x) c (ds_comp x) (ds_less x) (vec_clear (ds_s x)) (ds_i x))
              (mkGds (gds_t x') m' (gds_req x') c' (gds_comp x') (gds_less x') (vec_clear (gds_s x')) (ds_i x)))
    as (o & o' & -> & -> & Ho); auto.
  { unfold dsr. cbn [ds_t ds_masked ds_req ds_bi ds_comp ds_less ds_s ds_i gds_t gds_masked gds_req gds_bi gds_comp gds_less gds_s gds_i].
    do 6 (split; [assumption|]). split; [|reflexivity]. destruct (vr_vis _ _ _ _ S) as [V1 V2].
    apply (vr_of N _ _ _ (fun _ => None) (fun _ => None)); [apply vis_clear; apply V1|apply vis_clear; apply V2|]. intros; exact I. }
  cbn [bind]. clear Ei T M Q Bi Co Le S T3 M2 C3 B3 m m' b b' c c' HV Hr.
  destruct o as [y|], o' as [y'|]; simpl in Ho; try contradiction; [|exists None, None; simpl; auto].
  destruct Ho as ((T & M & Q & Bi & Co & Le & S & Ei) & Ey).
  destruct (vr_apply N (bd (bnd (ds_t y))) (bd (bnd (ds_t y))) btrue btrue (MVal (ds_s y)) (MVal (gds_s y')) _ REPLACE
              (same_val N eq btrue btrue _ _ eq_btrue S) idc idc _ _ _ _ (bd_id _ _ (Z.le_refl _)) M T) as (m & m' & -> & -> & M2 & _). cbn [bind].
  destruct (request_rel _ _ _ _ _ _ _ _ T M2 Q HH RH CH) as (q & q' & -> & E' & Q1 & Q2). cbn [bind].
  match goal with |- context [bind ?a _] => match a with vxm min _ _ _ _ _ _ _ _ _ => remember a as v eqn:Ev end end.
  destruct v as [v| |]; cbn [bind] in E' |- *; try discriminate. rewrite E'. cbn [bind].
  destruct (relax_rel _ _ _ _ T Q1) as (t & t' & -> & -> & T1 & LB). cbn [bind].
  rewrite <- Ei.
  destruct (compare_rel REPLACE (ds_i y + 1) _ _ t t' Co T1) as (d & d' & -> & -> & D1 & D2); [rewrite Ey, low_next; lia|]. cbn [bind].
  eexists. eexists. split; [reflexivity|]. split; [reflexivity|]. simpl.
  split; [|cbn [ds_comp ds_i]; auto].
  unfold dsr. cbn [ds_t ds_masked ds_req ds_bi ds_comp ds_less ds_s ds_i gds_t gds_masked gds_req gds_bi gds_comp gds_less gds_s gds_i].
  split; [assumption|]. split; [eapply vr_impl; [|exact M2]; intros; eapply bd_le; eauto|]. do 5 (split; [assumption|]). reflexivity.
Qed.

Lemma outer_loop_rel fuel AL AL' AH AH' n : forall x x',
  mrel (bd W) AL AL' -> nrows AL = N -> ncols AL = N -> mrel (bd W) AH AH' -> nrows AH = N -> ncols AH = N -> osr x x' ->
  exists o o', ds_outer n fuel delta AL AH x = Ok o /\
    gds_outer leb ltb min plus times dtrue ofb ofn chk chkv n fuel delta' AL' AH' x' = Ok o' /\ orel osr o o'.
Proof.
  induction n as [|n IH]; intros x x' HL RL CL HH RH CH H; simpl.
  - exists None, None. simpl. auto.
  - pose proof H as [(_ & _ & _ & _ & Co & _) _]. rewrite <- (vr_nvals _ _ _ _ Co). destruct (has_vals _) eqn:HV.
    + destruct (outer_rel fuel AL AL' AH AH' x x' HL RL CL HH RH CH H HV) as (o & o' & -> & -> & Ho). cbn [bind].
      destruct o as [y|], o' as [y'|]; simpl in Ho; try contradiction; [apply IH; auto|exists None, None; simpl; auto].
    + exists (Some x), (Some x'). simpl. auto.
Qed.

Theorem gdelta_ok n paths paths' : wfv0 paths -> vsize paths = N -> wfv0 paths' -> vsize paths' = N ->
  exists o o', sssp_delta_step n G delta src paths = Ok o /\
    gsssp_delta_step leb ltb min plus times dtrue ofb ofn zero chk chkv n G' delta' src paths' = Ok o' /\
    orel (vr N (bd ((Z.of_nat N - 1) * W))) o o'.
Proof.
  intros Wp Sp Wp' Sp'. unfold sssp_delta_step, gsssp_delta_step.
  pose proof HG as (WG & WG' & ER & EC & GG). rewrite <- ER, RG.
  destruct (vis_new 0 N N0) as (v0 & -> & V0). destruct (vis_new zero N N0) as (v0' & -> & V0'). cbn [bind].
  destruct (vis_new false N N0) as (b0 & -> & B0). cbn [bind].
  destruct (vis_set N v0 _ src 0 V0 Hsrc) as (t0 & -> & T0 & C0). destruct (vis_set N v0' _ src zero V0' Hsrc) as (t0' & -> & T0' & _). cbn [bind].
  destruct (select_rel (fun g => g <=? delta) (fun g => leb g delta')) as (AL & AL' & -> & -> & HL & RL & CL).
  { intros z x Hz. apply R_leb; auto. }
  cbn [bind].
  destruct (select_rel (fun g => delta <? g) (fun g => ltb delta' g)) as (AH & AH' & -> & -> & HH & RH & CH).
  { intros z x Hz. apply R_ltb; auto. }
  cbn [bind].
  assert (CT : bnd t0 = 0).
  { unfold bnd. rewrite C0. rewrite (vis_nvals _ _ _ V0), vcount_none by auto. simpl. lia. }
  assert (BT : vr N (bd (bnd t0)) t0 t0').
  { apply (vr_of N _ _ _ _ _ T0 T0'). intros i Hi. destruct (i =? src)%nat; simpl; auto. rewrite CT. split; [auto|lia]. }
  assert (VV : forall M, vr N (bd M) v0 v0').
  { intro M. apply (vr_of N _ _ _ _ _ V0 V0'). intros; exact I. }
  assert (BB : vr N eq b0 b0).
  { apply (vr_of N _ _ _ _ _ B0 B0). intros; exact I. }
  assert (L0 : 0 <= (Z.of_nat N - 1) * W) by (apply Z.mul_nonneg_nonneg; lia).
  destruct (compare_rel MERGE 0 b0 b0 t0 t0' BB BT) as (c & c' & -> & -> & C1 & _); [unfold ds_low; simpl; lia|]. cbn [bind].
  destruct (outer_loop_rel n AL AL' AH AH' n (mkDs t0 v0 v0 b0 c b0 b0 0) (mkGds t0' v0' v0' b0 c' b0 b0 0)) as (o & o' & -> & -> & Ho); auto.
  { split; [|intros _; unfold ds_low; simpl; lia].
    unfold dsr. cbn [ds_t ds_masked ds_req ds_bi ds_comp ds_less ds_s ds_i gds_t gds_masked gds_req gds_bi gds_comp gds_less gds_s gds_i].
    split; [exact BT|]. split; [apply VV|]. split; [apply VV|]. split; [exact BB|]. split; [exact C1|]. split; [exact BB|].
    split; [exact BB|reflexivity]. }
  cbn [bind]. destruct o as [y|], o' as [y'|]; simpl in Ho; try contradiction; [|exists None, None; simpl; auto].
  destruct Ho as [(T & _) _]. destruct (vr_vis _ _ _ _ T) as [VT _]. pose proof (bnd_le _ _ VT) as LB.
  assert (HP : vr N (bd ((Z.of_nat N - 1) * W)) (vec_clear paths) (vec_clear paths')).
  { apply (vr_of N _ _ _ (fun _ => None) (fun _ => None)); [apply vis_clear; auto|apply vis_clear; auto|]. intros; exact I. }
  destruct (vr_apply N (bd (bnd (ds_t y))) (bd ((Z.of_nat N - 1) * W)) btrue btrue vnomask vnomask _ MERGE (same_none N btrue btrue) idc idc
              _ _ _ _ (bd_id _ _ LB) HP T) as (r & r' & -> & -> & V & _). cbn [bind].
  exists (Some r), (Some r'). simpl. auto.
Qed.
End Delta.

(** ** The integer types *)
Section Ints.
Variable t : ctype.
Hypothesis Ht : integer_type t.
Lemma IR_leb : rel2 (IR t) (IR t) eq Z.leb ileb.
Proof. intros a x b y [-> _] [-> _]. auto. Qed.
Lemma IR_times a x b y : Z.abs a <= tmax t -> Z.abs b <= tmax t -> Z.abs (a * b) <= tmax t -> IR t a x -> IR t b y ->
  IR t (a * b) (op2 Times t x y).
Proof.
  intros La Lb L [-> Ha] [-> Hb]. assert (H : inty t (a * b)).
  { apply inty_bound; auto. intro E. unfold inty in *. nia. }
  split; [|auto]. simpl. apply fits_times; auto.
Qed.
Lemma IR_bool b : IR t (bz b) (Ok (if b then 1 else 0)).
Proof.
  split; [destruct b; auto|]. destruct Ht as (s & w & ->). destruct s, w, b; split; vm_compute; discriminate.
Qed.
Lemma IR_nat i : Z.of_nat i <= tmax t -> IR t (Z.of_nat i) (Ok (convert t (Z.of_nat i))).
Proof.
  intro L. assert (H : inty t (Z.of_nat i)) by (apply inty_bound; auto; lia). split; [|auto].
  f_equal. apply convert_id; auto.
Qed.
Lemma IR_chk z x : IR t z x -> defined x = Ok x.
Proof. intros [-> _]. auto. Qed.
End Ints.

(** ** The floating point types *)
Section Floats.
Variable t : ftype.
Notation P := (2 ^ prec t).
Lemma FR_leb : rel2 (FR t) (FR t) eq Z.leb FLessEqual.
Proof.
  intros a x b y Hx Hy. unfold FLessEqual. rewrite (leb_sv t) by (apply Hx || apply Hy). unfold Z.leb. rewrite (FR_order t a x b y); auto.
Qed.
Lemma FR_times a x b y : Z.abs a <= P -> Z.abs b <= P -> Z.abs (a * b) <= P -> FR t a x -> FR t b y -> FR t (a * b) (FTimes t x y).
Proof.
  intros La Lb L Hx Hy.
  assert (H1 : fexactly t (Z.abs a) a x) by (apply FR_ex; [auto|split; [auto|lia]]).
  assert (H2 : fexactly t (Z.abs b) b y) by (apply FR_ex; [auto|split; [auto|lia]]).
  assert (L' : Z.abs a * Z.abs b <= P) by (rewrite <- Z.abs_mul; auto).
  pose proof (fex_times t (Z.abs a) (Z.abs b) a x b y La Lb L' H1 H2) as H. apply FR_ex in H; [|auto]. apply H.
Qed.
Lemma FR_nat i : Z.of_nat i <= P -> FR t (Z.of_nat i) (of_int t (Z.of_nat i)).
Proof. intro L. destruct (int_ok t (Z.of_nat i)) as (H1 & _ & H2); [lia|]. split; [auto|]. left. split; [lia|auto]. Qed.
Lemma FR_bool (b : bool) : FR t (bz b) (if b then f1 t else f0).
Proof.
  destruct b; [|apply FR_0].
  assert (E : f1 t = of_int t 1) by (destruct t; vm_compute; reflexivity).
  simpl. rewrite E. pose proof (P_pos t). apply (FR_nat 1). simpl. lia.
Qed.
End Floats.

(** ** A round of the loop depends on [i] through [i * delta] and [(i + 1) * delta] only *)
Section Round.
Context {D : Type} (leb ltb : D -> D -> bool) (min plus times : D -> D -> D) (dtrue : D -> bool) (ofb : bool -> D)
  (ofn : nat -> D) (zero : D) (chk : D -> res D) (chkv : bvec D -> res (bvec D)).
Definition set_i (x : gds_state (D := D)) (i : nat) : gds_state :=
  mkGds (gds_t x) (gds_masked x) (gds_req x) (gds_bi x) (gds_comp x) (gds_less x) (gds_s x) i.
Lemma inner_set_i rng AL x i :
  gds_inner_body ltb min plus dtrue chkv rng AL (set_i x i) =
  (y <- gds_inner_body ltb min plus dtrue chkv rng AL x ;; Ok (set_i y i)).
Proof.
  unfold gds_inner_body, set_i. cbn [gds_t gds_masked gds_req gds_bi gds_comp gds_less gds_s gds_i].
  repeat match goal with |- context [bind ?a _] => destruct a; cbn [bind]; [|reflexivity..] end. reflexivity.
Qed.
Lemma inner_loop_set_i rng AL i n : forall x,
  mwhile n (fun x => has_vals (vnvals (gds_masked x))) (gds_inner_body ltb min plus dtrue chkv rng AL) (set_i x i) =
  (o <- mwhile n (fun x => has_vals (vnvals (gds_masked x))) (gds_inner_body ltb min plus dtrue chkv rng AL) x ;;
   Ok (option_map (fun y => set_i y i) o)).
Proof.
  induction n as [|n IH]; intro x; [reflexivity|]. simpl. destruct (has_vals (vnvals (gds_masked x))); [|reflexivity].
  rewrite inner_set_i. destruct (gds_inner_body ltb min plus dtrue chkv rng AL x); cbn [bind]; auto.
Qed.
Lemma round_set_i n delta AL AH x i j :
  gds_low times ofn chk delta i = gds_low times ofn chk delta j ->
  gds_low times ofn chk delta (i + 1) = gds_low times ofn chk delta (j + 1) ->
  gds_outer_body leb ltb min plus times dtrue ofb ofn chk chkv n delta AL AH (set_i x i) =
  (o <- gds_outer_body leb ltb min plus times dtrue ofb ofn chk chkv n delta AL AH (set_i x j) ;;
   Ok (option_map (fun y => set_i y (i + 1)) o)).
Proof.
  intros E1 E2. unfold gds_outer_body. cbn [set_i gds_t gds_masked gds_req gds_bi gds_comp gds_less gds_s gds_i]. rewrite E1, E2.
  destruct (gds_low times ofn chk delta j) as [lo| |]; cbn [bind]; [|reflexivity..].
  destruct (gds_low times ofn chk delta (j + 1)) as [hi| |] eqn:E3; cbn [bind]; [|reflexivity..].
  do 3 match goal with |- context [bind ?a _] => match a with apply_v _ _ _ _ _ _ _ _ => destruct a as [?v| |]; cbn [bind]; [|reflexivity..] end end.
  set (x0 := mkGds (gds_t x) v1 (gds_req x) v0 (gds_comp x) (gds_less x) (vec_clear (gds_s x)) j).
  change (mkGds (gds_t x) v1 (gds_req x) v0 (gds_comp x) (gds_less x) (vec_clear (gds_s x)) i) with (set_i x0 i).
  change x0 with (set_i x0 j) at 2. rewrite !inner_loop_set_i.
  destruct (mwhile _ _ _ x0) as [[y|]| |]; cbn [bind option_map]; [|reflexivity..].
  cbn [set_i gds_t gds_masked gds_req gds_bi gds_comp gds_less gds_s gds_i].
  do 4 (match goal with |- context [bind ?a _] => destruct a; cbn [bind]; [|reflexivity..] end).
  unfold gds_compare. rewrite E2, E3. cbn [bind].
  repeat (match goal with |- context [bind ?a _] => destruct a; cbn [bind]; [|reflexivity..] end). reflexivity.
Qed.
End Round.
