(** Trusses over [float] and [double]: the run follows the run over the integers. *)
From Coq Require Import Lia ZArith QArith Sorted Floats.SpecFloat.
From Verif Require ProofPushFloat.
From Verif Require Import SpecConv.
From Verif Require Import Base ModelLil ModelVec ModelHelpers ModelViews ModelMul ModelElem ModelIndex ModelUtils ModelAlgoBase ModelMis
  ModelAlgebra ModelOps ModelInts ModelFloat ModelConv ModelFsssp ModelTruss ModelTrussFloat ModelTriangle
  Spec SpecOps SpecIndex SpecCalls SpecAlgebra SpecGraph SpecTriangle SpecTruss SpecFloats SpecIntPaths SpecRel
  ProofBase ProofRow ProofLil ProofVec ProofViews ProofMul ProofElem ProofReduce ProofIndex ProofAssign ProofAssignRC ProofAlgebra ProofLaws ProofUtils ProofGraph ProofBfs ProofContainers ProofMis
  ProofTriangle ProofRel ProofInts ProofTriInts ProofTruss ProofKtruss ProofFloat ProofConv ProofIntPaths ProofDeltaTypes ProofTrussTypes ProofKtrussTypes ProofTriFloat.
Local Open Scope Z_scope.

Section Types.
Variable t : ftype.
Notation PP := (2 ^ prec t).
Notation FR := (ProofIntPaths.FR t).

(** From 1 to [K], and from 0 to [K]. *)
Definition fsm (K z : Z) (x : fval) : Prop := FR z x /\ 1 <= z <= K.
Definition fupto (K z : Z) (x : fval) : Prop := FR z x /\ 0 <= z <= K.
Lemma P_big : 2 ^ 24 <= PP < 2 ^ 64.
Proof. clear. destruct t; split; vm_compute; congruence. Qed.
Lemma fsm_ffit K z x : fsm K z x -> ffit t z x.
Proof. clear. intros (H & B). split; [lia|auto]. Qed.
Lemma fsm_fupto K z x : fsm K z x -> fupto K z x.
Proof. clear. intros (H & B). split; [auto|lia]. Qed.
Lemma fsm_exactly z x : fsm 1 z x -> fexactly t 1 z x.
Proof. clear. intros (H & B). apply FR_ex; [pose proof P_big; lia|]. split; [exact H|]. apply Z.abs_le. split; [apply Z.le_trans with 1; [discriminate|apply B]|apply B]. Qed.
Lemma FR_two : FR 2 (of_int t 2).
Proof. clear. apply (FR_nat t 2). pose proof P_big. lia. Qed.

Lemma smul_sm K n (A B : smat Z) (A' B' : smat fval) i j : K <= PP ->
  (forall k, orel (fsm 1) (A i k) (A' i k)) -> (forall k, orel (fsm 1) (B k j) (B' k j)) ->
  (forall z, smul Z.add Z.mul n A B i j = Some z -> z <= K) ->
  orel (fsm K) (smul Z.add Z.mul n A B i j) (smul (FPlus t) (FTimes t) n A' B' i j).
Proof.
  clear. intros HK HA HB HZ.
  assert (F : orel (ffit t) (smul Z.add Z.mul n A B i j) (smul (FPlus t) (FTimes t) n A' B' i j)).
  { unfold smul. apply osum_rel; [apply ffit_add|]. apply Forall2_maps. intro k. eapply orel_map2; [apply ffit_mul| |].
    - specialize (HA k). destruct (A i k), (A' i k); simpl in *; auto. apply (fsm_ffit 1); auto.
    - specialize (HB k). destruct (B k j), (B' k j); simpl in *; auto. apply (fsm_ffit 1); auto. }
  destruct (smul Z.add Z.mul n A B i j) as [z|], (smul _ _ n A' B' i j) as [x|]; simpl in *; auto.
  specialize (HZ z eq_refl). destruct F as [Q F]. split; [apply F; lia|lia].
Qed.

(** The product, with any mask and output. *)
Lemma mul_rel {TM TM' TC'} (RM : TM -> TM' -> Prop) (RC : Z -> TC' -> Prop) K (tr : TM -> bool) (tr' : TM' -> bool) tc' ct' zc' (m : mask (lil TM)) (m' : mask (lil TM')) outp C C' A A' B B' :
  K <= PP -> rel1 RM eq tr tr' -> maskrel (mrel RM) m m' -> mrel RC C C' -> viewrel (fsm 1) A A' -> viewrel (fsm 1) B B' ->
  mxm_conforms m C A B -> match A, B with Mat _, Mat _ | Trn _, Mat _ => True | _, _ => False end -> rel1 (fsm K) RC idc zc' ->
  (forall i j z, smul Z.add Z.mul (vcols A) (sview A) (sview B) i j = Some z -> z <= K) ->
  mresult RC (mxm Z.add Z.mul Z.mul idc idc tr idc (NoAcc idc) m outp C A B)
    (mxm (FPlus t) (FTimes t) (FTimes t) tc' ct' tr' zc' (NoAcc idc) m' outp C' A' B').
Proof.
  clear. intros HK Htr Hm HC HA HB (F & F1 & F2 & F3) NT Hzc HZ. shapes.
  apply (written_rel RC (fsm K) (fsm K) RM tr tr' idc zc' (NoAcc idc) (NoAcc idc) outp Htr) with (m := m) (m' := m')
    (C := C) (C' := C') (T := smul Z.add Z.mul (vcols A) (sview A) (sview B))
    (T' := smul (FPlus t) (FTimes t) (vcols A') (sview A') (sview B')); auto.
  - intros z x Hx. exact Hx.
  - apply mxm_ok; auto. destruct A, B; tauto.
  - apply mxm_ok; auto; try congruence.
    + replace (nrows C') with (nrows C) by congruence. replace (ncols C') with (ncols C) by congruence. eapply maskrel_fits; eauto.
    + destruct A, B; try tauto; destruct A'; simpl in HA; try tauto; destruct B'; simpl in HB; tauto.
  - intros i j Hi Hj. replace (vcols A') with (vcols A) by congruence.
    apply smul_sm; auto; [| |apply HZ]; intro k; apply viewrel_get; auto.
Qed.
Lemma sm_sharp K K' M M' : mrel (fsm K) M M' -> (forall i j z, mget M i j = Some z -> z <= K') -> mrel (fsm K') M M'.
Proof.
  clear. intros (W & W' & E1 & E2 & G) H. split; [auto|]. split; [auto|]. split; [auto|]. split; [auto|]. intros i j. specialize (G i j). specialize (H i j).
  destruct (mget M i j) as [z|], (mget M' i j); simpl in *; auto. destruct G as [X Y]. specialize (H z eq_refl). split; [auto|lia].
Qed.
Lemma fones_sm M M' : mrel (fexactly t 1) M M' -> (forall i j v, mget M i j = Some v -> v = 1) -> mrel (fsm 1) M M'.
Proof.
  clear. intros H O. eapply mrel_imp; [|apply (fones t H O)]. intros z x (-> & X). split; [auto|lia].
Qed.

(** ** [k_truss2] *)
Variables (N k : nat).
Hypothesis K2 : (2 <= k)%nat.
Hypothesis HN : Z.of_nat N < PP.
Hypothesis HK : Z.of_nat k < 2 ^ 64.

Lemma fthreshold_int : fthreshold t (Z.of_nat k) = of_int t (threshold k).
Proof.
  clear -K2 HK. unfold fthreshold, threshold. rewrite convert_id; [reflexivity|].
  split; [change (tmin (CInt false W64)) with 0; lia|]. change (tmax (CInt false W64)) with (2 ^ 64 - 1). lia.
Qed.
Lemma fthreshold_lt z x : fupto (Z.of_nat N) z x -> SFltb x (fthreshold t (Z.of_nat k)) = (z <? threshold k).
Proof.
  clear -K2 HN HK. intros (F & B). rewrite fthreshold_int. unfold threshold. destruct (Z_le_gt_dec (Z.of_nat k - 2) PP) as [L|L].
  - apply (FR_lt t); auto. replace (Z.of_nat k - 2) with (Z.of_nat (k - 2)) by lia. apply FR_nat. lia.
  - destruct (Z.ltb_spec z (Z.of_nat k - 2)) as [_|G]; [|lia].
    assert (A : Z.abs PP <= PP) by lia. destruct (int_exact t PP A) as (V & Fi & E). destruct (int_ok t PP A) as (Ny & _ & S).
    destruct (of_int_rounds t (Z.of_nat k - 2)) as (Nt & Rt & _). destruct (Rt _ V Fi) as (Le & _).
    rewrite E, <- Zle_Qle in Le. specialize (Le ltac:(lia)). apply (fle_sv t) in Le; auto.
    assert (Az : Z.abs z <= PP) by lia. destruct (FR_finite t z x Az F) as (_ & Sx). pose proof (unit_pos t).
    rewrite (ltb_sv t) by (auto; apply F). apply Z.ltb_lt. nia.
Qed.
Lemma fthreshold_ge z x : fupto (Z.of_nat N) z x -> SFleb (fthreshold t (Z.of_nat k)) x = negb (z <? threshold k).
Proof.
  clear -K2 HN HK. intro H. rewrite <- (fthreshold_lt z x H). destruct H as ((Nx & _) & _).
  assert (Nt : SpecFloats.number t (fthreshold t (Z.of_nat k))) by (rewrite fthreshold_int; apply of_int_rounds).
  rewrite (ltb_sv t) by auto. pose proof (fle_sv t _ _ Nt Nx) as E. unfold fle in E.
  destruct (SFleb _ x), (Z.ltb_spec (sv t x) (sv t (fthreshold t (Z.of_nat k)))); try reflexivity.
  - apply proj1 in E. specialize (E eq_refl). lia.
  - apply proj2 in E. specialize (E ltac:(lia)). discriminate E.
Qed.
Lemma to_index_ok z x : fsm (Z.of_nat N) z x -> to_index x = Ok z.
Proof.
  clear -HN. intros (F & B). assert (Az : Z.abs z <= PP) by lia. destruct (FR_finite t z x Az F) as (Fx & Sx). destruct F as ((Vx & _) & _).
  assert (E : (real x == inject_Z z)%Q).
  { destruct (int_exact t z Az) as (V1 & F1 & E1). destruct (int_ok t z Az) as (_ & _ & S1). rewrite <- E1, (real_sv t x Vx Fx), (real_sv t _ V1 F1), Sx, S1. reflexivity. }
  unfold to_index, float_to_int. destruct (truncate x) as [y|] eqn:T; [|destruct x; try contradiction; discriminate].
  pose proof (truncate_spec _ y Fx T) as (A & _). rewrite E in A.
  destruct A as (A1 & A2); [change 0%Q with (inject_Z 0); rewrite <- Zle_Qle; lia|].
  rewrite <- Zle_Qle in A1. rewrite <- Zlt_Qlt in A2. assert (y = z) by lia. subst y. pose proof P_big as PB.
  change (tmin (CInt false W64)) with 0. change (tmax (CInt false W64)) with (2 ^ 64 - 1).
  destruct (Z.leb_spec 0 z); [|lia]. destruct (Z.leb_spec z (2 ^ 64 - 1)); [reflexivity|lia].
Qed.

(** An element of the matrix of supports. *)
Definition fsup (z : Z) (v : ival) : Prop := v = Ok z /\ 1 <= z <= Z.of_nat N.
Definition srel (s : truss_state) (s' : ftruss_state) : Prop :=
  mrel (fsm 1) (tr_A s) (ft_A s') /\ tr_old s = ft_old s' /\ tr_new s = ft_new s' /\ mrel eq (tr_mask s) (ft_mask s') /\
  mrel fsup (tr_support s) (ft_support s').

Lemma body_rel s s' s1 : srel s s' -> simple_graph N (tr_A s) ->
  nrows (tr_mask s) = N -> ncols (tr_mask s) = N -> nrows (tr_support s) = N -> ncols (tr_support s) = N ->
  k_truss2_body k s = Ok s1 -> exists s1', fk_truss2_body t (Z.of_nat k) s' = Ok s1' /\ srel s1 s1'.
Proof.
  intros (RA & RO & RN & RM & RS) SG M1 M2 S1 S2. pose proof SG as (W & R & C & V & S & I0).
  unfold k_truss2_body, fk_truss2_body. cbv zeta. set (A := tr_A s) in *. set (A' := ft_A s') in *.
  destruct (mul_rel (fsm 1) fsup (Z.of_nat N) ztrue ftrue to_index (of_index t) to_index (MVal A) (MVal A') REPLACE (tr_support s) (ft_support s')
    (Trn A) (Trn A') (Mat A) (Mat A')) as (P & P' & Q & Q' & RP); auto.
  { lia. }
  { intros z x (F & _). apply (FR_true t z x F). }
  { split; simpl; repeat split; congruence. }
  { intros z x Hx. split; [apply to_index_ok; auto|apply Hx]. }
  { intros i j z. apply wedges_bound; auto. }
  change (mxm Z.add Z.mul Z.mul idc idc ztrue idc (NoAcc idc) (MVal A) REPLACE (tr_support s) (Trn A) (Mat A) = Ok P) in Q.
  change (mxm (FPlus t) (FTimes t) (FTimes t) to_index (of_index t) ftrue to_index (NoAcc idc) (MVal A') REPLACE (ft_support s') (Trn A') (Mat A') = Ok P') in Q'.
  assert (DP : nrows P = N /\ ncols P = N).
  { destruct (mxm_ok Z.add Z.mul Z.mul idc idc ztrue idc (NoAcc idc) (MVal A) REPLACE (tr_support s)
              (Trn A) (Mat A)) as (P0 & E0 & _ & RP0 & CP0 & _); simpl; auto; try congruence; [apply RS|split; congruence|].
    rewrite Q in E0. injection E0 as <-. split; congruence. }
  assert (DD : defined_m P' = Ok P').
  { apply defined_m_ok; [apply RP|]. intros i j v Hv. destruct RP as (_ & _ & _ & _ & X). specialize (X i j). rewrite Hv in X.
    destruct (mget P i j); simpl in X; [|tauto]. destruct X as [-> _]. eauto. }
  rewrite Q, Q'. cbn [bind]. rewrite DD. cbn [bind].
  destruct (apply_rel fsup (@eq bool) (@eq bool) (@eq bool) (@eq bool) btrue btrue idc idc REPLACE
    ltac:(intros z x ->; reflexivity) ltac:(intros z x ->; reflexivity) (NoAcc idc) (NoAcc idc) ltac:(intros z x ->; reflexivity)
    (support_min_test (threshold k)) (fun v => fsupport_min_test (fthreshold t (Z.of_nat k)) (of_index t v)) mnomask mnomask (tr_mask s) (ft_mask s') (Mat P) (Mat P'))
    as (K & K' & X & X' & RK); auto.
  { intros z x (-> & B). unfold support_min_test, fsupport_min_test, of_index. f_equal. symmetry. apply fthreshold_lt. split; [|lia].
    replace z with (Z.of_nat (Z.to_nat z)) by lia. apply FR_nat. lia. }
  { exact I. }
  { split; [exact I|]. simpl. destruct DP. split; congruence. }
  change (apply (support_min_test (threshold k)) btrue idc (NoAcc idc) mnomask REPLACE (tr_mask s) (Mat P) = Ok K) in X.
  change (apply (fun v => fsupport_min_test (fthreshold t (Z.of_nat k)) (of_index t v)) btrue idc (NoAcc idc) mnomask REPLACE (ft_mask s') (Mat P') = Ok K') in X'.
  assert (DK : nrows K = N /\ ncols K = N).
  { destruct (apply_ok (support_min_test (threshold k)) btrue idc (NoAcc idc) mnomask REPLACE
              (tr_mask s) (Mat P)) as (K0 & E0 & WK & RK0 & CK0 & GK).
    { apply RM. } { apply RP. } { exact I. } { split; [exact I|]. simpl. destruct DP. split; congruence. }
    rewrite X in E0. injection E0 as <-. split; congruence. }
  rewrite X, X'. cbn [bind].
  destruct (apply_rel (fsm 1) (fsm 1) (fsm 1) (fsm 1) (@eq bool) btrue btrue idc idc REPLACE
    ltac:(intros z x ->; reflexivity) ltac:(intros z x Hx; exact Hx) (NoAcc idc) (NoAcc idc) ltac:(intros z x Hx; exact Hx)
    idc idc (MVal K) (MVal K') A A' (Mat A) (Mat A'))
    as (B & B' & Y & Y' & RB); auto.
  { intros z x Hx. exact Hx. }
  { destruct DK. split; simpl; split; congruence. }
  change (apply idc btrue idc (NoAcc idc) (MVal K) REPLACE A (Mat A) = Ok B) in Y.
  change (apply idc btrue idc (NoAcc idc) (MVal K') REPLACE A' (Mat A') = Ok B') in Y'.
  rewrite Y, Y'. cbn [bind]. intros [= <-]. eexists. split; [reflexivity|]. repeat (split; simpl; auto).
  eapply mrel_nvals; eauto.
Qed.
Definition sinv (s : truss_state) : Prop :=
  simple_graph N (tr_A s) /\ wfm (tr_mask s) /\ nrows (tr_mask s) = N /\ ncols (tr_mask s) = N /\
  wfm (tr_support s) /\ nrows (tr_support s) = N /\ ncols (tr_support s) = N.
Lemma sinv_step s s' s1 : sinv s -> srel s s' -> k_truss2_body k s = Ok s1 ->
  sinv s1 /\ exists s1', fk_truss2_body t (Z.of_nat k) s' = Ok s1' /\ srel s1 s1'.
Proof.
  intros (SG & WM & M1 & M2 & WS & S1 & S2) R E. split.
  - destruct (body_ok N k K2 s SG WM M1 M2 WS S1 S2) as (s2 & E2 & H). rewrite E in E2. injection E2 as <-. unfold sinv. tauto.
  - eapply body_rel; eauto.
Qed.

Theorem fk_truss2_run n G G' H : simple_graph N G -> mrel (fexactly t 1) G G' -> k_truss2 n G k = Ok (Some H) ->
  exists H', fk_truss2 t n G' (Z.of_nat k) = Ok (Some H') /\ mrel (fexactly t 1) H H'.
Proof.
  intros SG RG. pose proof SG as (W & R & C & V & _). pose proof RG as (_ & _ & _ & EC & _).
  unfold k_truss2, fk_truss2. cbv zeta. rewrite <- EC, C.
  set (s0 := mkTruss G 0 (nvals G) (lil_new N N) (lil_new N N)). set (s0' := mkFtruss G' 0 (nvals G') (lil_new N N) (lil_new N N)).
  assert (J0 : sinv s0) by (repeat (split; simpl; auto using lil_new_wf); apply SG).
  assert (R0 : srel s0 s0').
  { split; [apply fones_sm; auto|]. simpl. split; [auto|]. split; [eapply mrel_nvals; eauto|]. split; apply mrel_new. }
  destruct (k_truss2_body k s0) as [s1| |] eqn:E1; try discriminate.
  destruct (sinv_step s0 s0' s1 J0 R0 E1) as (J1 & s1' & -> & R1). cbn [bind].
  destruct (mwhile n _ (k_truss2_body k) s1) as [[s2|]| |] eqn:E2; try discriminate. cbn [bind option_map]. intros [= <-].
  destruct (mwhile_step (fun s => negb (tr_new s =? tr_old s)) (fun s => negb (ft_new s =? ft_old s)) (k_truss2_body k) (fk_truss2_body t (Z.of_nat k))
    sinv srel) with (n := n) (s := s1) (s' := s1') (s1 := s2) as (s2' & -> & R2 & J2); auto.
  { intros s s' _ (_ & -> & -> & _). reflexivity. }
  { intros s s' s3 J3 R3 _. apply sinv_step; auto. }
  cbn [bind option_map]. eexists. split; [reflexivity|]. eapply mrel_imp; [|apply R2]. apply fsm_exactly.
Qed.

(** ** [k_truss] *)
Lemma two_rel : rel2 (fupto 2) (fsm 1) (ffit0 t) first_equals_two (ffirst_equals_two t).
Proof.
  clear. intros a x b y (A & BA) (B & BB). unfold first_equals_two, ffirst_equals_two.
  pose proof (FR_eqb t a x 2 (of_int t 2) A FR_two) as E. unfold FEqual in E. rewrite <- E. destruct (a =? 2); [split; [lia|auto]|].
  split; [lia|]. intros _. apply FR_0.
Qed.

Lemma support_rel R R' ones ones' s : mrel (fupto 2) R R' -> vrel (fsm 1) ones ones' -> (0 < nrows R)%nat -> vsize ones = ncols R ->
  edge_support R ones = Ok s -> (forall i z, vget s i = Some z -> z <= Z.of_nat N) ->
  exists s', fedge_support t R' ones' = Ok s' /\ vrel (fupto (Z.of_nat N)) s s'.
Proof.
  clear -HN. intros HR HO P Sz E B. unfold edge_support, fedge_support in *. pose proof HR as (_ & _ & ER & _). rewrite <- ER.
  destruct (vrel_new (ffit0 t) 0 ModelFloat.f0 (nrows R) P) as (w & w' & E1 & E1' & RW & SW). rewrite E1 in E. rewrite E1'. cbn [bind] in *.
  destruct (mxv_rel (fupto 2) (fsm 1) (ffit0 t) (ffit0 t) (ffit0 t) (@eq bool) btrue btrue idc idc REPLACE
    ltac:(intros z x ->; reflexivity) ltac:(intros z x Hx; exact Hx) (NoAcc idc) (NoAcc idc) ltac:(intros z x Hx; exact Hx)
    Z.add (FPlus t) first_equals_two (ffirst_equals_two t) (ffit0_add t) two_rel
    (fun y x => first_equals_two x y) (fun y x => ffirst_equals_two t x y) vnomask vnomask w w' (Mat R) (Mat R') ones ones')
    as (u & u' & E2 & E2' & RU); auto; try exact I.
  { split; [exact I|]. simpl. auto. }
  change (mxv Z.add first_equals_two (fun y x => first_equals_two x y) btrue idc (NoAcc idc) vnomask REPLACE w (Mat R) ones = Ok u) in E2.
  change (mxv (FPlus t) (ffirst_equals_two t) (fun y x => ffirst_equals_two t x y) btrue idc (NoAcc idc) vnomask REPLACE w' (Mat R') ones' = Ok u') in E2'.
  rewrite E2 in E. injection E as ->. rewrite E2'. destruct RU as (W & W' & ES & G).
  assert (Q : vrel (fupto (Z.of_nat N)) s u').
  { split; [auto|]. split; [auto|]. split; [auto|]. intro i. specialize (G i). specialize (B i).
    destruct (vget s i) as [z|], (vget u' i); simpl in *; auto. specialize (B z eq_refl). destruct G as [G1 G2]. split; [apply G2|]; lia. }
  exists u'. split; auto.
Qed.

Lemma where_rel (test : Z -> bool) (test' : fval -> bool) s s' x : vrel (fupto (Z.of_nat N)) s s' -> (0 < vsize s)%nat ->
  (forall z x, fupto (Z.of_nat N) z x -> test z = test' x) -> edges_where test s = Ok x -> exists x', fedges_where test' s' = Ok x' /\ vrel eq x x'.
Proof.
  clear. intros HS P HT E. unfold edges_where, fedges_where in *. pose proof HS as (_ & _ & ES & _). rewrite <- ES.
  destruct (vrel_new (@eq bool) false false (vsize s) P) as (w & w' & E1 & E1' & RW & SW). rewrite E1 in E. rewrite E1'. cbn [bind] in *.
  destruct (apply_v_rel (fupto (Z.of_nat N)) (@eq bool) (@eq bool) (@eq bool) (@eq bool) btrue btrue idc idc REPLACE
    ltac:(intros z y ->; reflexivity) ltac:(intros z y ->; reflexivity) (NoAcc idc) (NoAcc idc) ltac:(intros z y ->; reflexivity)
    test test' vnomask vnomask w w' s s') as (u & u' & E2 & E2' & RU); auto; try exact I.
  { split; [exact I|auto]. }
  change (apply_v test btrue idc (NoAcc idc) vnomask REPLACE w s = Ok u) in E2.
  change (apply_v test' btrue idc (NoAcc idc) vnomask REPLACE w' s' = Ok u') in E2'.
  rewrite E2 in E. rewrite E2'. cbn [bind] in *.
  destruct (apply_v_rel (@eq bool) (@eq bool) (@eq bool) (@eq bool) (@eq bool) btrue btrue idc idc REPLACE
    ltac:(intros z y ->; reflexivity) ltac:(intros z y ->; reflexivity) (NoAcc idc) (NoAcc idc) ltac:(intros z y ->; reflexivity)
    idc idc (MVal u) (MVal u') u u' u u') as (v & v' & E3 & E3' & RV); auto.
  { intros z y ->. reflexivity. }
  { split; simpl; auto. }
  change (apply_v idc btrue idc (NoAcc idc) (MVal u) REPLACE u u = Ok v) in E3.
  change (apply_v idc btrue idc (NoAcc idc) (MVal u') REPLACE u' u' = Ok v') in E3'.
  rewrite E3 in E. injection E as ->. rewrite E3'. eauto.
Qed.
Lemma rows_rel (R : Z -> fval -> Prop) M M' l X : mrel R M M' -> Forall (fun e => (e < nrows M)%nat) l -> extract_rows M l = Ok X ->
  exists X', fextract_rows M' l = Ok X' /\ mrel R X X'.
Proof.
  clear. intros HM F E. unfold extract_rows, fextract_rows in *. pose proof HM as (_ & _ & ER & EC & _). rewrite <- EC.
  destruct (extract_m_rel R R R (@eq bool) btrue btrue idc idc REPLACE
    ltac:(intros z y ->; reflexivity) ltac:(intros z x Hx; exact Hx) (NoAcc idc) (NoAcc idc) ltac:(intros z x Hx; exact Hx)
    mnomask mnomask (lil_new (length l) (ncols M)) (lil_new (length l) (ncols M)) (Mat M) (Mat M') (IdxArr l) AllIdx) as (u & u' & E1 & E1' & RU);
    auto using mrel_new; try exact I.
  { split; [exact I|]. split; [reflexivity|]. split; [exact I|]. split; [exact F|exact I]. }
  change (extract_m btrue idc (NoAcc idc) mnomask REPLACE (lil_new (length l) (ncols M)) (Mat M) (IdxArr l) AllIdx = Ok u) in E1.
  change (extract_m btrue idc (NoAcc idc) mnomask REPLACE (lil_new (length l) (ncols M)) (Mat M') (IdxArr l) AllIdx = Ok u') in E1'.
  rewrite E1 in E. injection E as ->. eauto.
Qed.

Section Diag.
Variable D : lil bool.
Hypothesis WD : wfm D.
Hypothesis RD : nrows D = N.
Hypothesis CD : ncols D = N.
Hypothesis GD : forall i j, mget D i j = if ((i <? N) && (i =? j))%nat then Some true else None.

Lemma gram_rel E E' P : incidence N E -> (0 < N)%nat -> mrel (fsm 1) E E' ->
  mxm Z.add Z.mul Z.mul idc idc btrue idc (NoAcc idc) (MComp D) REPLACE (lil_new N N) (Trn E) (Mat E) = Ok P ->
  exists P', mxm (FPlus t) (FTimes t) (FTimes t) idc idc btrue idc (NoAcc idc) (MComp D) REPLACE (lil_new N N) (Trn E') (Mat E') = Ok P' /\ mrel (fsm 1) P P'.
Proof.
  clear -HN WD RD CD GD. intros IE PN RE EP. pose proof IE as (WE & CE & _).
  destruct (mul_rel (@eq bool) (fsm (Z.of_nat N)) (Z.of_nat N) btrue btrue idc idc idc (MComp D) (MComp D) REPLACE (lil_new N N) (lil_new N N)
    (Trn E) (Trn E') (Mat E) (Mat E')) as (Q & Q' & X & X' & RQ); auto using mrel_new.
  { lia. }
  { intros z x ->. reflexivity. }
  { split; [auto|]. split; [auto|]. split; [auto|]. split; [auto|]. intros i j. destruct (mget D i j); simpl; auto. }
  { split; simpl; auto. }
  { intros z x Hx. exact Hx. }
  { intros i j z Hz. eapply gram_bound; eauto. }
  rewrite EP in X. injection X as <-. exists Q'. split; [auto|]. eapply sm_sharp; eauto.
  destruct (offdiag_ok N D E WD RD CD GD WE CE) as (P0 & E0 & W0 & R0 & C0 & V0 & _). rewrite EP in E0. injection E0 as <-.
  intros i j z Hz. destruct (mget_some_bounds P i j z W0 Hz) as [Hi Hj]. specialize (V0 i j ltac:(lia) ltac:(lia)). rewrite Hz in V0.
  simpl in V0. rewrite (adj_joined N E IE) in V0. destruct (joined E i j); simpl in V0; lia.
Qed.

Variables (Ein : lil Z) (ones : bvec Z) (ones' : bvec fval).
Hypothesis IE : incidence N Ein.
Hypothesis HO : ones_vector N ones.
Hypothesis RO : vrel (fsm 1) ones ones'.

Definition krel (st : ktruss_state) (st' : fktruss_state) : Prop :=
  mrel (fsm 1) (kt_E st) (fk_E st') /\ mrel (fupto 2) (kt_R st) (fk_R st') /\ vrel (fupto (Z.of_nat N)) (kt_s st) (fk_s st') /\
  vrel eq (kt_x st) (fk_x st') /\ kt_break st = fk_break st'.


Lemma kbody_rel b st st' s1 : kinv N k Ein b st -> kt_break st = false -> 0 < vnvals (kt_x st) -> krel st st' ->
  k_truss_body k D ones st = Ok s1 -> kinv N k Ein (S b) s1 /\ exists s1', fk_truss_body t (Z.of_nat k) D ones' st' = Ok s1' /\ krel s1 s1'.
Proof.
  intros KI BR PX RK E1.
  assert (KI1 : kinv N k Ein (S b) s1).
  { destruct (kbody_ok N k Ein D ones K2 WD RD CD GD HO b st KI BR PX) as (s2 & E2 & K). rewrite E1 in E2. injection E2 as <-. exact K. }
  split; [exact KI1|].
  destruct st as [E R s x br], st' as [E' R' s' x' br']. unfold krel in RK. simpl in *. destruct RK as (RE & RR & RS & RX & RB).
  destruct KI as (IE' & SR & Bd & MX & H). simpl in *. subst br. destruct H as (P & CR & SS & FL).
  pose proof SS as (Ws & Sz & Gs). pose proof FL as (Wx & Sx & Gx). pose proof IE' as (WE & CE & _ & Ep & _).
  assert (PN : (0 < N)%nat). { destruct (Ep 0%nat P) as (c & d & Hcd). destruct (ends_lt N E IE' 0%nat c d Hcd). lia. }
  pose proof CR as (WR & RR0 & CR0 & _).
  unfold k_truss_body in E1. unfold fk_truss_body. cbn [kt_E kt_R kt_s kt_x fk_E fk_R fk_s fk_x] in *. cbv zeta in *.
  rewrite <- (IDs_rel x x' RX). rewrite (get_vertex_IDs_ok x Wx) in E1 |- *. cbn [bind] in E1 |- *.
  rewrite Sx, Sz in E1 |- *. set (lx := filter (fun v => is_some (vget x v)) (seq 0 (nrows E))) in *.
  pose proof (filter_lt (fun v => is_some (vget x v)) (nrows E)) as Fx. fold lx in Fx.
  destruct (edges_where_ok (support_min_test (threshold k)) s) as (xc & Exc & Wc & Sc & Gc); auto; [lia|].
  destruct (where_rel (support_min_test (threshold k)) (fsupport_ge_test (fthreshold t (Z.of_nat k))) s s' xc RS ltac:(lia) (fun z x H => eq_sym (fthreshold_ge z x H)) Exc) as (xc' & Exc' & RXC).
  rewrite Exc in E1. rewrite Exc'. cbn [bind] in E1 |- *. rewrite <- (IDs_rel xc xc' RXC).
  rewrite (get_vertex_IDs_ok xc Wc) in E1 |- *. cbn [bind] in E1 |- *. rewrite Sc, Sz in E1 |- *.
  set (lc := filter (fun v => is_some (vget xc v)) (seq 0 (nrows E))) in *.
  pose proof (filter_lt (fun v => is_some (vget xc v)) (nrows E)) as Fc. fold lc in Fc.
  destruct (extract_rows_ok E lx WE Fx) as (Ex & EEx & WEx & REx & CEx & GEx).
  destruct (rows_rel (fsm 1) E E' lx Ex RE Fx EEx) as (Ex' & EEx' & RelEx).
  rewrite EEx in E1. rewrite EEx'. cbn [bind] in E1 |- *.
  destruct (extract_rows_ok E lc WE Fc) as (En & EEn & WEn & REn & CEn & GEn).
  destruct (rows_rel (fsm 1) E E' lc En RE Fc EEn) as (En' & EEn' & RelEn).
  rewrite EEn in E1. rewrite EEn'. cbn [bind] in E1 |- *.
  assert (IEx : incidence N Ex). { eapply some_rows_inc; eauto. exists lx. split; [apply sorted_filter, sorted_seq|]. auto. }
  destruct (length lc =? 0)%nat eqn:Elc.
  { injection E1 as <-. eexists. split; [reflexivity|]. unfold krel. simpl. auto. }
  assert (FcR : Forall (fun e => (e < nrows R)%nat) lc) by (rewrite RR0; exact Fc).
  destruct (extract_rows_ok R lc WR FcR) as (R1 & ER1 & WR1 & RR1 & CR1 & GR1).
  destruct (rows_rel (fupto 2) R R' lc R1 RR FcR ER1) as (R1' & ER1' & RelR1).
  rewrite ER1 in E1. rewrite ER1'. cbn [bind] in E1 |- *. rewrite CD in E1 |- *.
  destruct (offdiag_ok N D Ex WD RD CD GD WEx) as (XX & EXX & WXX & RXX & CXX & VXX & IXX); [congruence|].
  destruct (gram_rel Ex Ex' XX IEx PN RelEx EXX) as (XX' & EXX' & RelXX).
  rewrite EXX in E1. rewrite EXX'. cbn [bind] in E1 |- *.
  pose proof RelR1 as (_ & WR1' & DR1 & DR1c & GRel1). pose proof RelEn as (_ & WEn' & DEn & DEnc & GRelEn). pose proof RelXX as (_ & WXX' & DXX & DXXc & GRelXX).
  destruct (mxm_ok Z.add Z.mul Z.mul idc idc btrue idc (Acc Z.sub idc idc) mnomask REPLACE R1
              (Mat En) (Mat XX)) as (R2 & ER2 & WR2 & RR2 & CR2 & GR2); simpl; auto; try congruence.
  destruct (mxm_ok (FPlus t) (FTimes t) (FTimes t) idc idc btrue idc (Acc (FMinus t) idc idc) mnomask REPLACE R1'
              (Mat En') (Mat XX')) as (R2' & ER2' & WR2' & RR2' & CR2' & GR2'); simpl; auto; try congruence.
  change (mxm Z.add Z.mul Z.mul idc idc btrue idc (Acc Z.sub idc idc) mnomask REPLACE R1 (Mat En) (Mat XX) = Ok R2) in ER2.
  change (mxm (FPlus t) (FTimes t) (FTimes t) idc idc btrue idc (Acc (FMinus t) idc idc) mnomask REPLACE R1' (Mat En') (Mat XX') = Ok R2') in ER2'.
  rewrite ER2 in E1. rewrite ER2'. cbn [bind] in E1 |- *.
  destruct (edge_support R2 ones) as [s2| |] eqn:Es2; try discriminate E1. cbn [bind] in E1.
  destruct (edges_where (support_test (threshold k)) s2) as [x2| |] eqn:Ex2; try discriminate E1. cbn [bind] in E1. injection E1 as <-.
  destruct KI1 as (IEn & _ & _ & _ & Pn & CR2n & SS2 & FL2). simpl in IEn, Pn, CR2n, SS2, FL2.
  assert (Rel2 : mrel (fupto 2) R2 R2').
  { split; [auto|]. split; [auto|]. split; [congruence|]. split; [congruence|]. intros i j.
    pose proof (counts_2 N En R2 IEn CR2n i j) as B2. pose proof P_big.
    destruct (Nat.lt_ge_cases i (nrows R1)) as [Hi|Hi]; [|rewrite !mget_oob; [exact I| | | |]; auto; left; congruence].
    destruct (Nat.lt_ge_cases j (ncols R1)) as [Hj|Hj]; [|rewrite !mget_oob; [exact I| | | |]; auto; right; congruence].
    specialize (GR2 i j Hi Hj). specialize (GR2' i j ltac:(congruence) ltac:(congruence)).
    assert (RS2 : orel (fsm 2) (smul Z.add Z.mul N (mget En) (mget XX) i j) (smul (FPlus t) (FTimes t) N (mget En') (mget XX') i j)).
    { apply smul_sm; auto; [lia|]. intros z Hz. apply (two_bound N En XX i j z IEn); auto; [|lia]. intros w v Hw Hv. rewrite VXX by auto.
      rewrite (adj_joined N Ex IEx). destruct (joined Ex w v); simpl; lia. }
    rewrite GR2 in B2 |- *. rewrite GR2'. simpl vcols in *. simpl sview in *. rewrite <- DEnc. rewrite CEn, CE in *.
    simpl spec_write in *. unfold spec_write, spec_accum in *. simpl in *. unfold idc in *. rewrite !option_map_id' in *.
    specialize (GRel1 i j).
    destruct (mget R1 i j) as [z1|], (mget R1' i j) as [y1|]; simpl in GRel1; try tauto;
    destruct (smul Z.add Z.mul N (mget En) (mget XX) i j) as [z2|], (smul (FPlus t) (FTimes t) N (mget En') (mget XX') i j) as [y2|];
      simpl in RS2; try tauto; simpl in *; auto.
    - apply fsm_fupto in RS2. specialize (B2 (z1 - z2) eq_refl). split; [|lia]. destruct GRel1, RS2.
      apply (ProofPushFloat.FR_minus t); auto; lia.
    - apply fsm_fupto in RS2. exact RS2. }
  destruct (support_rel R2 R2' ones ones' s2 Rel2 RO) as (s2' & Es2' & RS2); auto.
  { destruct CR2n as (_ & -> & _). auto. }
  { destruct CR2n as (_ & _ & -> & _). apply HO. }
  { apply (supports_N N En s2 IEn SS2). }
  rewrite Es2'. cbn [bind].
  destruct (where_rel (support_test (threshold k)) (fsupport_test (fthreshold t (Z.of_nat k))) s2 s2' x2 RS2) as (x2' & Ex2' & RX2); auto.
  { destruct SS2 as (_ & -> & _). auto. }
  { intros z y H. symmetry. apply fthreshold_lt. exact H. }
  rewrite Ex2'. cbn [bind]. eexists. split; [reflexivity|]. unfold krel. simpl. auto.
Qed.
End Diag.

Lemma ones_ok : (0 < N)%nat -> exists o o' ones ones', vec_new 0 N = Ok o /\ vec_new ModelFloat.f0 N = Ok o' /\
  assign_const_v idc btrue idc (NoAcc idc) vnomask REPLACE o 1 (IdxArr (seq 0 N)) = Ok ones /\
  assign_const_v idc btrue idc (NoAcc idc) vnomask REPLACE o' (of_int t 1) (IdxArr (seq 0 N)) = Ok ones' /\
  ones_vector N ones /\ vrel (fsm 1) ones ones'.
Proof.
  clear. intro PN. destruct (vrel_new (fsm 1) 0 ModelFloat.f0 N PN) as (o & o' & E & E' & RO & SO). exists o, o'.
  assert (Srt : idx_sorted (IdxArr (seq 0 N))).
  { intros a b i j Hab Hi Hj. apply nth_error_nth with (d := 0%nat) in Hi as Hi'.
    apply nth_error_nth with (d := 0%nat) in Hj as Hj'.
    assert (a < length (seq 0 N))%nat by (apply nth_error_Some; congruence).
    assert (b < length (seq 0 N))%nat by (apply nth_error_Some; congruence).
    rewrite seq_length in *. rewrite seq_nth in Hi' by auto. rewrite seq_nth in Hj' by auto. simpl in *. lia. }
  assert (Cf : vcassign_conforms (TM := bool) vnomask o (IdxArr (seq 0 N))).
  { split; [exact I|]. simpl. rewrite seq_length. split; [lia|]. apply Forall_forall. intros i Hi. apply in_seq in Hi. lia. }
  assert (One : fsm 1 1 (of_int t 1)).
  { split; [|lia]. apply (FR_nat t 1). pose proof P_big. lia. }
  destruct (assign_const_v_rel (fsm 1) (fsm 1) (fsm 1) (@eq bool) btrue btrue idc idc REPLACE
    ltac:(intros z x ->; reflexivity) ltac:(intros z x Hx; exact Hx) (NoAcc idc) (NoAcc idc) ltac:(intros z x Hx; exact Hx)
    idc idc vnomask vnomask o o' 1 (of_int t 1) (IdxArr (seq 0 N))) as (ones & ones' & X & X' & R1); auto; try exact I.
  { intros z x Hx. exact Hx. }
  exists ones, ones'. split; [auto|]. split; [auto|]. split; [exact X|]. split; [exact X'|]. split; [|auto].
  destruct (assign_const_v_ok btrue idc idc (NoAcc idc) vnomask REPLACE o 1 (IdxArr (seq 0 N))) as (ones0 & E0 & Wo & So & Go); auto; try exact I.
  { apply RO. }
  assert (ones0 = ones) by (change (assign_const_v idc btrue idc (NoAcc idc) vnomask REPLACE o 1 (IdxArr (seq 0 N)) = Ok ones) in X; congruence).
  subst ones0. split; [auto|]. split; [congruence|]. intros v Hv. rewrite Go by lia.
  assert (Ei : in_idx (IdxArr (seq 0 N)) (idx_count (IdxArr (seq 0 N)) (vsize o)) v = true).
  { unfold in_idx, pos. simpl idx_count. rewrite seq_length. apply is_some_true. intro En.
    assert (K := find_none _ _ En v). cbn [sel] in K. rewrite nth_error_seq in K by auto.
    rewrite Nat.eqb_refl in K. enough (true = false) by discriminate. apply K. apply in_seq. lia. }
  rewrite Ei. reflexivity.
Qed.

Theorem fk_truss_run n E E' H : incidence N E -> (0 < nrows E)%nat -> mrel (fexactly t 1) E E' -> k_truss n E k = Ok (Some H) ->
  exists H', fk_truss t n E' (Z.of_nat k) = Ok (Some H') /\ mrel (fexactly t 1) H H'.
Proof.
  intros IE P RG. pose proof IE as (W & C & V & Ep & _). pose proof RG as (_ & _ & ER & EC & _).
  assert (RE : mrel (fsm 1) E E') by (apply fones_sm; auto).
  assert (PN : (0 < N)%nat).
  { destruct (Ep 0%nat P) as (a & b & Hab). apply (ends_lt N E IE) in Hab. lia. }
  unfold k_truss, fk_truss. cbv zeta. rewrite <- EC, <- ER, C.
  destruct (diag_mask_ok N) as (D & -> & WD & RD & CD & GD). cbn [bind].
  destruct (offdiag_ok N D E WD RD CD GD W C) as (A & EA & WA & RA & CA & VA & IA).
  destruct (gram_rel D WD RD CD GD E E' A IE PN RE EA) as (A' & EA' & RelA). rewrite EA, EA'. cbn [bind].
  assert (VA1 : forall w v, (w < N)%nat -> (v < N)%nat -> ov (mget A w v) <= 1).
  { intros w v Hw Hv. rewrite VA by auto. rewrite (adj_joined N E IE). destruct (joined E w v); simpl; lia. }
  destruct (mul_rel (@eq bool) (fsm 2) 2 btrue btrue idc idc idc mnomask mnomask MERGE (lil_new (nrows E) N) (lil_new (nrows E) N) (Mat E) (Mat E') (Mat A) (Mat A')) as (R & R' & EMR & EMR' & RelR); auto using mrel_new; try exact I.
  { pose proof P_big. lia. }
  { intros z x ->. reflexivity. }
  { split; [exact I|]. simpl. repeat split; congruence. }
  { intros z x Hx. exact Hx. }
  { intros i j z Hz. simpl vcols in Hz. simpl sview in Hz. rewrite C in Hz.
    destruct (Nat.lt_ge_cases j N) as [Hj|Hj]; [eapply (two_bound N); eauto|].
    rewrite smul_none in Hz; [discriminate|]. intros w _. right. apply mget_oob; auto. right. congruence. }
  change (mxm Z.add Z.mul Z.mul idc idc btrue idc (NoAcc idc) mnomask MERGE (lil_new (nrows E) N) (Mat E) (Mat A) = Ok R) in EMR.
  change (mxm (FPlus t) (FTimes t) (FTimes t) idc idc btrue idc (NoAcc idc) mnomask MERGE (lil_new (nrows E) N) (Mat E') (Mat A') = Ok R') in EMR'.
  rewrite EMR, EMR'. cbn [bind].
  destruct (mxm_ok Z.add Z.mul Z.mul idc idc btrue idc (NoAcc idc) mnomask MERGE (lil_new (nrows E) N)
              (Mat E) (Mat A)) as (R0 & ER0 & WR & RR & CR & GR); simpl; auto using lil_new_wf; try congruence.
  assert (R0 = R) by (change (mxm Z.add Z.mul Z.mul idc idc btrue idc (NoAcc idc) mnomask MERGE (lil_new (nrows E) N) (Mat E) (Mat A) = Ok R0) in ER0; congruence).
  subst R0. simpl in RR, CR, GR. change (binary_round (prec t) (emax t) false 1 0) with (of_int t 1).
  destruct (ones_ok PN) as (o & o' & os & os' & -> & -> & Eo & Eo' & HO & RO). cbn [bind]. rewrite Eo, Eo'. cbn [bind].
  assert (CT : counts N E R).
  { split; [auto|]. split; [auto|]. split; [auto|].
    assert (G : forall e v, (e < nrows E)%nat -> (v < N)%nat -> mget R e v = smul Z.add Z.mul N (mget E) (mget A) e v).
    { intros e v He Hv. rewrite GR by auto. simpl. unfold idc. rewrite !option_map_id', C. reflexivity. }
    split.
    - intros e v He Hv. rewrite G by auto. rewrite ov_smul. apply sumn_ext. intros w Hw.
      rewrite VA by auto. reflexivity.
    - intros e w v H1 Hm. destruct (inc_bound N E IE e w H1) as [He Hw].
      assert (Hv : (v < N)%nat).
      { destruct Hm as (_ & f & _ & _ & Hf). apply (inc_bound N E IE f v Hf). }
      rewrite G by auto. apply smul_some. exists w. split; auto. split; auto. apply IA; auto. }
  destruct (edge_support_ok N E IE R os CT HO P) as (s & Es & SS). rewrite Es. cbn [bind].
  destruct (support_rel R R' os os' s (mrel_imp _ _ _ _ (fsm_fupto 2) RelR) RO) as (s' & Es' & RS); auto; try lia.
  { destruct HO as (_ & -> & _). auto. }
  { apply (supports_N N E s IE SS). }
  rewrite Es'. cbn [bind].
  destruct (flags_ok N k E s SS P) as (x & Ex & FL). rewrite Ex. cbn [bind].
  destruct (where_rel (support_test (threshold k)) (fsupport_test (fthreshold t (Z.of_nat k))) s s' x RS) as (x' & Ex' & RX); auto.
  { destruct SS as (_ & -> & _). auto. }
  { intros z y Hz. symmetry. apply fthreshold_lt. exact Hz. }
  rewrite Ex'. cbn [bind].
  destruct (mwhile n _ (k_truss_body k D os) _) as [[s2|]| |] eqn:E2; try discriminate. cbn [bind option_map]. intros [= <-].
  destruct (mwhile_step (fun st => negb (kt_break st) && (0 <? vnvals (kt_x st))) (fun st => negb (fk_break st) && (0 <? vnvals (fk_x st)))
    (k_truss_body k D os) (fk_truss_body t (Z.of_nat k) D os') (fun st => exists b, kinv N k E b st) krel)
    with (n := n) (s := mkKtruss E R s x false) (s' := mkFktruss E' R' s' x' false) (s1 := s2) as (s2' & -> & R2 & _); auto.
  { intros st st' _ (_ & _ & _ & Rx & ->). rewrite (vnvals_rel _ _ Rx). reflexivity. }
  { intros st st' s3 (b & KI) RK Hc Hb. apply andb_true_iff in Hc as [Hb1 Hx]. apply negb_true_iff in Hb1. apply Z.ltb_lt in Hx.
    destruct (kbody_rel D WD RD CD GD E os os' HO RO b st st' s3 KI Hb1 Hx RK Hb) as (K3 & Q). split; [eauto|auto]. }
  { exists 0%nat. unfold kinv. simpl. split; [auto|]. split; [apply some_rows_refl|]. split; [lia|].
    split; [intros h Hh _ _; exact Hh|]. auto. }
  { unfold krel. simpl. split; [auto|]. split; [|auto]. exact (mrel_imp _ _ _ _ (fsm_fupto 2) RelR). }
  cbn [bind option_map]. eexists. split; [reflexivity|]. eapply mrel_imp; [|apply R2]. apply fsm_exactly.
Qed.
End Types.
