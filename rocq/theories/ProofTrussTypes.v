(** Trusses over machine integers: the run over a machine type follows the run over the integers. *)
From Coq Require Import Lia ZArith.
From Verif Require Import Base ModelLil ModelVec ModelHelpers ModelViews ModelMul ModelElem ModelIndex ModelUtils ModelAlgoBase ModelMis
  ModelAlgebra ModelInts ModelTriInts ModelTruss ModelTrussTypes ModelTriangle
  Spec SpecOps SpecIndex SpecCalls SpecAlgebra SpecGraph SpecTriangle SpecTruss SpecInts SpecRel
  ProofBase ProofRow ProofLil ProofVec ProofViews ProofMul ProofElem ProofReduce ProofIndex ProofAssign ProofAlgebra ProofLaws ProofUtils ProofGraph ProofMis
  ProofTriangle ProofRel ProofInts ProofTriInts ProofTruss ProofKtruss.
Local Open Scope Z_scope.

(** Two loops in step. *)
Lemma mwhile_step {S S'} (c : S -> bool) (c' : S' -> bool) body body' (J : S -> Prop) (R : S -> S' -> Prop) :
  (forall s s', J s -> R s s' -> c s = c' s') ->
  (forall s s' s1, J s -> R s s' -> c s = true -> body s = Ok s1 -> J s1 /\ exists s1', body' s' = Ok s1' /\ R s1 s1') ->
  forall n s s' s1, J s -> R s s' -> mwhile n c body s = Ok (Some s1) -> exists s1', mwhile n c' body' s' = Ok (Some s1') /\ R s1 s1' /\ J s1.
Proof.
  intros Hc Hb n. induction n as [|n IH]; intros s s' s1 HJ HR E; [discriminate E|]. simpl in *. rewrite <- (Hc s s' HJ HR).
  destruct (c s) eqn:Ec.
  - destruct (body s) as [s2| |] eqn:Eb; try discriminate E. cbn [bind] in E.
    destruct (Hb s s' s2 HJ HR Ec Eb) as (J2 & s2' & -> & R2). cbn [bind]. eauto.
  - injection E as <-. eauto.
Qed.

Section Types.
Variable t : ctype.
Hypothesis Ht : integer_type t.

Lemma tmax_1 : 1 <= tmax t.
Proof. clear -Ht. destruct Ht as (s & w & ->). destruct s, w; vm_compute; discriminate. Qed.
Lemma tmax_64 : tmax t < 2 ^ 64.
Proof. clear -Ht. destruct Ht as (s & w & ->). destruct s, w; vm_compute; reflexivity. Qed.

Lemma smul_sm K n (A B : smat Z) (A' B' : smat ival) i j : K <= tmax t ->
  (forall k, orel (sm t 1) (A i k) (A' i k)) -> (forall k, orel (sm t 1) (B k j) (B' k j)) ->
  (forall z, smul Z.add Z.mul n A B i j = Some z -> z <= K) ->
  orel (sm t K) (smul Z.add Z.mul n A B i j) (smul (op2 Plus t) (op2 Times t) n A' B' i j).
Proof.
  clear -Ht. intros HK HA HB HZ.
  assert (F : orel (fits t) (smul Z.add Z.mul n A B i j) (smul (op2 Plus t) (op2 Times t) n A' B' i j)).
  { unfold smul. apply osum_rel; [apply fits_add; auto|]. apply Forall2_maps. intro k. eapply orel_map2; [apply fits_mul; auto| |].
    - specialize (HA k). destruct (A i k), (A' i k); simpl in *; auto. apply (sm_fits t 1); auto using tmax_1.
    - specialize (HB k). destruct (B k j), (B' k j); simpl in *; auto. apply (sm_fits t 1); auto using tmax_1. }
  destruct (smul Z.add Z.mul n A B i j) as [z|], (smul _ _ n A' B' i j) as [x|]; simpl in *; auto.
  specialize (HZ z eq_refl). destruct F as [P F]. split; [|auto]. split; [apply F; lia|]. split; [|lia]. apply pos_inty; auto. lia.
Qed.

(** The product, with any mask and output. *)
Lemma mul_rel {TM TM'} (RM : TM -> TM' -> Prop) K (tr : TM -> bool) (tr' : TM' -> bool) zc' (m : mask (lil TM)) (m' : mask (lil TM')) outp C C' A A' B B' :
  K <= tmax t -> rel1 RM eq tr tr' -> maskrel (mrel RM) m m' -> mrel (sm t K) C C' -> viewrel (sm t 1) A A' -> viewrel (sm t 1) B B' ->
  mxm_conforms m C A B -> match A, B with Trn _, Trn _ => False | _, _ => True end -> rel1 (sm t K) (sm t K) idc zc' ->
  (forall i j z, smul Z.add Z.mul (vcols A) (sview A) (sview B) i j = Some z -> z <= K) ->
  mresult (sm t K) (mxm Z.add Z.mul Z.mul idc idc tr idc (NoAcc idc) m outp C A B)
    (mxm (op2 Plus t) (op2 Times t) (op2 Times t) idc idc tr' zc' (NoAcc idc) m' outp C' A' B').
Proof.
  clear -Ht. intros HK Htr Hm HC HA HB (F & F1 & F2 & F3) NT Hzc HZ. shapes.
  apply (written_rel (sm t K) (sm t K) (sm t K) RM tr tr' idc zc' (NoAcc idc) (NoAcc idc) outp Htr) with (m := m) (m' := m')
    (C := C) (C' := C') (T := smul Z.add Z.mul (vcols A) (sview A) (sview B))
    (T' := smul (op2 Plus t) (op2 Times t) (vcols A') (sview A') (sview B')); auto.
  - intros z x Hx. exact Hx.
  - apply mxm_ok; auto. destruct A, B; tauto.
  - apply mxm_ok; auto; try congruence.
    + replace (nrows C') with (nrows C) by congruence. replace (ncols C') with (ncols C) by congruence. eapply maskrel_fits; eauto.
    + destruct A; destruct A'; simpl in HA; try tauto; auto. destruct B; destruct B'; simpl in HB; tauto.
  - intros i j Hi Hj. replace (vcols A') with (vcols A) by congruence.
    apply smul_sm; auto; [| |apply HZ]; intro k; apply viewrel_get; auto.
Qed.
Lemma imxm_ok K r c A A' B B' :
  K <= tmax t -> viewrel (sm t 1) A A' -> viewrel (sm t 1) B B' -> r = vrows A -> c = vcols B -> vcols A = vrows B ->
  match A, B with Trn _, Trn _ => False | _, _ => True end ->
  (forall i j z, smul Z.add Z.mul (vcols A) (sview A) (sview B) i j = Some z -> z <= K) ->
  exists P P', mxm Z.add Z.mul Z.mul idc idc btrue idc (NoAcc idc) mnomask MERGE (lil_new r c) A B = Ok P /\
    imxm t (lil_new r c) A' B' = Ok P' /\ mrel (sm t K) P P'.
Proof.
  clear -Ht. intros HK HA HB E1 E2 E3 NT HZ.
  destruct (mul_rel (@eq bool) K btrue btrue idc mnomask mnomask MERGE (lil_new r c) (lil_new r c) A A' B B') as (P & P' & Q & Q' & RP); auto.
  - intros z x ->. reflexivity.
  - exact I.
  - apply mrel_new.
  - split; [exact I|]. simpl. auto.
  - intros z x Hx. exact Hx.
  - exists P, P'. split; [auto|]. split; auto. unfold imxm.
    change (mxm (op2 Plus t) (op2 Times t) (op2 Times t) idc idc btrue idc (NoAcc idc) mnomask MERGE (lil_new r c) A' B' = Ok P') in Q'.
    rewrite Q'. cbn [bind]. eapply mrel_defined; eauto.
Qed.
Lemma iproduct_ok {TM TM'} (RM : TM -> TM' -> Prop) K (tr : TM -> bool) (tr' : TM' -> bool) zc' (m : mask (lil TM)) (m' : mask (lil TM')) outp C C' A A' B B' :
  K <= tmax t -> rel1 RM eq tr tr' -> maskrel (mrel RM) m m' -> mrel (sm t K) C C' -> viewrel (sm t 1) A A' -> viewrel (sm t 1) B B' ->
  mxm_conforms m C A B -> match A, B with Trn _, Trn _ => False | _, _ => True end -> rel1 (sm t K) (sm t K) idc zc' ->
  (forall i j z, smul Z.add Z.mul (vcols A) (sview A) (sview B) i j = Some z -> z <= K) ->
  exists P P', mxm Z.add Z.mul Z.mul idc idc tr idc (NoAcc idc) m outp C A B = Ok P /\
    iproduct t zc' tr' m' outp C' A' B' = Ok P' /\ mrel (sm t K) P P'.
Proof.
  clear -Ht. intros HK Htr Hm HC HA HB Cf NT Hzc HZ.
  destruct (mul_rel RM K tr tr' zc' m m' outp C C' A A' B B') as (P & P' & Q & Q' & RP); auto.
  exists P, P'. split; [auto|]. split; auto. unfold iproduct. destruct Cf as (_ & F1 & F2 & F3).
  pose proof HC as (_ & _ & <- & <- & _).
  destruct (imxm_ok K (nrows C) (ncols C) A A' B B') as (X & X' & _ & -> & _); auto.
Qed.

Lemma sm_sharp K K' M M' : mrel (sm t K) M M' -> (forall i j z, mget M i j = Some z -> z <= K') -> mrel (sm t K') M M'.
Proof.
  clear. intros (W & W' & E1 & E2 & G) H. repeat split; auto; try apply W; try apply W'. intros i j. specialize (G i j). specialize (H i j).
  destruct (mget M i j) as [z|], (mget M' i j); simpl in *; auto. destruct G as [(X & Y & _) P]. specialize (H z eq_refl).
  repeat split; auto; try apply Y. lia.
Qed.

Lemma mrel_nvals {A A'} (R : A -> A' -> Prop) M M' : mrel R M M' -> nvals M = nvals M'.
Proof.
  clear. intros (W & W' & E1 & E2 & G).
  assert (S : forall i j, is_some (mget M i j) = is_some (mget M' i j)).
  { intros i j. specialize (G i j). destruct (mget M i j), (mget M' i j); simpl in *; tauto. }
  assert (nvals M <= nvals M') by (apply fewer; auto; intros; rewrite <- S; auto).
  assert (nvals M' <= nvals M) by (apply fewer; auto; intros; rewrite S; auto). lia.
Qed.

(** ** [k_truss2] *)
Section Truss2.
Variables (N k : nat).
Hypothesis K2 : (2 <= k)%nat.
Hypothesis HN : Z.of_nat N <= tmax t.
Hypothesis HK : Z.of_nat k - 2 <= tmax t.

Lemma ithreshold_ok : ithreshold t (Z.of_nat k) = threshold k.
Proof.
  clear -Ht K2 HK. unfold ithreshold, threshold. pose proof tmax_64. rewrite (convert_id (CInt false W64)).
  - apply convert_id. apply pos_inty; auto. lia.
  - split; [change (tmin (CInt false W64)) with 0; lia|]. change (tmax (CInt false W64)) with (2 ^ 64 - 1). lia.
Qed.

Lemma iconv_ok u K z x : integer_type u -> K <= tmax t -> tmax t <= tmax u -> sm t K z x -> sm t K z (iconv u x).
Proof.
  clear -Ht. intros Hu HK HU [(-> & Y & B) P]. split; [|auto]. split; [|auto]. simpl. rewrite convert_id; auto. apply pos_inty; auto. lia.
Qed.
Lemma tmax_u64 : tmax t <= tmax (CInt false W64).
Proof. clear -Ht. pose proof tmax_64. change (tmax (CInt false W64)) with (2 ^ 64 - 1). lia. Qed.

Definition srel (s : truss_state) (s' : itruss_state) : Prop :=
  mrel (sm t 1) (tr_A s) (it_A s') /\ tr_old s = it_old s' /\ tr_new s = it_new s' /\ mrel eq (tr_mask s) (it_mask s') /\
  mrel (sm t (Z.of_nat N)) (tr_support s) (it_support s').

Lemma sup_bound e u v : (support N e u v <= N)%nat.
Proof.
  clear. unfold support. rewrite <- (seq_length N 0) at 2. generalize (seq 0 N). intro l.
  induction l as [|a l IH]; simpl; auto. destruct (_ && _); simpl; lia.
Qed.

Lemma wedges_bound A i j z : simple_graph N A -> smul Z.add Z.mul (vcols (Trn A)) (sview (Trn A)) (sview (Mat A)) i j = Some z -> z <= Z.of_nat N.
Proof.
  clear. intros SG H. pose proof SG as (W & R & C & V & S & I0).
  assert (E : ov (smul Z.add Z.mul (vcols (Trn A)) (sview (Trn A)) (sview (Mat A)) i j) = Z.of_nat (support N (edge A) i j)).
  { rewrite ov_smul. simpl vcols. rewrite R, support_sum. apply sumn_ext.
    intros w _. simpl sview. unfold stran. rewrite !(ov_G N A SG). unfold bz.
    rewrite (e_sym N A SG w i). reflexivity. }
  rewrite H in E. simpl in E. rewrite E. pose proof (sup_bound (edge A) i j). lia.
Qed.

Lemma body_rel s s' s1 : srel s s' -> simple_graph N (tr_A s) ->
  nrows (tr_mask s) = N -> ncols (tr_mask s) = N -> nrows (tr_support s) = N -> ncols (tr_support s) = N ->
  k_truss2_body k s = Ok s1 -> exists s1', ik_truss2_body t (Z.of_nat k) s' = Ok s1' /\ srel s1 s1'.
Proof.
  intros (RA & RO & RN & RM & RS) SG M1 M2 S1 S2. pose proof SG as (W & R & C & V & S & I0).
  unfold k_truss2_body, ik_truss2_body. cbv zeta. set (A := tr_A s) in *. set (A' := it_A s') in *.
  destruct (iproduct_ok (sm t 1) (Z.of_nat N) ztrue itrue (iconv (CInt false W64)) (MVal A) (MVal A') REPLACE (tr_support s) (it_support s')
    (Trn A) (Trn A') (Mat A) (Mat A')) as (P & P' & Q & Q' & RP); auto.
  { intros z x [(-> & _) _]. reflexivity. }
  { split; simpl; repeat split; congruence. }
  { intros z x Hx. apply iconv_ok; auto; [eexists; eexists; reflexivity|apply tmax_u64]. }
  { intros i j z. apply wedges_bound; auto. }
  assert (DP : nrows P = N /\ ncols P = N).
  { destruct (mxm_ok Z.add Z.mul Z.mul idc idc ztrue idc (NoAcc idc) (MVal A) REPLACE (tr_support s)
              (Trn A) (Mat A)) as (P0 & E0 & _ & RP0 & CP0 & _); simpl; auto; try congruence; [apply RS|split; congruence|].
    rewrite Q in E0. injection E0 as <-. split; congruence. }
  rewrite Q, Q'. cbn [bind]. rewrite ithreshold_ok.
  destruct (apply_rel (sm t (Z.of_nat N)) (@eq bool) (@eq bool) (@eq bool) (@eq bool) btrue btrue idc idc REPLACE
    ltac:(intros z x ->; reflexivity) ltac:(intros z x ->; reflexivity) (NoAcc idc) (NoAcc idc) ltac:(intros z x ->; reflexivity)
    (support_min_test (threshold k)) (fun v => isupport_min_test (threshold k) (iconv t v)) mnomask mnomask (tr_mask s) (it_mask s') (Mat P) (Mat P'))
    as (K & K' & X & X' & RK); auto.
  { intros z x Hx. apply (iconv_ok t) in Hx; auto; [|lia]. destruct Hx as [(-> & _) _]. reflexivity. }
  { exact I. }
  { split; [exact I|]. simpl. destruct DP. split; congruence. }
  change (apply (support_min_test (threshold k)) btrue idc (NoAcc idc) mnomask REPLACE (tr_mask s) (Mat P) = Ok K) in X.
  change (apply (fun v => isupport_min_test (threshold k) (iconv t v)) btrue idc (NoAcc idc) mnomask REPLACE (it_mask s') (Mat P') = Ok K') in X'.
  assert (DK : nrows K = N /\ ncols K = N).
  { destruct (apply_ok (support_min_test (threshold k)) btrue idc (NoAcc idc) mnomask REPLACE
              (tr_mask s) (Mat P)) as (K0 & E0 & WK & RK0 & CK0 & GK).
    { apply RM. } { apply RP. } { exact I. } { split; [exact I|]. simpl. destruct DP. split; congruence. }
    rewrite X in E0. injection E0 as <-. split; congruence. }
  rewrite X, X'. cbn [bind].
  destruct (apply_rel (sm t 1) (sm t 1) (sm t 1) (sm t 1) (@eq bool) btrue btrue idc idc REPLACE
    ltac:(intros z x ->; reflexivity) ltac:(intros z x Hx; exact Hx) (NoAcc idc) (NoAcc idc) ltac:(intros z x Hx; exact Hx)
    idc idc (MVal K) (MVal K') A A' (Mat A) (Mat A'))
    as (B & B' & Y & Y' & RB); auto.
  { intros z x Hx. exact Hx. }
  { destruct DK. split; simpl; split; congruence. }
  change (apply idc btrue idc (NoAcc idc) (MVal K) REPLACE A (Mat A) = Ok B) in Y.
  change (apply idc btrue idc (NoAcc idc) (MVal K') REPLACE A' (Mat A') = Ok B') in Y'.
  rewrite Y, Y'. cbn [bind]. intros [= <-]. eexists. split; [reflexivity|]. repeat (split; simpl; auto).
  eapply mrel_nvals; eauto.
Qed.
Definition sinv (s : truss_state) : Prop :=
  simple_graph N (tr_A s) /\ wfm (tr_mask s) /\ nrows (tr_mask s) = N /\ ncols (tr_mask s) = N /\
  wfm (tr_support s) /\ nrows (tr_support s) = N /\ ncols (tr_support s) = N.
Lemma sinv_step s s' s1 : sinv s -> srel s s' -> k_truss2_body k s = Ok s1 ->
  sinv s1 /\ exists s1', ik_truss2_body t (Z.of_nat k) s' = Ok s1' /\ srel s1 s1'.
Proof.
  intros (SG & WM & M1 & M2 & WS & S1 & S2) R E. split.
  - destruct (body_ok N k K2 s SG WM M1 M2 WS S1 S2) as (s2 & E2 & H). rewrite E in E2. injection E2 as <-. unfold sinv. tauto.
  - eapply body_rel; eauto.
Qed.

Theorem ik_truss2_run n G G' H : simple_graph N G -> mrel (exactly t 1) G G' -> k_truss2 n G k = Ok (Some H) ->
  exists H', ik_truss2 t n G' (Z.of_nat k) = Ok (Some H') /\ mrel (exactly t 1) H H'.
Proof.
  intros SG RG. pose proof SG as (W & R & C & V & _). pose proof RG as (_ & _ & _ & EC & _).
  unfold k_truss2, ik_truss2. cbv zeta. rewrite <- EC, C.
  set (s0 := mkTruss G 0 (nvals G) (lil_new N N) (lil_new N N)). set (s0' := mkItruss G' 0 (nvals G') (lil_new N N) (lil_new N N)).
  assert (J0 : sinv s0) by (repeat (split; simpl; auto using lil_new_wf); apply SG).
  assert (R0 : srel s0 s0').
  { split; [apply ones; auto|]. simpl. split; [auto|]. split; [eapply mrel_nvals; eauto|]. split; apply mrel_new. }
  destruct (k_truss2_body k s0) as [s1| |] eqn:E1; try discriminate.
  destruct (sinv_step s0 s0' s1 J0 R0 E1) as (J1 & s1' & -> & R1). cbn [bind].
  destruct (mwhile n _ (k_truss2_body k) s1) as [[s2|]| |] eqn:E2; try discriminate. cbn [bind option_map]. intros [= <-].
  destruct (mwhile_step (fun s => negb (tr_new s =? tr_old s)) (fun s => negb (it_new s =? it_old s)) (k_truss2_body k) (ik_truss2_body t (Z.of_nat k))
    sinv srel) with (n := n) (s := s1) (s' := s1') (s1 := s2) as (s2' & -> & R2 & J2); auto.
  { intros s s' _ (_ & -> & -> & _). reflexivity. }
  { intros s s' s3 J3 R3 _. apply sinv_step; auto. }
  cbn [bind option_map]. eexists. split; [reflexivity|]. eapply mrel_imp; [|apply R2]. intros x y [Hx _]. exact Hx.
Qed.
End Truss2.
End Types.
