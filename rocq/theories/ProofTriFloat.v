(** Triangle counting over [float] and [double]: the run follows the run over the integers while the sums are exact. *)
From Coq Require Import Lia ZArith QArith Floats.SpecFloat.
From Verif Require Import Base ModelLil ModelVec ModelHelpers ModelViews ModelMul ModelElem ModelUtils ModelAlgoBase
  ModelAlgebra ModelOps ModelFloat ModelConv ModelFsssp ModelTriangle ModelTriFloat Spec SpecOps SpecAlgebra SpecGraph SpecTriangle SpecFloats SpecConv
  SpecIntPaths ProofBase ProofLil ProofViews ProofMul ProofElem ProofReduce ProofUtils ProofTriangle ProofRel ProofFloat ProofConv ProofIntPaths
  ProofDeltaTypes ProofTriInts ProofDiv PropDiv SpecRel.
Local Open Scope Z_scope.

(** ** The sums over the integers are twice the number of triangles *)
Section Sums.
Context (N : nat) (G : lil Z).
Hypothesis SG : simple_graph N G.
Let T := Z.of_nat (triangles N (edge G)).

Lemma count_sum :
  (LU <- split G (lil_new N N) (lil_new N N) ;;
   B <- mxm Z.add Z.mul Z.mul idc idc btrue idc (NoAcc idc) mnomask MERGE (lil_new N N) (Mat (fst LU)) (Mat (snd LU)) ;;
   C <- eWiseMult Z.mul Z.mul idc btrue idc (NoAcc idc) mnomask MERGE (lil_new N N) (Mat G) (Mat B) ;;
   sum_all C) = Ok (2 * T).
Proof.
  destruct SG as (W & R & C & V & S & I).
  destruct (split_ok G (lil_new N N) (lil_new N N)) as (L & U & -> & WL & WU & RL & CL & RU & CU & GLU);
    auto using lil_new_wf.
  cbn [bind fst snd].
  destruct (product_ok N G btrue mnomask (Mat L) (Mat U)) as (B & -> & WB & RB & CB & HB);
    simpl; auto; try congruence.
  cbn [bind].
  destruct (eWiseMult_ok Z.mul Z.mul idc btrue idc (NoAcc idc) mnomask MERGE (lil_new N N)
              (Mat G) (Mat B)) as (D & -> & WD & RD & CD & HD); auto using lil_new_wf.
  { exact Logic.I. } { split; [exact Logic.I|]. simpl. repeat split; congruence. }
  cbn [bind]. rewrite sum_all_ok by auto. f_equal. rewrite RD, CD. simpl nrows. simpl ncols. unfold T.
  rewrite <- (count_both N G SG). apply square_ov. intros i j Hi Hj.
  rewrite HD by auto. simpl. unfold idc. rewrite !option_map_id'. rewrite ov_mul, HB by auto.
  rewrite (ov_G N G SG). simpl Z.b2z. rewrite Z.mul_1_l, sumn_scale. apply sumn_ext. intros k Hk. f_equal.
  simpl sview. destruct (GLU i k) as [-> _], (GLU k j) as [_ ->]. rewrite !mget_new.
  replace (oadd _ None (mget G i k)) with (mget G i k) by (destruct (mget G i k); reflexivity).
  replace (oadd _ None (mget G k j)) with (mget G k j) by (destruct (mget G k j); reflexivity).
  f_equal.
  - destruct (Nat.leb_spec k i), (Nat.ltb_spec k i); simpl ov; simpl Z.b2z; try lia.
    + rewrite (ov_G N G SG). lia.
    + replace k with i by lia. rewrite I. reflexivity.
  - destruct (k <? j)%nat; simpl ov; simpl Z.b2z; [rewrite (ov_G N G SG)|]; lia.
Qed.

Lemma new_sum (L : mview Z) (U : lil Z) : wfview L -> vrows L = N -> vcols L = N -> (forall i j, sview L i j = lower (mget G) i j) ->
  wfm U -> nrows U = N -> ncols U = N -> (forall i j, mget U i j = upper (mget G) i j) ->
  (B <- mxm Z.add Z.mul Z.mul idc idc btrue idc (NoAcc idc) mnomask MERGE (lil_new N N) L (Mat U) ;;
   C <- eWiseMult Z.mul Z.mul idc btrue idc (NoAcc idc) mnomask REPLACE (lil_new N N) L (Mat B) ;;
   sum <- sum_all C ;;
   C <- eWiseMult Z.mul Z.mul idc btrue idc (NoAcc idc) mnomask REPLACE C (Mat U) (Mat B) ;;
   reduce_ms 0 idc Z.add Z.add Z.add idc (Acc Z.add idc idc) sum C) = Ok (2 * T).
Proof.
  intros WL RL CL GL WU RU CU GU.
  destruct (product_ok N G btrue mnomask L (Mat U)) as (B & -> & WB & RB & CB & HB);
    simpl; auto; try congruence.
  { destruct L; exact Logic.I. }
  cbn [bind].
  destruct (eWiseMult_ok Z.mul Z.mul idc btrue idc (NoAcc idc) mnomask REPLACE (lil_new N N)
              L (Mat B)) as (D & -> & WD & RD & CD & HD); auto using lil_new_wf.
  { exact Logic.I. } { split; [exact Logic.I|]. simpl. repeat split; congruence. }
  cbn [bind]. rewrite sum_all_ok by auto. cbn [bind].
  destruct (eWiseMult_ok Z.mul Z.mul idc btrue idc (NoAcc idc) mnomask REPLACE D
              (Mat U) (Mat B)) as (D2 & -> & WD2 & RD2 & CD2 & HD2); auto.
  { exact Logic.I. } { split; [exact Logic.I|]. simpl in *. repeat split; congruence. }
  cbn [bind]. rewrite reduce_ms_rows by auto. cbn [bind].
  rewrite rows_sum_total; [|reflexivity|intros; lia|reflexivity].
  rewrite ov_total. rewrite RD2, CD2, RD, CD. simpl nrows. simpl ncols. cbv beta iota. f_equal. unfold idc at 1.
  assert (EL : forall i j, (i < N)%nat -> (j < N)%nat ->
    ov (mget B i j) = sumn (fun k => Z.b2z (k <? i)%nat * bz G i k * (Z.b2z (k <? j)%nat * bz G k j)) N).
  { intros i j Hi Hj. rewrite HB by auto. simpl Z.b2z. rewrite Z.mul_1_l. apply sumn_ext. intros k Hk.
    simpl sview. rewrite GL, GU, (ov_lower N G SG), (ov_upper N G SG). reflexivity. }
  replace (sumn _ N) with T at 1.
  2: { symmetry. unfold T. rewrite <- (count_kji N G SG). apply square_ov. intros i j Hi Hj.
       rewrite HD by auto. simpl. unfold idc.
       replace (option_map _ (option_map _ _)) with (omap2 Z.mul (sview L i j) (mget B i j)).
       2: { destruct L; rewrite !option_map_id'; reflexivity. }
       rewrite ov_mul, EL by auto. rewrite GL, (ov_lower N G SG). rewrite sumn_scale. reflexivity. }
  replace (sumn _ N) with T.
  2: { symmetry. unfold T. rewrite <- (count_kij N G SG). apply square_ov. intros i j Hi Hj.
       rewrite HD2 by (simpl in *; congruence). simpl. unfold idc. rewrite !option_map_id'.
       rewrite ov_mul, EL by auto. rewrite GU, (ov_upper N G SG). rewrite sumn_scale. reflexivity. }
  lia.
Qed.
End Sums.

(** ** The run over the floating point numbers *)
Section Tri.
Context (t : ftype).
Notation P := (2 ^ prec t).
Notation FR := (ProofIntPaths.FR t).

(** The number 1; a positive number, known while it is exact; the same for numbers from 0. *)
Definition fone (z : Z) (x : fval) : Prop := z = 1 /\ FR 1 x.
Definition ffit (z : Z) (x : fval) : Prop := 1 <= z /\ (z <= P -> FR z x).
Definition ffit0 (z : Z) (x : fval) : Prop := 0 <= z /\ (z <= P -> FR z x).

Lemma fone_ffit z x : fone z x -> ffit z x.
Proof. intros (-> & H). split; [lia|auto]. Qed.
Lemma ffit_0 z x : ffit z x -> ffit0 z x.
Proof. intros (A & X). split; [lia|auto]. Qed.
Lemma ffit_add : rel2 ffit ffit ffit Z.add (FPlus t).
Proof. intros a x b y (A & X) (B & Y). split; [lia|]. intro H. apply FR_plus; try lia; [apply X|apply Y]; lia. Qed.
Lemma ffit0_add : rel2 ffit0 ffit0 ffit0 Z.add (FPlus t).
Proof. intros a x b y (A & X) (B & Y). split; [lia|]. intro H. apply FR_plus; try lia; [apply X|apply Y]; lia. Qed.
Lemma ffit_mul : rel2 ffit ffit ffit Z.mul (FTimes t).
Proof. intros a x b y (A & X) (B & Y). split; [nia|]. intro H. apply FR_times; try nia; [apply X|apply Y]; nia. Qed.
Lemma ffit_new n m : mrel ffit (lil_new n m) (lil_new n m).
Proof. apply mrel_new. Qed.

Lemma fproduct_run {TM TM'} (RM : TM -> TM' -> Prop) N tr tr' (m : mask (lil TM)) (m' : mask (lil TM')) A A' B B' :
  rel1 RM eq tr tr' -> maskrel (mrel RM) m m' -> mask_fits m N N -> viewrel fone A A' -> viewrel fone B B' -> prod_conforms N A B ->
  mresult ffit (mxm Z.add Z.mul Z.mul idc idc tr idc (NoAcc idc) m MERGE (lil_new N N) A B)
    (mxm (FPlus t) (FTimes t) (FTimes t) idc idc tr' idc (NoAcc idc) m' MERGE (lil_new N N) A' B').
Proof.
  intros Htr Hm Fm HA HB (RA & CA & RB & CB & NT).
  apply (mxm_rel ffit ffit ffit ffit ffit RM); auto using ffit_add, ffit_mul, ffit_new.
  - intros z x Hx. exact Hx.
  - intros z x Hx. exact Hx.
  - destruct A, B; tauto.
  - destruct A; destruct A'; simpl in HA; try tauto; auto. destruct B; destruct B'; simpl in HB; tauto.
  - eapply viewrel_imp; [|exact HA]. apply fone_ffit.
  - eapply viewrel_imp; [|exact HB]. apply fone_ffit.
  - split; [simpl; auto|]. simpl. repeat split; congruence.
Qed.
Lemma fewise_run N outp C C' A A' B B' : mrel ffit C C' -> nrows C = N -> ncols C = N ->
  viewrel fone A A' -> vrows A = N -> vcols A = N -> mrel ffit B B' -> nrows B = N -> ncols B = N ->
  exists D D', eWiseMult Z.mul Z.mul idc btrue idc (NoAcc idc) mnomask outp C A (Mat B) = Ok D /\
    fewise_times t outp C' A' (Mat B') = Ok D' /\ mrel ffit D D' /\ nrows D = N /\ ncols D = N.
Proof.
  intros HC RC CC HA RA CA HB RB CB.
  destruct (eWiseMult_rel ffit ffit ffit ffit ffit (@eq bool)
    btrue btrue idc idc outp ltac:(intros z x ->; reflexivity) ltac:(intros z x Hx; exact Hx) (NoAcc idc) (NoAcc idc) ltac:(intros z x Hx; exact Hx)
    Z.mul (FTimes t) ffit_mul Z.mul (FTimes t) idc idc mnomask mnomask C C' A A' (Mat B) (Mat B')) as (D & D' & E & E' & R);
    auto; try (destruct A, A'; exact I); try exact I.
  { eapply viewrel_imp; [|exact HA]. apply fone_ffit. }
  { split; [exact I|]. simpl. repeat split; congruence. }
  destruct (eWiseMult_ok Z.mul Z.mul idc btrue idc (NoAcc idc) mnomask outp C A (Mat B)) as (D0 & E0 & WD & RD & CD & _).
  { apply HC. } { apply (proj1 (viewrel_wf _ _ _ HA)). } { apply HB. } { exact I. }
  { split; [exact I|]. simpl. repeat split; congruence. }
  assert (Y : eWiseMult Z.mul Z.mul idc btrue idc (NoAcc idc) mnomask outp C A (Mat B) = Ok D) by exact E.
  exists D, D'. split; [exact Y|]. split; [exact E'|]. split; auto. rewrite Y in E0. injection E0 as <-. split; congruence.
Qed.
Lemma fsum_rel s0 s0' a a' C C' : mrel ffit C C' -> ffit0 s0 s0' -> accrel ffit0 ffit0 ffit0 a a' ->
  exists s s', reduce_ms 0 idc Z.add Z.add Z.add idc a s0 C = Ok s /\
    reduce_ms ModelFloat.f0 idc (FPlus t) (FPlus t) (FPlus t) idc a' s0' C' = Ok s' /\ ffit0 s s'.
Proof.
  intros HC H0 Ha.
  apply (reduce_ms_rel ffit ffit0 ffit0 ffit0); auto.
  - intros z x Hx. exact Hx.
  - split; [lia|]. intros _. apply FR_0.
  - intros z x Hx. apply ffit_0. exact Hx.
  - intros z x y w Hx Hy. apply ffit0_add; auto. apply ffit_0; auto.
  - apply ffit0_add.
Qed.
Lemma fsum_run C C' : mrel ffit C C' -> exists s s', sum_all C = Ok s /\ fsum t C' = Ok s' /\ ffit0 s s'.
Proof.
  intro HC. apply (fsum_rel 0 ModelFloat.f0 (NoAcc idc) (NoAcc idc) C C'); auto.
  - split; [lia|]. intros _. apply FR_0.
  - intros z x Hx. exact Hx.
Qed.
Lemma fsum_plus_run s s' C C' : mrel ffit C C' -> ffit0 s s' ->
  exists r r', reduce_ms 0 idc Z.add Z.add Z.add idc (Acc Z.add idc idc) s C = Ok r /\ fsum_plus t s' C' = Ok r' /\ ffit0 r r'.
Proof.
  intros HC H0. apply (fsum_rel s s' (Acc Z.add idc idc) (Acc (FPlus t) idc idc) C C'); auto.
  split; [apply ffit0_add|split; intros z x Hx; exact Hx].
Qed.

(** [T] is stored as an exact number. *)
Definition ans (T : Z) (r : res fval) : Prop := exists x, r = Ok x /\ fexactly t P T x.
Lemma FR_ans z x : 0 <= z <= P -> FR z x -> fexactly t P z x.
Proof. intros Hz H. apply FR_ex; [apply Z.le_refl|]. split; [exact H|]. rewrite Z.abs_eq; apply Hz. Qed.
Lemma half_run T s : 0 <= 2 * T <= P -> ffit0 (2 * T) s -> ans T (Ok (fhalf t s)).
Proof.
  intros HT (_ & H). specialize (H (proj2 HT)). eexists. split; [reflexivity|].
  assert (A1 : Z.abs (2 * T) <= P) by lia. assert (A3 : Z.abs T <= P) by lia.
  destruct (FR_finite t (2 * T) s A1 H) as (FS & SS). destruct H as ((VS & NS) & _).
  destruct (int_exact t (2 * T) A1) as (V1 & F1 & E1). destruct (int_exact t 2) as (V2 & F2 & E2).
  { destruct t; vm_compute; discriminate. }
  destruct (int_exact t T A3) as (V3 & F3 & E3).
  destruct (int_ok t (2 * T) A1) as (_ & _ & S1).
  assert (NZ : ~ (real (of_int t 2) == 0)%Q) by (rewrite E2; unfold Qeq; cbn; lia).
  assert (ER : (real (of_int t T) * real (of_int t 2) == real s)%Q).
  { rewrite (real_sv t s VS FS), SS, <- S1, <- (real_sv t _ V1 F1), E1, E2, E3, <- inject_Z_mult. rewrite Z.mul_comm. reflexivity. }
  pose proof (C153_exact t s (of_int t 2) (of_int t T) VS V2 V3 FS F2 F3 NZ ER) as D.
  split; [|exact A3]. split; [|exact D]. apply (div_rounds t s (of_int t 2) VS V2 FS F2 NZ).
Qed.

Context (N : nat) (G : lil Z) (G' : lil fval).
Hypothesis SG : simple_graph N G.
Let T := Z.of_nat (triangles N (edge G)).

Lemma fones {M M'} : mrel (fexactly t 1) M M' -> (forall i j v, mget M i j = Some v -> v = 1) -> mrel fone M M'.
Proof.
  clear. intros (W & W' & E1 & E2 & H) O. split; [auto|]. split; [auto|]. split; [auto|]. split; [auto|]. intros i j. specialize (H i j). specialize (O i j).
  destruct (mget M i j), (mget M' i j); simpl in *; auto. rewrite (O z eq_refl) in *. split; auto.
  apply FR_ex in H; [apply H|]. pose proof (P_pos t). lia.
Qed.
Lemma fpart_ones {M : mview Z} {M'} (p : smat Z -> smat Z) : viewrel (fexactly t 1) M M' ->
  (forall i j, sview M i j = p (mget G) i j) -> (forall i j v, p (mget G) i j = Some v -> mget G i j = Some v) -> viewrel fone M M'.
Proof.
  intros H E Hp. destruct SG as (_ & _ & _ & V & _). destruct M as [M|M], M' as [M'|M']; simpl in *; try tauto; apply fones; auto; intros i j v Hv.
  - apply (V i j), Hp. rewrite <- E. auto.
  - apply (V j i), Hp. rewrite <- E. auto.
Qed.
Lemma fproduct_dims A A' B B' : viewrel fone A A' -> viewrel fone B B' -> prod_conforms N A B ->
  exists Q Q', mxm Z.add Z.mul Z.mul idc idc btrue idc (NoAcc idc) mnomask MERGE (lil_new N N) A B = Ok Q /\
    tri_fmxm t (lil_new N N) A' B' = Ok Q' /\ mrel ffit Q Q' /\ nrows Q = N /\ ncols Q = N.
Proof.
  intros HA HB Cf. destruct (fproduct_run (@eq bool) N btrue btrue mnomask mnomask A A' B B') as (Q & Q' & E & E' & R); auto.
  { intros z x ->. reflexivity. } { exact I. } { exact I. }
  destruct Cf as (RA & CA & RB & CB & NT).
  destruct (product_ok N G btrue mnomask A B) as (Q0 & E0 & W0 & R0 & C0 & _); auto; try exact I;
    try apply (proj1 (viewrel_wf _ _ _ HA)); try apply (proj1 (viewrel_wf _ _ _ HB)).
  exists Q, Q'. split; [exact E|]. split; [exact E'|]. split; [exact R|].
  assert (Q = Q0) by congruence. subst. auto.
Qed.

Lemma ftriangle_count_run : mrel (fexactly t 1) G G' -> 2 * T <= P -> ans T (ftriangle_count t G').
Proof.
  intros HG HT. pose proof (count_sum N G SG) as OK. destruct SG as (W & R & C & V & S & Ir). fold T in OK.
  pose proof (fones HG V) as H1. pose proof HG as (_ & W' & R' & C' & _).
  unfold ftriangle_count. rewrite <- R', <- C', R, C.
  destruct (split_ok G (lil_new N N) (lil_new N N)) as (L & U & EL & WL & WU & RL & CL & RU & CU & GLU); auto using lil_new_wf.
  rewrite EL in OK. cbn [bind fst snd] in OK.
  destruct (split_ok G' (lil_new N N) (lil_new N N)) as (L' & U' & EL' & WL' & WU' & RL' & CL' & RU' & CU' & GLU');
    auto using lil_new_wf; simpl; try congruence.
  rewrite EL'. cbn [bind fst snd].
  assert (HL : mrel fone L L').
  { split; [auto|]. split; [auto|]. split; [congruence|]. split; [congruence|]. intros i j. destruct (GLU i j) as [-> _], (GLU' i j) as [-> _].
    rewrite !mget_new. destruct (j <=? i)%nat; [|exact I]. pose proof (proj2 (proj2 (proj2 (proj2 H1))) i j) as H. destruct (mget G i j), (mget G' i j); simpl in *; auto. }
  assert (HU : mrel fone U U').
  { split; [auto|]. split; [auto|]. split; [congruence|]. split; [congruence|]. intros i j. destruct (GLU i j) as [_ ->], (GLU' i j) as [_ ->].
    rewrite !mget_new. destruct (i <? j)%nat; [|exact I]. pose proof (proj2 (proj2 (proj2 (proj2 H1))) i j) as H. destruct (mget G i j), (mget G' i j); simpl in *; auto. }
  destruct (fproduct_dims (Mat L) (Mat L') (Mat U) (Mat U')) as (B & B' & EB & EB' & HB & RB & CB); auto.
  { split; [simpl; congruence|]. split; [simpl; congruence|]. split; [simpl; congruence|]. split; [simpl; congruence|exact I]. }
  rewrite EB in OK. cbn [bind] in OK. rewrite EB'. cbn [bind].
  destruct (fewise_run N MERGE (lil_new N N) (lil_new N N) (Mat G) (Mat G') B B') as (D & D' & ED & ED' & HD & RD & CD); auto; try apply mrel_new.
  rewrite ED in OK. cbn [bind] in OK. rewrite ED'. cbn [bind].
  destruct (fsum_run D D' HD) as (s & s' & Es & Es' & Fs).
  rewrite Es in OK. injection OK as ->. rewrite Es'. cbn [bind]. apply half_run; auto. unfold T in *. lia.
Qed.

Lemma fmasked_run L L' A A' B B' : T <= P -> mrel fone L L' -> nrows L = N -> ncols L = N ->
  viewrel fone A A' -> viewrel fone B B' -> prod_conforms N A B ->
  (B <- mxm Z.add Z.mul Z.mul idc idc ztrue idc (NoAcc idc) (MVal L) MERGE (lil_new N N) A B ;; sum_all B) = Ok T ->
  ans T (B <- tri_fmxm_masked t L' (lil_new N N) A' B' ;; fsum t B).
Proof.
  intros HT HL RL CL HA HB Cf OK.
  destruct (fproduct_run fone N ztrue ftrue (MVal L) (MVal L') A A' B B') as (Q & Q' & E & E' & HQ); auto.
  { intros z x (-> & H). apply (FR_true t 1 x H). }
  { split; auto. }
  rewrite E in OK. cbn [bind] in OK. unfold tri_fmxm_masked. rewrite E'. cbn [bind].
  destruct (fsum_run Q Q' HQ) as (s & s' & Es & Es' & S0 & Fs). assert (s = T) by congruence. subst s.
  exists s'. split; [exact Es'|]. apply FR_ans; auto.
Qed.

Section Lower.
Context (L : lil Z) (L' : lil fval).
Hypothesis HT : T <= P.
Hypothesis HL : mrel (fexactly t 1) L L'.
Hypothesis RL : nrows L = N.
Hypothesis CL : ncols L = N.
Hypothesis GL : forall i j, mget L i j = lower (mget G) i j.

Lemma ftriangle_count_masked_LU_run U U' : mrel (fexactly t 1) U U' -> nrows U = N -> ncols U = N ->
  (forall i j, mget U i j = upper (mget G) i j) -> ans T (ftriangle_count_masked_LU t L' U').
Proof.
  intros HU RU CU GU. pose proof (proj1 HL) as WL. pose proof (proj1 HU) as WU. pose proof HL as (_ & WL' & RL' & CL' & _).
  assert (HL1 : viewrel fone (Mat L) (Mat L')) by (apply (fpart_ones lower); auto; apply lower_in).
  assert (HU1 : viewrel fone (Mat U) (Mat U')) by (apply (fpart_ones upper); auto; apply upper_in).
  unfold ftriangle_count_masked_LU. rewrite <- RL', <- CL', RL, CL.
  apply (fmasked_run L L' (Mat L) (Mat L') (Mat U) (Mat U')); auto; [repeat split; auto|].
  pose proof (triangle_count_masked_LU_ok N G SG L U WL RL CL GL WU RU CU GU) as K. unfold triangle_count_masked_LU in K. rewrite RL, CL in K. exact K.
Qed.
Lemma ftriangle_count_masked_run : ans T (ftriangle_count_masked t L').
Proof.
  pose proof (proj1 HL) as WL. pose proof HL as (_ & WL' & RL' & CL' & _).
  assert (HL1 : viewrel fone (Mat L) (Mat L')) by (apply (fpart_ones lower); auto; apply lower_in).
  unfold ftriangle_count_masked. rewrite <- RL', <- CL', RL, CL.
  apply (fmasked_run L L' (Mat L) (Mat L') (Trn L) (Trn L')); auto; [repeat split; auto|].
  pose proof (triangle_count_masked_ok N G SG L L WL RL CL GL RL CL) as K. unfold triangle_count_masked in K. rewrite RL, CL in K. exact K.
Qed.
Lemma ftriangle_count_masked_noT_run : ans T (ftriangle_count_masked_noT t L').
Proof.
  pose proof (proj1 HL) as WL. pose proof HL as (_ & WL' & RL' & CL' & _).
  assert (HL1 : viewrel fone (Mat L) (Mat L')) by (apply (fpart_ones lower); auto; apply lower_in).
  unfold ftriangle_count_masked_noT. rewrite <- RL', <- CL', RL, CL.
  apply (fmasked_run L L' (Mat L) (Mat L') (Mat L) (Mat L')); auto; [repeat split; auto|].
  pose proof (triangle_count_masked_noT_ok N G SG L L WL RL CL GL RL CL) as K. unfold triangle_count_masked_noT in K. rewrite RL, CL in K. exact K.
Qed.
End Lower.

Lemma ftriangle_count_newGBTL_run (L : mview Z) L' U U' : 2 * T <= P -> viewrel (fexactly t 1) L L' -> vrows L = N -> vcols L = N ->
  (forall i j, sview L i j = lower (mget G) i j) -> mrel (fexactly t 1) U U' -> nrows U = N -> ncols U = N ->
  (forall i j, mget U i j = upper (mget G) i j) -> ans T (ftriangle_count_newGBTL t L' U').
Proof.
  intros HT HL RL CL GL HU RU CU GU.
  pose proof (new_sum N G SG L U (proj1 (viewrel_wf _ _ _ HL)) RL CL GL (proj1 HU) RU CU GU) as OK. fold T in OK.
  assert (HL1 : viewrel fone L L') by (apply (fpart_ones lower); auto; apply lower_in).
  assert (HU1 : viewrel fone (Mat U) (Mat U')) by (apply (fpart_ones upper); auto; apply upper_in).
  unfold ftriangle_count_newGBTL. destruct (viewrel_rows _ _ _ HL) as [R' C'].
  rewrite <- R', <- C', RL, CL.
  destruct (fproduct_dims L L' (Mat U) (Mat U')) as (B & B' & EB & EB' & HB & RB & CB); auto.
  { repeat split; auto. destruct L; exact I. }
  rewrite EB in OK. cbn [bind] in OK. rewrite EB'. cbn [bind].
  destruct (fewise_run N REPLACE (lil_new N N) (lil_new N N) L L' B B') as (D & D' & ED & ED' & HD & RD & CD); auto; try apply mrel_new.
  rewrite ED in OK. cbn [bind] in OK. rewrite ED'. cbn [bind].
  destruct (fsum_run D D' HD) as (s & s' & Es & Es' & Fs). rewrite Es in OK. cbn [bind] in OK. rewrite Es'. cbn [bind].
  destruct (fewise_run N REPLACE D D' (Mat U) (Mat U') B B') as (D2 & D2' & ED2 & ED2' & HD2 & RD2 & CD2); auto.
  rewrite ED2 in OK. cbn [bind] in OK. rewrite ED2'. cbn [bind].
  destruct (fsum_plus_run s s' D2 D2' HD2 Fs) as (r & r' & Er & Er' & Fr).
  assert (r = 2 * T) by congruence. subst r. rewrite Er'. cbn [bind]. apply half_run; auto. unfold T in *. lia.
Qed.
End Tri.
