(** The path algorithms over machine integers and over floating point numbers that are integers. *)
From Coq Require Import Lia ZArith Floats.SpecFloat.
From Verif Require Import Base ModelLil ModelVec ModelHelpers ModelViews ModelMul ModelElem ModelIndex ModelUtils ModelAlgoBase ModelSssp ModelMetrics
  ModelAlgebra ModelFloat ModelFsssp ModelInts ModelIntPaths Spec SpecOps SpecAlgebra SpecFloats SpecFpaths SpecPaths SpecMetrics SpecInts SpecIntPaths
  ProofBase ProofLil ProofVec ProofGraph ProofPaths ProofSssp ProofMetrics ProofRound ProofFloat ProofFint ProofInts ProofApspBound ProofExact SpecRel.
Local Open Scope Z_scope.

(** ** Integers *)
Section Ints.
Variable t : ctype.
Hypothesis Ht : integer_type t.
Definition IR (z : Z) (x : ival) : Prop := x = Ok z /\ inty t z.
Lemma IR_ex K z x : ex IR K z x <-> exactly t K z x.
Proof. unfold ex, IR, exactly. tauto. Qed.
Lemma IR_min : rel2 IR IR IR zmin (op2 Min t).
Proof. intros a x b y [-> Ha] [-> Hb]. unfold zmin. simpl. unfold Min. destruct (a <? b); split; auto. Qed.
Lemma IR_max : rel2 IR IR IR zmax (op2 Max t).
Proof. intros a x b y [-> Ha] [-> Hb]. unfold zmax. simpl. unfold Max. destruct (a <? b); split; auto. Qed.
Lemma IR_plus a x b y : Z.abs a <= tmax t -> Z.abs b <= tmax t -> Z.abs (a + b) <= tmax t -> IR a x -> IR b y -> IR (a + b) (op2 Plus t x y).
Proof.
  intros La Lb L [-> Ha] [-> Hb]. assert (H : inty t (a + b)).
  { apply inty_bound; auto. intro E. unfold inty in *. lia. }
  split; [|auto]. simpl. apply fits_plus; auto.
Qed.
Lemma IR_eqb : rel2 IR IR eq Z.eqb ieqb.
Proof. intros a x b y [-> _] [-> _]. auto. Qed.
Lemma IR_ltb : rel2 IR IR eq Z.ltb iltb.
Proof. intros a x b y [-> _] [-> _]. auto. Qed.
Lemma IR_true : rel1 IR eq ztrue inonzero.
Proof. intros a x [-> _]. auto. Qed.
Lemma inty_0 : inty t 0.
Proof. destruct Ht as (s & w & ->). destruct s, w; split; vm_compute; discriminate. Qed.
Lemma IR_0 : IR 0 (Ok 0).
Proof. split; [auto|apply inty_0]. Qed.
Lemma tmax_nonneg : 0 <= tmax t.
Proof. destruct inty_0. auto. Qed.
Lemma IR_low : IR (tmin t) (Ok (tmin t)).
Proof. split; [auto|]. destruct inty_0. split; lia. Qed.
Lemma IR_high : IR (tmax t) (Ok (tmax t)).
Proof. split; [auto|]. destruct inty_0. split; lia. Qed.
Lemma IR_chkv u u' : vrel IR u u' -> defined_v u' = Ok u'.
Proof.
  intros (_ & W & _ & H). apply defined_v_ok; [apply W|]. intros i x Hx. specialize (H i). rewrite Hx in H.
  destruct (vget u i); [destruct H; eauto|contradiction].
Qed.
Lemma IR_chkm M M' : mrel IR M M' -> defined_m M' = Ok M'.
Proof.
  intros (_ & W & _ & _ & H). apply defined_m_ok; auto. intros i j x Hx. specialize (H i j). rewrite Hx in H.
  destruct (mget M i j); [destruct H; eauto|contradiction].
Qed.
Lemma IR_defined z x : IR z x -> idefined x = Ok x.
Proof. intros [-> _]. auto. Qed.
Lemma IR_m K M M' : mrel (exactly t K) M M' -> mrel (ex IR K) M M'.
Proof. apply mrel_impl. intros. apply IR_ex. auto. Qed.
Lemma IR_v K M M' : vrel (exactly t K) M M' -> vrel (ex IR K) M M'.
Proof. apply vrel_impl. intros. apply IR_ex. auto. Qed.
Lemma m_IR K M M' : mrel (ex IR K) M M' -> mrel (exactly t K) M M'.
Proof. apply mrel_impl. intros. apply IR_ex. auto. Qed.
Lemma v_IR K M M' : vrel (ex IR K) M M' -> vrel (exactly t K) M M'.
Proof. apply vrel_impl. intros. apply IR_ex. auto. Qed.
End Ints.

(** ** Floating point *)
Section Floats.
Variable t : ftype.
Notation P := (2 ^ prec t).
Definition FR (z : Z) (x : fval) : Prop :=
  number t x /\ (Z.abs z <= P /\ sv t x = z * unit_of t \/ z = P + 1 /\ x = finf \/ z = - (P + 1) /\ x = fninf).
Lemma P_pos : 0 < P.
Proof. pose proof (prec_ok t). lia. Qed.
Lemma sv_inf : sv t finf = big (prec t) (emax t) /\ sv t fninf = - big (prec t) (emax t).
Proof. unfold sv, finf, fninf. simpl. lia. Qed.
Lemma FR_order a x b y : FR a x -> FR b y -> (sv t x ?= sv t y) = (a ?= b).
Proof.
  intros [Nx Hx] [Ny Hy]. pose proof (unit_pos t). pose proof (unit_big t). destruct sv_inf as [S1 S2]. pose proof P_pos.
  assert (La : forall z, Z.abs z <= P -> - big (prec t) (emax t) < z * unit_of t < big (prec t) (emax t)) by (intros; nia).
  destruct Hx as [[Bx Ex]|[[-> ->]|[-> ->]]], Hy as [[By Ey]|[[-> ->]|[-> ->]]]; rewrite ?Ex, ?Ey, ?S1, ?S2;
    try (rewrite !Z.compare_refl; reflexivity); try (specialize (La _ Bx)); try (specialize (La _ By)); symmetry.
  - destruct (Z.compare_spec a b); symmetry.
    + subst. apply Z.compare_refl.
    + apply Z.compare_lt_iff. nia.
    + apply Z.compare_gt_iff. nia.
  - transitivity Lt; [apply Z.compare_lt_iff|symmetry; apply Z.compare_lt_iff]; lia.
  - transitivity Gt; [apply Z.compare_gt_iff|symmetry; apply Z.compare_gt_iff]; lia.
  - transitivity Gt; [apply Z.compare_gt_iff|symmetry; apply Z.compare_gt_iff]; lia.
  - transitivity Gt; [apply Z.compare_gt_iff|symmetry; apply Z.compare_gt_iff]; lia.
  - transitivity Lt; [apply Z.compare_lt_iff|symmetry; apply Z.compare_lt_iff]; lia.
  - transitivity Lt; [apply Z.compare_lt_iff|symmetry; apply Z.compare_lt_iff]; lia.
Qed.
Lemma FR_lt a x b y : FR a x -> FR b y -> SFltb x y = (a <? b).
Proof. intros Hx Hy. rewrite (ltb_sv t) by (apply Hx || apply Hy). unfold Z.ltb. rewrite (FR_order a x b y); auto. Qed.
Lemma FR_ltb : rel2 FR FR eq Z.ltb FLessThan.
Proof. intros a x b y Hx Hy. unfold FLessThan. rewrite (FR_lt a x b y); auto. Qed.
Lemma FR_eqb : rel2 FR FR eq Z.eqb FEqual.
Proof. intros a x b y Hx Hy. unfold FEqual. rewrite (eqb_sv t) by (apply Hx || apply Hy). rewrite !Z.eqb_compare. rewrite (FR_order a x b y); auto. Qed.
Lemma FR_min : rel2 FR FR FR zmin (FMin t).
Proof. intros a x b y Hx Hy. unfold zmin, FMin. rewrite (FR_lt a x b y) by auto. destruct (a <? b); auto. Qed.
Lemma FR_max : rel2 FR FR FR zmax (FMax t).
Proof. intros a x b y Hx Hy. unfold zmax, FMax. rewrite (FR_lt a x b y) by auto. destruct (a <? b); auto. Qed.
Lemma FR_finite z x : Z.abs z <= P -> FR z x -> finite x /\ sv t x = z * unit_of t.
Proof.
  intros L [N H]. destruct H as [[_ E]|[[-> _]|[-> _]]]; [|pose proof P_pos; lia..]. split; [|auto].
  pose proof (unit_big t). pose proof (unit_pos t). destruct x as [s|s| |s m e]; try exact I; [|destruct N; congruence].
  unfold sv in E. simpl in E. destruct s; simpl in E; nia.
Qed.
Lemma FR_plus a x b y : Z.abs a <= P -> Z.abs b <= P -> Z.abs (a + b) <= P -> FR a x -> FR b y -> FR (a + b) (FPlus t x y).
Proof.
  intros La Lb L Hx Hy. destruct (FR_finite a x La Hx) as [Fx Sx]. destruct (FR_finite b y Lb Hy) as [Fy Sy].
  destruct (plus_fin t x y (proj1 (proj1 Hx)) (proj1 (proj1 Hy)) Fx Fy) as [Np Ep].
  split; [auto|]. left. split; [auto|]. rewrite Ep, Sx, Sy, <- Z.mul_add_distr_r. apply Rz_int. auto.
Qed.
Lemma FR_true : rel1 FR eq ztrue ftrue.
Proof.
  intros z x [N H]. pose proof (unit_pos t). pose proof P_pos. destruct H as [[L E]|[[-> ->]|[-> ->]]].
  - unfold ztrue. destruct (Z.eqb_spec z 0) as [->|Nz].
    + destruct x as [s|s| |s m e]; try reflexivity; [| |]; exfalso.
      * pose proof (unit_big t). unfold sv in E. simpl in E. destruct s; simpl in E; nia.
      * destruct N; congruence.
      * destruct (sv_inj t (S754_finite s m e) f0) as [X|(s1 & s2 & X & _)]; try discriminate; auto.
        split; [reflexivity|discriminate].
    + destruct x as [s|s| |s m e]; try reflexivity. unfold sv in E. simpl in E. nia.
  - unfold ztrue. destruct (Z.eqb_spec (P + 1) 0); [lia|reflexivity].
  - unfold ztrue. destruct (Z.eqb_spec (- (P + 1)) 0); [lia|reflexivity].
Qed.
Lemma FR_0 : FR 0 f0.
Proof. split; [split; [reflexivity|discriminate]|]. left. pose proof P_pos. split; [simpl; lia|reflexivity]. Qed.
Lemma FR_low : FR (- (P + 1)) fninf.
Proof. split; [apply inf_number|auto]. Qed.
Lemma FR_high : FR (P + 1) finf.
Proof. split; [apply inf_number|auto]. Qed.
Lemma FR_ex K z x : K <= P -> (ex FR K z x <-> fexactly t K z x).
Proof.
  intro HK. split.
  - intros [H L]. destruct (FR_finite z x ltac:(lia) H) as [_ S]. split; [|auto]. split; [apply H|].
    destruct (int_ok t z) as (Nz & _ & Sz); [lia|]. apply (feq_sv t); auto; [apply H|congruence].
  - intros [[N E] L]. destruct (int_ok t z) as (Nz & _ & Sz); [lia|]. apply (feq_sv t) in E; auto.
    split; [|auto]. split; [auto|]. left. split; [lia|congruence].
Qed.
Lemma FR_m K M M' : K <= P -> mrel (fexactly t K) M M' -> mrel (ex FR K) M M'.
Proof. intro H. apply mrel_impl. intros. apply FR_ex; auto. Qed.
Lemma FR_v K M M' : K <= P -> vrel (fexactly t K) M M' -> vrel (ex FR K) M M'.
Proof. intro H. apply vrel_impl. intros. apply FR_ex; auto. Qed.
Lemma m_FR K M M' : K <= P -> mrel (ex FR K) M M' -> mrel (fexactly t K) M M'.
Proof. intro H. apply mrel_impl. intros. apply FR_ex; auto. Qed.
Lemma v_FR K M M' : K <= P -> vrel (ex FR K) M M' -> vrel (fexactly t K) M M'.
Proof. intro H. apply vrel_impl. intros. apply FR_ex; auto. Qed.
End Floats.

(** ** The algorithms with checks are those of the model *)
Lemma isssp_h t G d : isssp t G d = hsssp (op2 Min t) (op2 Plus t) ieqb defined_v G d.
Proof. reflexivity. Qed.
Lemma ibatch_h t G d : ibatch_sssp t G d = hbatch_sssp (op2 Min t) (op2 Plus t) ieqb defined_m G d.
Proof. reflexivity. Qed.
Lemma ifiltered_h t G d : ifiltered_sssp t G d = hfiltered_sssp (op2 Min t) (op2 Plus t) iltb inonzero defined_v G d.
Proof.
  assert (H : forall n nd fl d, ifiltered_loop t n G nd fl d = hfiltered_loop (op2 Min t) (op2 Plus t) iltb inonzero defined_v n G nd fl d).
  { intro n. induction n as [|n IH]; intros; cbn [ifiltered_loop hfiltered_loop]; auto.
    change (hfiltered_body (op2 Min t) (op2 Plus t) iltb inonzero defined_v G nd fl d0) with (ifiltered_body t G nd fl d0).
    destruct (ifiltered_body t G nd fl d0) as [[[? ?] [?|]]| |]; cbn [bind]; auto. }
  unfold ifiltered_sssp, hfiltered_sssp. destruct (_ || _); auto. destruct (vec_new _ _); cbn [bind]; auto.
Qed.
Lemma iapsp_h t G : iapsp t G = hapsp (op2 Min t) (op2 Plus t) (Ok 0) defined_m G.
Proof. reflexivity. Qed.
Lemma bind_Ok {A} (r : res A) : (x <- r ;; Ok x) = r.
Proof. destruct r; auto. Qed.
Lemma fsssp_h t G d : fsssp t G d = hsssp (FMin t) (FPlus t) FEqual Ok G d.
Proof.
  unfold fsssp, gsssp, hsssp. destruct (_ || _); auto. unfold hstep.
  rewrite (mfor_ext _ (fun _ d => gstep (FMin t) (FPlus t) G d) (fun _ dist => dist0 <- gstep (FMin t) (FPlus t) G dist;; Ok dist0));
    [|intros; symmetry; apply bind_Ok].
  destruct (mfor _ _ d); cbn [bind]; auto. rewrite bind_Ok. auto.
Qed.
Lemma fbatch_h t G d : fbatch_sssp t G d = hbatch_sssp (FMin t) (FPlus t) FEqual Ok G d.
Proof.
  unfold fbatch_sssp, gbatch_sssp, hbatch_sssp. destruct (_ || _); auto. unfold hbatch_step.
  rewrite (mfor_ext _ (fun _ d => gbatch_step (FMin t) (FPlus t) G d) (fun _ dist => dist0 <- gbatch_step (FMin t) (FPlus t) G dist;; Ok dist0));
    [|intros; symmetry; apply bind_Ok].
  destruct (mfor _ _ d); cbn [bind]; auto. rewrite bind_Ok. auto.
Qed.
Lemma ffiltered_h t G d : ffiltered_sssp t G d = hfiltered_sssp (FMin t) (FPlus t) FLessThan ftrue Ok G d.
Proof.
  assert (B : forall nd fl d, gfiltered_body (FMin t) (FPlus t) FLessThan ftrue G nd fl d
    = hfiltered_body (FMin t) (FPlus t) FLessThan ftrue Ok G nd fl d).
  { intros. unfold gfiltered_body, hfiltered_body. destruct (vxm _ _ _ _ _ _ _ _ _ _); reflexivity. }
  assert (H : forall n nd fl d, gfiltered_loop (FMin t) (FPlus t) FLessThan ftrue n G nd fl d
    = hfiltered_loop (FMin t) (FPlus t) FLessThan ftrue Ok n G nd fl d).
  { intro n. induction n as [|n IH]; intros; cbn [gfiltered_loop hfiltered_loop]; [auto|]. rewrite B.
    destruct (hfiltered_body _ _ _ _ _ _ _ _ _) as [[[? ?] [?|]]| |]; cbn [bind]; auto. }
  unfold ffiltered_sssp, gfiltered_sssp, hfiltered_sssp. destruct (_ || _); [auto|]. destruct (vec_new _ _); cbn [bind]; auto.
Qed.
Lemma fapsp_h t G : fapsp t G = hapsp (FMin t) (FPlus t) f0 Ok G.
Proof. unfold fapsp, gapsp, hapsp. destruct (negb _); auto. Qed.

(** ** The results in terms of walks, for both kinds of types *)
Lemma orel_holds {D} (R : Z -> D -> Prop) P (o : option Z) (o' : option D) : orel R o o' -> (forall x, o = Some x <-> P x) -> holds R P o'.
Proof.
  intros H E. destruct o' as [y|], o as [z|]; simpl in *; try contradiction.
  - exists z. split; [auto|]. apply E. auto.
  - intros x Hx. apply E in Hx. discriminate.
Qed.

Section Walks.
Context {D : Type} (R : Z -> D -> Prop) (B : Z).
Context (dmin dmax dplus : D -> D -> D) (deqb dltb : D -> D -> bool) (dtrue : D -> bool) (d0 lowest highest : D).
Context (chkv : bvec D -> res (bvec D)) (chkm : lil D -> res (lil D)) (defined : D -> res D).
Hypothesis B0 : 0 <= B.
Hypothesis R_min : rel2 R R R zmin dmin.
Hypothesis R_max : rel2 R R R zmax dmax.
Hypothesis R_plus : forall a x b y, Z.abs a <= B -> Z.abs b <= B -> Z.abs (a + b) <= B -> R a x -> R b y -> R (a + b) (dplus x y).
Hypothesis R_eqb : rel2 R R eq Z.eqb deqb.
Hypothesis R_ltb : rel2 R R eq Z.ltb dltb.
Hypothesis R_true : rel1 R eq ztrue dtrue.
Hypothesis R_0 : R 0 d0.
Hypothesis chkv_ok : forall u u', vrel R u u' -> chkv u' = Ok u'.
Hypothesis chkm_ok : forall M M', mrel R M M' -> chkm M' = Ok M'.
Hypothesis defined_ok : forall z x, R z x -> defined x = Ok x.
Context (zlow zhigh : Z) (R_low : R zlow lowest) (R_high : R zhigh highest) (zlow_0 : zlow <= 0).
Context (G : lil Z) (G' : lil D) (N : nat) (M : Z).
Hypothesis HG : mrel (ex R M) G G'.
Hypothesis RG : nrows G = N.
Hypothesis CG : ncols G = N.
Hypothesis M0 : 0 <= M.
Hypothesis N0 : N <> 0%nat.

Lemma w_bounds : (forall u v g, mget G u v = Some g -> u < N /\ v < N)%nat /\ (forall u v g, mget G u v = Some g -> Z.abs g <= M).
Proof.
  destruct HG as (W & _ & _ & _ & H). split; intros u v g Hg.
  - apply mget_some_bounds in Hg; auto. lia.
  - specialize (H u v). rewrite Hg in H. destruct (mget G' u v); [apply H|contradiction].
Qed.
Lemma dist_abs u v x : no_negative_cycle (mget G) -> (u < N)%nat -> distance (mget G) u v x -> Z.abs x <= M * Z.of_nat N.
Proof. intros NN. destruct w_bounds. apply distance_abs; auto. Qed.

Lemma sssp_walks dist dist' : M * (Z.of_nat N + 1) <= B -> vrel (ex R M) dist dist' -> vsize dist = N ->
  exists b d', hsssp dmin dplus deqb chkv G' dist' = Ok (b, d') /\ wfv d' /\ vsize d' = N /\
    (b = false <-> negative_cycle (mget G) (vget dist)) /\
    (b = true -> forall v, holds (ex R (M * Z.of_nat N)) (shortest (mget G) (vget dist) v) (vget d' v)).
Proof.
  intros HM HD SD.
  destruct (hsssp_exact R B dmin dplus deqb chkv B0 R_min R_plus R_eqb chkv_ok G G' N M HG RG CG M0 dist dist' HM N0 (conj HD SD))
    as (b & d & d' & E1 & E2 & Rd & Sd).
  exists b, d'. split; [auto|]. destruct Rd as (_ & W2 & S2 & H). split; [auto|]. split; [congruence|].
  destruct (sssp_ok G N (proj1 HG) RG CG dist N0 (proj1 HD) SD) as (b1 & d1 & E & _ & _ & _ & H2 & H3).
  rewrite E1 in E. injection E as <- <-. split; [auto|]. intros Hb v. eapply orel_holds; [apply H|]. intro. apply H3. auto.
Qed.
Lemma batch_walks dists dists' : M * (Z.of_nat N + 1) <= B -> mrel (ex R M) dists dists' -> ncols dists = N ->
  exists b d', hbatch_sssp dmin dplus deqb chkm G' dists' = Ok (b, d') /\ wfm d' /\ nrows d' = nrows dists /\ ncols d' = N /\
    (b = false <-> exists r, (r < nrows dists)%nat /\ negative_cycle (mget G) (mget dists r)) /\
    (b = true -> forall r v, holds (ex R (M * Z.of_nat N)) (shortest (mget G) (mget dists r) v) (mget d' r v)).
Proof.
  intros HM HD SD.
  destruct (hbatch_exact R B dmin dplus deqb chkm B0 R_min R_plus R_eqb chkm_ok G G' N M HG RG CG M0 (nrows dists) dists dists' HM N0
    (conj HD (conj eq_refl SD))) as (b & d & d' & E1 & E2 & Rd & Rr & Rc).
  exists b, d'. split; [auto|]. destruct Rd as (_ & W2 & S2 & S3 & H). split; [auto|]. split; [congruence|]. split; [congruence|].
  destruct (batch_sssp_ok G N (proj1 HG) RG CG dists N0 (proj1 HD) SD) as (b1 & d1 & E & _ & _ & _ & _ & H2 & H3).
  rewrite E1 in E. injection E as <- <-. split; [auto|]. intros Hb r v. eapply orel_holds; [apply H|]. intro. apply H3. auto.
Qed.
Lemma filtered_walks dist dist' : M * (Z.of_nat N + 1) <= B -> vrel (ex R M) dist dist' -> vsize dist = N ->
  (forall k v x, walk_from (mget G) (vget dist) (S k) v x -> x <> 0) ->
  exists b d', hfiltered_sssp dmin dplus dltb dtrue chkv G' dist' = Ok (b, d') /\ wfv d' /\ vsize d' = N /\
    (b = false <-> negative_cycle (mget G) (vget dist)) /\
    (b = true -> forall v, holds (ex R (M * (Z.of_nat N + 1))) (shortest (mget G) (vget dist) v) (vget d' v)).
Proof.
  intros HM HD SD NZ.
  destruct (hfiltered_exact R B dmin dplus dltb dtrue chkv B0 R_min R_plus R_ltb R_true chkv_ok G G' N M HG RG CG M0 dist dist' HM N0 (conj HD SD))
    as (b & d & d' & E1 & E2 & Rd & Sd).
  exists b, d'. split; [auto|]. destruct Rd as (_ & W2 & S2 & H). split; [auto|]. split; [congruence|].
  destruct (filtered_sssp_ok G N (proj1 HG) RG CG dist N0 (proj1 HD) SD NZ) as (b1 & d1 & E & _ & _ & _ & H2 & H3).
  rewrite E1 in E. injection E as <- <-. split; [auto|]. intros Hb v. eapply orel_holds; [apply H|]. intro. apply H3. auto.
Qed.
Lemma apsp_walks : no_negative_cycle (mget G) -> 2 * (M * Z.of_nat N) <= B ->
  exists A', hapsp dmin dplus d0 chkm G' = Ok A' /\ wfm A' /\ nrows A' = N /\ ncols A' = N /\
    (forall i j, i <> j -> holds (ex R (M * Z.of_nat N)) (distance (mget G) i j) (mget A' i j)) /\
    (forall i, (i < N)%nat -> (forall g, mget G i i = Some g -> g <= 0) -> exists y, mget A' i i = Some y /\ ex R (M * Z.of_nat N) 0 y).
Proof.
  intros NN HM.
  destruct (hapsp_exact R B dmin dplus d0 chkm B0 R_min R_plus R_0 chkm_ok G G' N M HG RG CG M0 NN HM N0) as (A & A' & E1 & E2 & RA & R1 & C1).
  exists A'. split; [auto|]. destruct RA as (_ & W & S1 & S2 & H). split; [auto|]. split; [congruence|]. split; [congruence|].
  destruct (apsp_ok G N (proj1 HG) RG CG NN) as (A1 & E & _ & _ & _ & H1 & _ & H3).
  rewrite E1 in E. injection E as <-. split.
  - intros i j Hij. assert (Hx : forall x, mget A i j = Some x -> Z.abs x <= M * Z.of_nat N).
    { intros x Hx. pose proof Hx as Hb. apply H1 in Hb; auto. apply (dist_abs i j x NN); auto.
      destruct (mget_some_bounds A i j x) as [X _]; auto; [|lia]. destruct (apsp_ok G N (proj1 HG) RG CG NN) as (A2 & E & WA & _). congruence. }
    specialize (H i j). eapply orel_holds; [|intro; apply H1; auto]. destruct (mget A i j), (mget A' i j); try contradiction; simpl in *; auto.
    split; auto.
  - intros i Hi HL. specialize (H i i). rewrite (H3 i Hi HL) in H. destruct (mget A' i i) as [y|]; [|contradiction].
    exists y. split; [auto|]. split; [auto|]. simpl. lia.
Qed.

Lemma distance_walks sid w0 : no_negative_cycle (mget G) -> M * (Z.of_nat N + 1) <= B -> (sid < N)%nat -> wfv0 w0 -> vsize w0 = N ->
  exists d', ggraph_distance d0 (hsssp dmin dplus deqb chkv) G' sid w0 = Ok d' /\ wfv d' /\ vsize d' = N /\
    forall v, holds (ex R (M * Z.of_nat N)) (distance (mget G) sid v) (vget d' v).
Proof.
  intros NN HM Hs W0 S0. destruct (vec_new_ok 0 N) as (z0 & Ez & Wz & Sz & _); [lia|].
  destruct (hdistance_exact R B dmin dplus deqb d0 chkv B0 R_min R_plus R_eqb R_0 chkv_ok G G' N M HG RG CG M0 HM sid z0 w0 Hs
    (proj1 Wz) W0 Sz S0) as (d & d' & E1 & E2 & Rd & Sd).
  exists d'. split; [auto|]. destruct Rd as (_ & W2 & S2 & H). split; [auto|]. split; [congruence|].
  destruct (graph_distance_ok G z0 N sid (proj1 HG) RG CG Hs NN (proj1 Wz) Sz) as (d1 & E & _ & _ & H3).
  rewrite E1 in E. injection E as <-. intro v. eapply orel_holds; [apply H|]. auto.
Qed.
Lemma distance_matrix_walks C : no_negative_cycle (mget G) -> M * (Z.of_nat N + 1) <= B -> nrows C = N -> ncols C = N ->
  exists d', ggraph_distance_matrix d0 (hbatch_sssp dmin dplus deqb chkm) G' C = Ok d' /\ wfm d' /\ nrows d' = N /\ ncols d' = N /\
    forall u v, (u < N)%nat -> holds (ex R (M * Z.of_nat N)) (distance (mget G) u v) (mget d' u v).
Proof.
  intros NN HM R0 C0.
  destruct (hdistance_matrix_exact R B dmin dplus deqb d0 chkm B0 R_min R_plus R_eqb R_0 chkm_ok G G' N M HG RG CG M0 HM (lil_new N N) C N0
    eq_refl eq_refl R0 C0) as (d & d' & E1 & E2 & Rd & Rr & Rc).
  exists d'. split; [auto|]. destruct Rd as (_ & W2 & S2 & S3 & H). split; [auto|]. split; [congruence|]. split; [congruence|].
  destruct (graph_distance_matrix_ok G (lil_new N N) N (proj1 HG) RG CG N0 NN eq_refl eq_refl) as (d1 & E & _ & _ & _ & H3).
  rewrite E1 in E. injection E as <-. intros u v Hu. eapply orel_holds; [apply H|]. intro x. rewrite H3. tauto.
Qed.
Lemma eccentricity_walks vid : no_negative_cycle (mget G) -> M * (Z.of_nat N + 1) <= B -> (vid < N)%nat ->
  exists e y, gvertex_eccentricity dmax d0 lowest (hsssp dmin dplus deqb chkv) defined G' vid = Ok y /\ ex R (M * Z.of_nat N) e y /\
    eccentricity (mget G) vid e.
Proof.
  intros NN HM Hv.
  destruct (hvertex_eccentricity_exact R B dmin dmax dplus deqb d0 lowest chkv defined B0 R_min R_max R_plus R_eqb R_0 chkv_ok defined_ok
    G G' N M HG RG CG M0 HM zlow R_low vid Hv) as (e & y & E1 & E2 & Re).
  destruct (vertex_eccentricity_ok zlow G N vid (proj1 HG) RG CG Hv NN) as (e1 & E & He). rewrite E1 in E. injection E as <-.
  exists e, y. split; [auto|]. split; [|auto]. split; [auto|]. destruct He as ((v & Hd) & _). apply (dist_abs vid v e NN); auto.
Qed.
Lemma radius_walks : no_negative_cycle (mget G) -> M * (Z.of_nat N + 1) <= B ->
  exists e y, ggraph_radius dmin dmax d0 highest (hbatch_sssp dmin dplus deqb chkm) defined G' = Ok y /\ ex R (M * Z.of_nat N) e y /\
    radius (mget G) N e.
Proof.
  intros NN HM.
  destruct (hgraph_radius_exact R B dmin dmax dplus deqb d0 highest chkm defined B0 R_min R_max R_plus R_eqb R_0 chkm_ok defined_ok
    G G' N M HG RG CG M0 HM zhigh R_high N0) as (e & y & E1 & E2 & Re).
  destruct (graph_radius_ok zhigh G N (proj1 HG) RG CG N0 NN) as (e1 & E & He). rewrite E1 in E. injection E as <-.
  exists e, y. split; [auto|]. split; [|auto]. split; [auto|].
  destruct He as ((u & Hu & (v & Hd) & _) & _). apply (dist_abs u v e NN); auto.
Qed.
Lemma diameter_walks : no_negative_cycle (mget G) -> M * (Z.of_nat N + 1) <= B ->
  exists e y, ggraph_diameter dmax d0 lowest (hbatch_sssp dmin dplus deqb chkm) defined G' = Ok y /\ ex R (M * Z.of_nat N) e y /\
    diameter (mget G) N e.
Proof.
  intros NN HM.
  destruct (hgraph_diameter_exact R B dmin dmax dplus deqb d0 lowest chkm defined B0 R_min R_max R_plus R_eqb R_0 chkm_ok defined_ok
    G G' N M HG RG CG M0 HM zlow R_low N0) as (e & y & E1 & E2 & Re).
  destruct (graph_diameter_ok zlow G N zlow_0 (proj1 HG) RG CG N0 NN) as (e1 & E & He). rewrite E1 in E. injection E as <-.
  exists e, y. split; [auto|]. split; [|auto]. split; [auto|].
  destruct He as ((u & v & Hu & Hd) & _). apply (dist_abs u v e NN); auto.
Qed.
Lemma closeness_walks (Ds : nat -> option Z) vid : no_negative_cycle (mget G) -> M * (Z.of_nat N + 1) <= B -> M * Z.of_nat N * Z.of_nat N <= B -> (vid < N)%nat ->
  (forall v x, Ds v = Some x <-> distance (mget G) vid v x) ->
  exists y, gcloseness_centrality dplus d0 (hsssp dmin dplus deqb chkv) defined G' vid = Ok y /\
    ex R (M * Z.of_nat N * Z.of_nat N) (sum_values N Ds) y.
Proof.
  intros NN HM HM2 Hv HDs.
  destruct (hcloseness_exact R B dmin dplus deqb d0 chkv defined B0 R_min R_plus R_eqb R_0 chkv_ok defined_ok
    G G' N M HG RG CG M0 HM vid HM2 Hv) as (e & y & E1 & E2 & Re & Ee).
  pose proof (closeness_ok G Ds N vid (proj1 HG) RG CG Hv NN HDs) as E. rewrite E1 in E. injection E as ->.
  exists y. split; [auto|]. split; auto.
Qed.
End Walks.

(** ** The metrics over floating point *)
Lemma fgraph_distance_h t G s r : fgraph_distance t G s r = ggraph_distance f0 (hsssp (FMin t) (FPlus t) FEqual Ok) G s r.
Proof. unfold fgraph_distance, ggraph_distance. destruct (_ || _); [auto|]. destruct (vec_setElement _ _ _); cbn [bind]; auto. rewrite fsssp_h. auto. Qed.
Lemma fgraph_distance_matrix_h t G r : fgraph_distance_matrix t G r = ggraph_distance_matrix f0 (hbatch_sssp (FMin t) (FPlus t) FEqual Ok) G r.
Proof. unfold fgraph_distance_matrix, ggraph_distance_matrix. destruct (_ || _); [auto|]. destruct (scaled_identity _ _); cbn [bind]; auto. rewrite fbatch_h. auto. Qed.
Lemma fvertex_eccentricity_h t G v :
  fvertex_eccentricity t G v = gvertex_eccentricity (FMax t) f0 fninf (hsssp (FMin t) (FPlus t) FEqual Ok) Ok G v.
Proof.
  unfold fvertex_eccentricity, gvertex_eccentricity. destruct (negb _); [auto|]. destruct (vec_new _ _); cbn [bind]; auto.
  destruct (vec_setElement _ _ _); cbn [bind]; auto. rewrite fsssp_h. auto.
Qed.
Lemma fgraph_radius_h t G :
  fgraph_radius t G = ggraph_radius (FMin t) (FMax t) f0 finf (hbatch_sssp (FMin t) (FPlus t) FEqual Ok) Ok G.
Proof. unfold fgraph_radius, ggraph_radius. rewrite <- fgraph_distance_matrix_h. auto. Qed.
Lemma fgraph_diameter_h t G :
  fgraph_diameter t G = ggraph_diameter (FMax t) f0 fninf (hbatch_sssp (FMin t) (FPlus t) FEqual Ok) Ok G.
Proof. unfold fgraph_diameter, ggraph_diameter. rewrite <- fgraph_distance_matrix_h. auto. Qed.
Lemma fcloseness_centrality_h t G v :
  fcloseness_centrality t G v = gcloseness_centrality (FPlus t) f0 (hsssp (FMin t) (FPlus t) FEqual Ok) Ok G v.
Proof. unfold fcloseness_centrality, gcloseness_centrality. destruct (vec_new _ _); cbn [bind]; auto. rewrite <- fgraph_distance_h. auto. Qed.
