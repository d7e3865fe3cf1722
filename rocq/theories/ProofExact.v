(** The path algorithms over a scalar type whose values stand for bounded integers. *)
From Coq Require Import Lia ZArith.
From Verif Require Import Base ModelLil ModelVec ModelHelpers ModelViews ModelMul ModelElem ModelIndex ModelUtils ModelAlgoBase ModelSssp ModelMetrics
  ModelFsssp ModelIntPaths Spec SpecOps SpecIndex SpecPaths SpecMetrics SpecRel
  ProofBase ProofLil ProofVec ProofViews ProofMul ProofElem ProofReduce ProofIndex ProofUtils ProofGraph ProofPaths ProofSssp ProofMetrics ProofRel
  ProofApspBound.
Local Open Scope Z_scope.

Lemma mrel_impl {A A'} (R R' : A -> A' -> Prop) M M' : (forall x y, R x y -> R' x y) -> mrel R M M' -> mrel R' M M'.
Proof.
  intros H (W & W' & E1 & E2 & G). do 4 (split; [auto|]). intros i j. specialize (G i j).
  destruct (mget M i j), (mget M' i j); simpl in *; auto.
Qed.
Lemma vrel_impl {A A'} (R R' : A -> A' -> Prop) u u' : (forall x y, R x y -> R' x y) -> vrel R u u' -> vrel R' u u'.
Proof.
  intros H (W & W' & E & G). do 3 (split; [auto|]). intros i. specialize (G i).
  destruct (vget u i), (vget u' i); simpl in *; auto.
Qed.
Lemma rel1_id {A A'} (R R' : A -> A' -> Prop) : (forall x y, R x y -> R' x y) -> rel1 R R' idc idc.
Proof. intros H x y. apply H. Qed.
Lemma vrel_nvals {A A'} (R : A -> A' -> Prop) u u' : vrel R u u' -> vnvals u = vnvals u'.
Proof.
  intros ((_ & E) & (_ & E') & S & G). rewrite E, E', S. f_equal. unfold vcount. f_equal. apply filter_ext.
  intro i. specialize (G i). destruct (vget u i), (vget u' i); simpl in *; auto; contradiction.
Qed.
Lemma vrel_any_false (u u' : bvec bool) : vrel eq u u' -> any_false_v u = any_false_v u'.
Proof.
  intros (W & W' & S & G). apply eq_true_iff_eq. rewrite !any_false_v_iff by (apply W || apply W').
  assert (E : forall i, vget u i = vget u' i).
  { intro i. specialize (G i). destruct (vget u i), (vget u' i); simpl in *; try contradiction; congruence. }
  split; intros (i & Hi); exists i; [rewrite <- E|rewrite E]; auto.
Qed.
Lemma mrel_any_false (u u' : lil bool) : mrel eq u u' -> any_false_m u = any_false_m u'.
Proof.
  intros (W & W' & S & S' & G). apply eq_true_iff_eq. rewrite !any_false_m_iff by auto.
  assert (E : forall i j, mget u i j = mget u' i j).
  { intros i j. specialize (G i j). destruct (mget u i j), (mget u' i j); simpl in *; try contradiction; congruence. }
  split; intros (i & j & Hi); exists i, j; [rewrite <- E|rewrite E]; auto.
Qed.

Section Exact.
Context {D : Type} (R : Z -> D -> Prop) (B : Z).
Context (dmin dmax dplus : D -> D -> D) (deqb dltb : D -> D -> bool) (dtrue : D -> bool) (d0 lowest highest : D).
Context (chkv : bvec D -> res (bvec D)) (chkm : lil D -> res (lil D)) (defined : D -> res D).
Hypothesis B0 : 0 <= B.
Hypothesis R_min : rel2 R R R zmin dmin.
Hypothesis R_max : rel2 R R R zmax dmax.
Hypothesis R_plus : forall a x b y, Z.abs a <= B -> Z.abs b <= B -> Z.abs (a + b) <= B -> R a x -> R b y -> R (a + b) (dplus x y).
Hypothesis R_eqb : rel2 R R eq Z.eqb deqb.
Hypothesis R_ltb : rel2 R R eq Z.ltb dltb.
Hypothesis R_true : rel1 R eq ztrue dtrue.
Hypothesis R_0 : R 0 d0.
Hypothesis chkv_ok : forall u u', vrel R u u' -> chkv u' = Ok u'.
Hypothesis chkm_ok : forall M M', mrel R M M' -> chkm M' = Ok M'.
Hypothesis defined_ok : forall z x, R z x -> defined x = Ok x.

(** [x] stands for [z], of absolute value at most [K]. *)
Definition ex (K z : Z) (x : D) : Prop := R z x /\ Z.abs z <= K.
Lemma ex_le K K' z x : K <= K' -> ex K z x -> ex K' z x.
Proof. intros H [E L]. split; [auto|lia]. Qed.
Lemma ex_R K z x : ex K z x -> R z x.
Proof. intros [E _]. auto. Qed.
Lemma ex_min K : rel2 (ex K) (ex K) (ex K) zmin dmin.
Proof. intros a x b y [H1 L1] [H2 L2]. split; [apply R_min; auto|]. unfold zmin. destruct (a <? b); lia. Qed.
Lemma ex_max K : rel2 (ex K) (ex K) (ex K) zmax dmax.
Proof. intros a x b y [H1 L1] [H2 L2]. split; [apply R_max; auto|]. unfold zmax. destruct (a <? b); lia. Qed.
Lemma ex_plus K K' : 0 <= K -> 0 <= K' -> K + K' <= B -> rel2 (ex K) (ex K') (ex (K + K')) Z.add dplus.
Proof. intros K0 K1 H a x b y [H1 L1] [H2 L2]. split; [apply R_plus; auto; lia|lia]. Qed.
Lemma vrel_le K K' u u' : K <= K' -> vrel (ex K) u u' -> vrel (ex K') u u'.
Proof. intro H. apply vrel_impl. intros x y. apply ex_le. auto. Qed.
Lemma mrel_le K K' u u' : K <= K' -> mrel (ex K) u u' -> mrel (ex K') u u'.
Proof. intro H. apply mrel_impl. intros x y. apply ex_le. auto. Qed.
Lemma chkv_ex K u u' : vrel (ex K) u u' -> chkv u' = Ok u'.
Proof. intro H. apply (chkv_ok u). revert H. apply vrel_impl. apply ex_R. Qed.
Lemma chkm_ex K u u' : mrel (ex K) u u' -> chkm u' = Ok u'.
Proof. intro H. apply (chkm_ok u). revert H. apply mrel_impl. apply ex_R. Qed.
Lemma btrue_rel : rel1 (@eq bool) eq btrue btrue.
Proof. intros x y ->. auto. Qed.
Lemma idc_ex K : rel1 (ex K) (ex K) idc idc.
Proof. intros x y H. exact H. Qed.
Lemma acc_min K : accrel (ex K) (ex K) (ex K) (Acc zmin idc idc) (Acc dmin idc idc).
Proof. split; [apply ex_min|]. split; apply idc_ex. Qed.
Lemma noacc_ex K : accrel (ex K) (ex K) (ex K) (NoAcc idc) (NoAcc idc).
Proof. apply idc_ex. Qed.
Hint Resolve idc_ex acc_min noacc_ex btrue_rel ex_min ex_max : core.

(** ** The algorithms with checks *)
Definition hstep (graph : lil D) (dist : bvec D) : res (bvec D) := dist <- gstep dmin dplus graph dist ;; chkv dist.
Definition hsssp (graph : lil D) (dist : bvec D) : res (bool * bvec D) :=
  if negb (nrows graph =? vsize dist)%nat || negb (ncols graph =? vsize dist)%nat
  then Throw DimensionException
  else
    dist <- mfor (seq 0 (nrows graph - 1)) (fun _ dist => hstep graph dist) dist ;;
    dist2 <- hstep graph dist ;;
    equal_flags <- vec_new false (nrows graph) ;;
    equal_flags <- eWiseMult_v deqb btrue idc (NoAcc idc) vnomask MERGE equal_flags dist dist2 ;;
    Ok (negb (any_false_v equal_flags), dist).
Definition hbatch_step (graph dists : lil D) : res (lil D) := dists <- gbatch_step dmin dplus graph dists ;; chkm dists.
Definition hbatch_sssp (graph dists : lil D) : res (bool * lil D) :=
  if negb (nrows graph =? ncols dists)%nat || negb (ncols graph =? ncols dists)%nat
  then Throw DimensionException
  else
    dists <- mfor (seq 0 (nrows graph - 1)) (fun _ dists => hbatch_step graph dists) dists ;;
    dist2 <- hbatch_step graph dists ;;
    equal_flags <- eWiseMult deqb deqb idc btrue idc (NoAcc idc) mnomask MERGE
                     (lil_new (nrows dists) (ncols dists)) (Mat dists) (Mat dist2) ;;
    Ok (negb (any_false_m equal_flags), dists).
Definition hfiltered_body (graph : lil D) (new_dist : bvec D) (new_dist_flags : bvec bool)
    (dist : bvec D) : res (bvec D * bvec bool * option (bvec D)) :=
  new_dist <- vxm dmin dplus btrue idc (NoAcc idc) vnomask MERGE new_dist new_dist (Mat graph) ;;
  new_dist <- chkv new_dist ;;
  new_dist_flags <- eWiseAdd_v dltb dtrue dtrue dtrue idc (NoAcc idc) (MStruct new_dist) REPLACE
                      new_dist_flags new_dist dist ;;
  new_dist <- apply_v idc btrue idc (NoAcc idc) (MVal new_dist_flags) REPLACE new_dist new_dist ;;
  if has_vals (vnvals new_dist) then
    dist <- eWiseAdd_v dmin idc idc btrue idc (NoAcc idc) vnomask MERGE dist new_dist dist ;;
    Ok (new_dist, new_dist_flags, Some dist)
  else Ok (new_dist, new_dist_flags, None).
Fixpoint hfiltered_loop (iters_left : nat) (graph : lil D) (new_dist : bvec D)
    (flags : bvec bool) (dist : bvec D) : res (bool * bvec D) :=
  match iters_left with
  | O => Ok (false, dist)
  | S n =>
      s <- hfiltered_body graph new_dist flags dist ;;
      match s with
      | (new_dist, flags, Some dist) => hfiltered_loop n graph new_dist flags dist
      | (_, _, None) => Ok (true, dist)
      end
  end.
Definition hfiltered_sssp (graph : lil D) (dist : bvec D) : res (bool * bvec D) :=
  if negb (nrows graph =? vsize dist)%nat || negb (ncols graph =? vsize dist)%nat
  then Throw DimensionException
  else
    flags <- vec_new false (vsize dist) ;;
    hfiltered_loop (nrows graph) graph dist flags dist.
Definition hapsp_body (n k : nat) (s : lil D * lil D * lil D) : res (lil D * lil D * lil D) :=
  let '(Distances, row_k, col_k) := s in
  row_k <- extract_m btrue idc (NoAcc idc) mnomask MERGE row_k (Mat Distances) (IdxArr [k]) AllIdx ;;
  col_k <- extract_m btrue idc (NoAcc idc) mnomask MERGE col_k (Mat Distances) AllIdx (IdxArr [k]) ;;
  Distances <- mxm dmin dplus dplus idc idc btrue idc (Acc dmin idc idc) mnomask MERGE
                 Distances (Mat col_k) (Mat row_k) ;;
  Distances <- chkm Distances ;;
  Ok (Distances, row_k, col_k).
Definition hapsp (graph : lil D) : res (lil D) :=
  let n := nrows graph in
  if negb (n =? ncols graph)%nat then Throw DimensionException
  else
    Distances <- scaled_identity n d0 ;;
    Distances <- eWiseAdd dplus idc idc dplus idc idc btrue idc (NoAcc idc) mnomask MERGE
                   Distances (Mat Distances) (Mat graph) ;;
    Distances <- chkm Distances ;;
    s <- mfor (seq 0 n) (hapsp_body n) (Distances, lil_new 1 n, lil_new n 1) ;;
    Ok (fst (fst s)).

(** A loop of [n] steps that raise the bound by [M]. *)
Lemma loop_rel {S S'} (rel : Z -> S -> S' -> Prop) (f : S -> res S) (f' : S' -> res S') M : 0 <= M ->
  (forall K s s', 0 <= K -> K + M <= B -> rel K s s' -> exists r r', f s = Ok r /\ f' s' = Ok r' /\ rel (K + M) r r') ->
  forall n k K s s', 0 <= K -> K + M * Z.of_nat n <= B -> rel K s s' ->
  exists r r', mfor (seq k n) (fun _ x => f x) s = Ok r /\ mfor (seq k n) (fun _ x => f' x) s' = Ok r' /\ rel (K + M * Z.of_nat n) r r'.
Proof.
  intros M0 H. induction n as [|n IH]; intros k K s s' K0 HK Hs.
  - exists s, s'. split; [auto|]. split; [auto|]. replace (K + M * Z.of_nat 0) with K by lia. auto.
  - rewrite Nat2Z.inj_succ in HK. destruct (H K s s') as (s1 & s1' & E1 & E2 & R1); auto; [nia|].
    cbn [seq mfor]. rewrite E1, E2. cbn [bind].
    destruct (IH (Datatypes.S k) (K + M) s1 s1') as (s2 & s2' & E3 & E4 & R2); auto; [lia|nia|].
    exists s2, s2'. split; [auto|]. split; [auto|].
    replace (K + M * Z.of_nat (Datatypes.S n)) with (K + M + M * Z.of_nat n) by lia. auto.
Qed.

Section Graph.
Variables (G : lil Z) (FG : lil D) (N : nat) (M : Z).
Hypothesis HG : mrel (ex M) G FG.
Hypothesis RG : nrows G = N.
Hypothesis CG : ncols G = N.
Hypothesis M0 : 0 <= M.

(** ** sssp *)
Definition drel K (d : bvec Z) (fd : bvec D) : Prop := vrel (ex K) d fd /\ vsize d = N.
Lemma hstep_exact K d fd : 0 <= K -> K + M <= B -> drel K d fd ->
  exists d' fd', sssp_step G d = Ok d' /\ hstep FG fd = Ok fd' /\ drel (K + M) d' fd'.
Proof.
  intros K0 HK [H S].
  destruct (vxm_rel (ex M) (ex K) (ex (K + M)) (ex (K + M)) (ex (K + M)) eq btrue btrue idc idc MERGE btrue_rel (idc_ex _)
    (Acc zmin idc idc) (Acc dmin idc idc) zmin dmin Z.add dplus vnomask vnomask d fd d fd (Mat G) (Mat FG)) as (d1 & d2 & E1 & E2 & R1); auto.
  { apply ex_plus; auto. } { exact I. } { apply (vrel_le K); [lia|auto]. } 
  { destruct HG as (WG & _). split; [exact I|]. simpl. split; congruence. }
  exists d1, d2. split; [exact E1|]. split; [unfold hstep, gstep; rewrite E2; cbn [bind]; eapply chkv_ex; eauto|].
  split; [auto|].
  destruct (sssp_step_ok G N) with (dist := d) as (d1' & E1' & _ & S1 & _); auto; [apply HG|apply H|].
  unfold sssp_step in E1'. rewrite E1 in E1'. congruence.
Qed.
Theorem hsssp_exact dist fdist : M * (Z.of_nat N + 1) <= B -> N <> 0%nat -> drel M dist fdist ->
  exists b d fd, sssp G dist = Ok (b, d) /\ hsssp FG fdist = Ok (b, fd) /\ drel (M * Z.of_nat N) d fd.
Proof.
  intros HM N0 H. pose proof H as ((_ & _ & S' & _) & S). pose proof HG as (WG & WF & RF & CF & GF).
  unfold sssp, hsssp. rewrite <- RF, <- CF, RG, CG, <- S', S, Nat.eqb_refl. cbn [negb orb].
  destruct (loop_rel drel (sssp_step G) (hstep FG) M M0 hstep_exact (N - 1) 0 M dist fdist M0) as (d & fd & E1 & E2 & R1); [nia|auto|].
  rewrite E1, E2. cbn [bind]. clear E1 E2.
  replace (M + M * Z.of_nat (N - 1)) with (M * Z.of_nat N) in R1 by nia.
  destruct (hstep_exact (M * Z.of_nat N) d fd) as (d2 & fd2 & -> & -> & R2); [nia|nia|auto|]. cbn [bind].
  destruct (vec_new_ok false N N0) as (f & -> & Wf & Sf & _). cbn [bind].
  destruct R1 as [R1 S1], R2 as [R2 S2].
  destruct (eWiseMult_v_rel (ex (M * Z.of_nat N)) (ex (M * Z.of_nat N + M)) eq eq eq eq btrue btrue idc idc MERGE btrue_rel
    ltac:(intros x y E; exact E) (NoAcc idc) (NoAcc idc) ltac:(intros x y E; exact E) Z.eqb deqb) with (m := vnomask) (m' := vnomask) (w := f) (w' := f)
    (u := d) (u' := fd) (v := d2) (v' := fd2) as (fl & fl' & -> & -> & Rf); auto.
  { intros a x b y [Ha _] [Hb _]. apply R_eqb; auto. } { exact I. }
  { split; [auto|]. split; [auto|]. split; [auto|]. intro i. destruct (vget f i); simpl; auto. }
  { split; [exact I|]. split; congruence. }
  cbn [bind]. exists (negb (any_false_v fl)), d, fd. split; [auto|]. split; [|split; auto].
  rewrite (vrel_any_false _ _ Rf). auto.
Qed.

(** ** batch_sssp *)
Definition brel P K (d : lil Z) (fd : lil D) : Prop := mrel (ex K) d fd /\ nrows d = P /\ ncols d = N.
Lemma hbatch_step_exact P K d fd : 0 <= K -> K + M <= B -> brel P K d fd ->
  exists d' fd', batch_step G d = Ok d' /\ hbatch_step FG fd = Ok fd' /\ brel P (K + M) d' fd'.
Proof.
  intros K0 HK (H & Rd & Cd).
  destruct (mxm_rel (ex K) (ex M) (ex (K + M)) (ex (K + M)) (ex (K + M)) eq btrue btrue idc idc MERGE btrue_rel (idc_ex _)
    (Acc zmin idc idc) (Acc dmin idc idc) (acc_min _) zmin dmin Z.add dplus (ex_min _) (ex_plus K M K0 M0 HK)
    Z.add dplus idc idc idc idc mnomask mnomask d fd (Mat d) (Mat fd) (Mat G) (Mat FG)) as (d1 & d2 & E1 & E2 & R1); auto.
  { exact I. } { apply (mrel_le K); [lia|auto]. }
  { split; [exact I|]. simpl. repeat split; congruence. }
  exists d1, d2. split; [exact E1|]. split; [unfold hbatch_step, gbatch_step; rewrite E2; cbn [bind]; eapply chkm_ex; eauto|].
  split; [auto|].
  destruct (batch_step_ok G N) with (dists := d) as (d1' & E1' & _ & R1' & S1 & _); auto; [apply HG|apply H|].
  unfold batch_step in E1'. rewrite E1 in E1'. split; congruence.
Qed.
Theorem hbatch_exact P dists fdists : M * (Z.of_nat N + 1) <= B -> N <> 0%nat -> brel P M dists fdists ->
  exists b d fd, batch_sssp G dists = Ok (b, d) /\ hbatch_sssp FG fdists = Ok (b, fd) /\ brel P (M * Z.of_nat N) d fd.
Proof.
  intros HM N0 H. pose proof H as ((_ & _ & S' & C' & _) & S & C). pose proof HG as (WG & WF & RF & CF & GF).
  unfold batch_sssp, hbatch_sssp. rewrite <- RF, <- CF, RG, CG, <- C', C, Nat.eqb_refl. cbn [negb orb].
  destruct (loop_rel (brel P) (batch_step G) (hbatch_step FG) M M0 (hbatch_step_exact P) (N - 1) 0 M dists fdists M0) as (d & fd & E1 & E2 & R1); [nia|auto|].
  rewrite E1, E2. cbn [bind]. clear E1 E2.
  replace (M + M * Z.of_nat (N - 1)) with (M * Z.of_nat N) in R1 by nia.
  destruct (hbatch_step_exact P (M * Z.of_nat N) d fd) as (d2 & fd2 & -> & -> & R2); [nia|nia|auto|]. cbn [bind].
  pose proof R1 as ((W1 & W1' & S1' & C1' & H1) & S1 & C1). destruct R2 as (R2 & S2 & C2).
  rewrite <- S1', <- C1', S1, C1.
  destruct (eWiseMult_rel (ex (M * Z.of_nat N)) (ex (M * Z.of_nat N + M)) eq eq eq eq btrue btrue idc idc MERGE btrue_rel
    ltac:(intros x y E; exact E) (NoAcc idc) (NoAcc idc) ltac:(intros x y E; exact E) Z.eqb deqb) with (m := mnomask) (m' := mnomask)
    (C := lil_new (T := bool) P N) (C' := lil_new (T := bool) P N) (opA := Z.eqb) (opA' := deqb) (ba := @idc Z) (ba' := @idc D)
    (A := Mat d) (A' := Mat fd) (B := Mat d2) (B' := Mat fd2) as (fl & fl' & -> & -> & Rf); auto.
  { intros a x b y [Ha _] [Hb _]. apply R_eqb; auto. } { exact I. }
  { split; [apply lil_new_wf|]. split; [apply lil_new_wf|]. split; [auto|]. split; [auto|]. intros i j. rewrite mget_new. exact I. }
  { exact (proj1 R1). }
  { split; [exact I|]. simpl. repeat split; congruence. }
  cbn [bind]. exists (negb (any_false_m fl)), d, fd. split; [auto|]. split; [|auto].
  rewrite (mrel_any_false _ _ Rf). auto.
Qed.

(** ** filtered_sssp *)
Definition frel (f f' : bvec bool) : Prop := vrel eq f f' /\ vsize f = N.
Definition oprel K (o : option (bvec Z)) (o' : option (bvec D)) : Prop :=
  match o, o' with Some d, Some d' => drel K d d' | None, None => True | _, _ => False end.
Lemma vsized {A A'} (Q : A -> A' -> Prop) u u' n : vrel Q u u' -> vsize u = n -> vsize u' = n.
Proof. intros (_ & _ & E & _) H. congruence. Qed.
Lemma hfiltered_body_exact K nd nd' fl fl' d d' : 0 <= K -> K + M <= B -> drel K nd nd' -> frel fl fl' -> drel K d d' ->
  exists n1 n1' f1 f1' o o', filtered_body G nd fl d = Ok (n1, f1, o) /\ hfiltered_body FG nd' fl' d' = Ok (n1', f1', o') /\
    drel (K + M) n1 n1' /\ frel f1 f1' /\ oprel (K + M) o o'.
Proof.
  intros K0 HK [Hn Sn] [Hf Sf] [Hd Sd]. unfold filtered_body, hfiltered_body.
  destruct (vxm_rel (ex M) (ex K) (ex (K + M)) (ex (K + M)) (ex (K + M)) eq btrue btrue idc idc MERGE btrue_rel (idc_ex _)
    (NoAcc idc) (NoAcc idc) zmin dmin Z.add dplus vnomask vnomask nd nd' nd nd' (Mat G) (Mat FG)) as (c & c' & E1 & E2 & Rc); auto.
  { apply ex_plus; auto. } { exact I. } { apply (vrel_le K); [lia|auto]. }
  { split; [exact I|]. simpl. split; congruence. }
  assert (Sc : vsize c = N).
  { destruct (vxm_ok zmin Z.add btrue idc (NoAcc idc) vnomask MERGE nd nd (Mat G)) as (c1 & E & _ & S & _).
    - apply Hn. - apply HG. - apply wfv_wfvn, Hn. - exact I. - exact I. - simpl; congruence. - simpl; congruence.
    - congruence. }
  rewrite E1, E2. cbn [bind]. rewrite (chkv_ex _ _ _ Rc). cbn [bind].
  destruct (eWiseAdd_v_rel (ex (K + M)) (ex K) eq eq eq (ex (K + M)) ztrue dtrue idc idc REPLACE
    ltac:(intros x y E; apply R_true, E) ltac:(intros x y E; exact E) (NoAcc idc) (NoAcc idc) ltac:(intros x y E; exact E) Z.ltb dltb)
    with (c1 := ztrue) (c1' := dtrue) (c2 := ztrue) (c2' := dtrue) (m := MStruct c) (m' := MStruct c') (w := fl) (w' := fl')
    (u := c) (u' := c') (v := d) (v' := d') as (f1 & f1' & E3 & E4 & Rf); auto.
  { intros a x b y [Ha _] [Hb _]. apply R_ltb; auto. } { intros x y E; apply R_true, E. } { intros x y E; apply R_true, E. }
  { split; [simpl; congruence|]. split; congruence. }
  assert (Sf1 : vsize f1 = N).
  { destruct (eWiseAdd_v_ok Z.ltb ztrue ztrue ztrue idc (NoAcc idc) (MStruct c) REPLACE fl c d) as (f2 & E & _ & S & _).
    - apply Hf. - apply wfv_wfvn, Rc. - apply wfv_wfvn, Hd. - apply Rc. - split; [simpl; congruence|]. split; congruence.
    - congruence. }
  rewrite E3, E4. cbn [bind].
  destruct (apply_v_rel (ex (K + M)) (ex (K + M)) (ex (K + M)) (ex (K + M)) eq btrue btrue idc idc REPLACE btrue_rel (idc_ex _)
    (NoAcc idc) (NoAcc idc) (idc_ex _) idc idc (MVal f1) (MVal f1') c c' c c') as (n1 & n1' & E5 & E6 & Rn); auto.
  { split; [simpl; congruence|congruence]. }
  assert (Sn1 : vsize n1 = N).
  { destruct (apply_v_ok idc btrue idc (NoAcc idc) (MVal f1) REPLACE c c) as (n2 & E & _ & S & _).
    - apply Rc. - apply wfv_wfvn, Rc. - apply Rf. - split; [simpl; congruence|congruence].
    - congruence. }
  rewrite E5, E6. cbn [bind]. rewrite <- (vrel_nvals _ _ _ Rn). destruct (has_vals (vnvals n1)).
  - destruct (eWiseAdd_v_rel (ex (K + M)) (ex K) (ex (K + M)) (ex (K + M)) (ex (K + M)) eq btrue btrue idc idc MERGE btrue_rel (idc_ex _)
      (NoAcc idc) (NoAcc idc) (idc_ex _) zmin dmin)
      with (c1 := @idc Z) (c1' := @idc D) (c2 := @idc Z) (c2' := @idc D) (m := vnomask) (m' := vnomask) (w := d) (w' := d')
      (u := n1) (u' := n1') (v := d) (v' := d') as (d1 & d1' & E7 & E8 & Rd); auto.
    { intros a x b y Ha Hb. apply ex_min; auto. apply (ex_le K); [lia|auto]. } { intros x y. apply ex_le. lia. } { exact I. }
    { apply (vrel_le K); [lia|auto]. } { split; [exact I|]. split; congruence. }
    assert (Sd1 : vsize d1 = N).
    { destruct (eWiseAdd_v_ok zmin idc idc btrue idc (NoAcc idc) vnomask MERGE d n1 d) as (f2 & E & _ & S & _).
      - apply Hd. - apply wfv_wfvn, Rn. - apply wfv_wfvn, Hd. - exact I. - split; [exact I|]. split; congruence.
      - congruence. }
    rewrite E7, E8. cbn [bind]. exists n1, n1', f1, f1', (Some d1), (Some d1'). repeat (split; auto).
  - exists n1, n1', f1, f1', None, None. repeat (split; auto).
Qed.
Lemma hfiltered_loop_exact n : forall K nd nd' fl fl' d d', 0 <= K -> K + M * Z.of_nat n <= B ->
  drel K nd nd' -> frel fl fl' -> drel K d d' ->
  exists b d1 d1', filtered_loop n G nd fl d = Ok (b, d1) /\ hfiltered_loop n FG nd' fl' d' = Ok (b, d1') /\ drel (K + M * Z.of_nat n) d1 d1'.
Proof.
  induction n as [|n IH]; intros K nd nd' fl fl' d d' K0 HK Hn Hf Hd.
  - exists false, d, d'. split; [auto|]. split; [auto|]. replace (K + M * Z.of_nat 0) with K by lia. auto.
  - rewrite Nat2Z.inj_succ in HK. 
    destruct (hfiltered_body_exact K nd nd' fl fl' d d') as (n1 & n1' & f1 & f1' & o & o' & E1 & E2 & R1 & R2 & R3); auto; [nia|].
    cbn [filtered_loop hfiltered_loop]. rewrite E1, E2. cbn [bind].
    destruct o as [d1|], o' as [d1'|]; try contradiction.
    + destruct (IH (K + M) n1 n1' f1 f1' d1 d1') as (b & d2 & d2' & E3 & E4 & R4); auto; [lia|nia|].
      exists b, d2, d2'. split; [auto|]. split; [auto|].
      replace (K + M * Z.of_nat (S n)) with (K + M + M * Z.of_nat n) by lia. auto.
    + exists true, d, d'. split; [auto|]. split; [auto|]. destruct Hd as [Hd Sd]. split; [|auto]. apply (vrel_le K); [nia|auto].
Qed.
Theorem hfiltered_exact dist fdist : M * (Z.of_nat N + 1) <= B -> N <> 0%nat -> drel M dist fdist ->
  exists b d fd, filtered_sssp G dist = Ok (b, d) /\ hfiltered_sssp FG fdist = Ok (b, fd) /\ drel (M * (Z.of_nat N + 1)) d fd.
Proof.
  intros HM N0 H. pose proof H as ((_ & _ & S' & _) & S). pose proof HG as (WG & WF & RF & CF & GF).
  unfold filtered_sssp, hfiltered_sssp. rewrite <- RF, <- CF, RG, CG, <- S', S, Nat.eqb_refl. cbn [negb orb].
  destruct (vec_new_ok false N N0) as (f & -> & Wf & Sf & _). cbn [bind].
  destruct (hfiltered_loop_exact N M dist fdist f f dist fdist) as (b & d & fd & E1 & E2 & R1); auto; [nia| |].
  { split; [|auto]. split; [auto|]. split; [auto|]. split; [auto|]. intro i. destruct (vget f i); simpl; auto. }
  exists b, d, fd. split; [auto|]. split; [auto|]. replace (M * (Z.of_nat N + 1)) with (M + M * Z.of_nat N) by lia. auto.
Qed.

(** ** apsp *)
Lemma mrel_new P Q K : mrel (ex K) (lil_new P Q) (lil_new P Q).
Proof.
  split; [apply lil_new_wf|]. split; [apply lil_new_wf|]. split; [auto|]. split; [auto|]. intros i j. rewrite !mget_new. exact I.
Qed.
Lemma scaled_rel n : exists A A', scaled_identity n 0 = Ok A /\ scaled_identity n d0 = Ok A' /\ mrel (ex 0) A A' /\ nrows A = n /\ ncols A = n /\
  forall i j, mget A i j = if (i =? j)%nat && (i <? n)%nat then Some 0 else None.
Proof.
  destruct (scaled_identity_ok n 0) as (A & EA & WA & RA & CA & GA).
  destruct (scaled_identity_ok n d0) as (A' & EA' & WA' & RA' & CA' & GA').
  exists A, A'. split; [auto|]. split; [auto|]. split; [|auto].
  split; [auto|]. split; [auto|]. split; [congruence|]. split; [congruence|]. intros i j. rewrite GA, GA'.
  destruct ((i =? j)%nat && (i <? n)%nat); simpl; auto. split; [auto|simpl; lia].
Qed.
Notation MN := (M * Z.of_nat N).
Section Apsp.
Hypothesis nonneg : no_negative_cycle (mget G).
Hypothesis HM : 2 * MN <= B.

Definition arel k (s : lil Z * lil Z * lil Z) (s' : lil D * lil D * lil D) : Prop :=
  let '(A, row, col) := s in let '(A', row', col') := s' in
  mrel R A A' /\ nrows A = N /\ ncols A = N /\ fw_bounded N (mget G) M k (mget A) /\
  mrel (ex MN) row row' /\ nrows row = 1%nat /\ ncols row = N /\ mrel (ex MN) col col' /\ nrows col = N /\ ncols col = 1%nat.
Lemma w_abs u v g : mget G u v = Some g -> Z.abs g <= M.
Proof. intro E. destruct HG as (_ & _ & _ & _ & H). specialize (H u v). rewrite E in H. destruct (mget FG u v); [apply H|contradiction]. Qed.
Lemma w_in' u v g : mget G u v = Some g -> (u < N /\ v < N)%nat.
Proof. intro E. destruct HG as (W & _). apply mget_some_bounds in E; auto. lia. Qed.

Lemma hapsp_body_exact k s s' : (k < N)%nat -> arel k s s' ->
  exists r r', apsp_body N k s = Ok r /\ hapsp_body N k s' = Ok r' /\ arel (S k) r r'.
Proof.
  destruct s as [[A row] col], s' as [[A' row'] col']. intros Hk (HA & RA & CA & HF & Hr & Rr & Cr & Hc & Rc & Cc).
  pose proof HA as (WA & WA' & RA' & CA' & GA).
  assert (HA1 : mrel (ex MN) A A').
  { do 4 (split; [auto|]). intros i j. specialize (GA i j). destruct (mget A i j) as [z|] eqn:E, (mget A' i j); simpl in *; auto.
    split; [auto|]. assert (Hi : (i < N)%nat) by (apply mget_some_bounds in E; auto; lia).
    destruct (fw_abs N (mget G) M w_in' M0 w_abs nonneg k (mget A) i j z HF) as [L1 L2]; auto; [lia|]. nia. }
  destruct (apsp_body_ok G N) with (k := k) (D := A) (row := row) (col := col)
    as (A1 & row1 & col1 & E & W1 & R1 & C1 & Wr1 & Rr1 & Cr1 & Wc1 & Rc1 & Cc1 & G1); auto; try apply Hr; try apply Hc.
  exists (A1, row1, col1). unfold apsp_body in E. unfold hapsp_body.
  destruct (extract_m_rel (ex MN) (ex MN) (ex MN) eq btrue btrue idc idc MERGE btrue_rel (idc_ex _) (NoAcc idc) (NoAcc idc) (idc_ex _)
    mnomask mnomask row row' (Mat A) (Mat A') (IdxArr [k]) AllIdx) as (r2 & r2' & E1 & E2 & Rel1); auto.
  { exact I. } { split; [exact I|]. simpl. split; [auto|]. split; [auto|]. split; [|auto]. repeat constructor. lia. }
  rewrite E1 in E. cbn [bind] in E. rewrite E2. cbn [bind].
  destruct (extract_m_rel (ex MN) (ex MN) (ex MN) eq btrue btrue idc idc MERGE btrue_rel (idc_ex _) (NoAcc idc) (NoAcc idc) (idc_ex _)
    mnomask mnomask col col' (Mat A) (Mat A') AllIdx (IdxArr [k])) as (c2 & c2' & E3 & E4 & Rel2); auto.
  { exact I. } { split; [exact I|]. simpl. split; [auto|]. split; [auto|]. split; [auto|]. repeat constructor. lia. }
  rewrite E3 in E. cbn [bind] in E. rewrite E4. cbn [bind].
  assert (r2 = row1 /\ c2 = col1) as [-> ->].
  { destruct (mxm zmin Z.add Z.add idc idc btrue idc (Acc zmin idc idc) mnomask MERGE A (Mat c2) (Mat r2)); cbn [bind] in E; [|discriminate..].
    split; congruence. }
  assert (0 <= MN) by nia.
  destruct (mxm_rel (ex MN) (ex MN) (ex (MN + MN)) (ex (MN + MN)) (ex (MN + MN)) eq btrue btrue idc idc MERGE btrue_rel (idc_ex _)
    (Acc zmin idc idc) (Acc dmin idc idc) (acc_min _) zmin dmin Z.add dplus (ex_min _) (ex_plus MN MN ltac:(lia) ltac:(lia) ltac:(lia))
    Z.add dplus idc idc idc idc mnomask mnomask A A' (Mat col1) (Mat c2') (Mat row1) (Mat r2')) as (A2 & A2' & E5 & E6 & Rel3); auto.
  { exact I. } { apply (mrel_le MN); [lia|auto]. } { split; [exact I|]. simpl. repeat split; congruence. }
  rewrite E5 in E. cbn [bind] in E. assert (A2 = A1) by congruence. subst A2.
  rewrite E6. cbn [bind]. rewrite (chkm_ex _ _ _ Rel3). cbn [bind].
  exists (A2', r2', c2'). split; [unfold apsp_body; rewrite E1; cbn [bind]; rewrite E3; cbn [bind]; rewrite E5; auto|]. split; [auto|].
  split; [revert Rel3; apply mrel_impl, ex_R|]. split; [auto|]. split; [auto|]. split; [|repeat (split; auto)].
  apply (fw_bounded_step N (mget G) M w_in' nonneg k (mget A)); auto.
  intros i j Hij. apply mget_oob; auto. lia.
Qed.
Theorem hapsp_exact : N <> 0%nat -> exists A A', apsp G = Ok A /\ hapsp FG = Ok A' /\ mrel R A A' /\ nrows A = N /\ ncols A = N.
Proof.
  intro N0. pose proof HG as (WG & WF & RF & CF & GF). unfold apsp, hapsp. rewrite <- RF, <- CF, RG, CG, Nat.eqb_refl. cbn [negb].
  destruct (scaled_rel N) as (A & A' & -> & -> & HA & RA & CA & GA). cbn [bind].
  assert (MB : M <= B) by nia.
  assert (Add : rel2 (ex 0) (ex M) (ex M) Z.add dplus).
  { intros a x b y [Ha La] [Hb Lb]. assert (a = 0) by lia. subst a. split; [|lia]. apply R_plus; auto; lia. }
  destruct (eWiseAdd_rel (ex 0) (ex M) (ex M) (ex M) (ex M) eq btrue btrue idc idc MERGE btrue_rel (idc_ex _)
    (NoAcc idc) (NoAcc idc) (idc_ex _) Z.add dplus Add)
    with (c1 := @idc Z) (c1' := @idc D) (c2 := @idc Z) (c2' := @idc D) (opA := Z.add) (opA' := dplus) (c2A := @idc Z) (c2A' := @idc D)
    (ba := @idc Z) (ba' := @idc D) (m := mnomask) (m' := mnomask) (C := A) (C' := A') (A := Mat A) (A' := Mat A') (B := Mat G) (B' := Mat FG)
    as (D1 & D1' & E1 & E2 & HD1); auto.
  { intros x y. apply ex_le. auto. } { exact I. } { revert HA. apply mrel_le. auto. } { split; [exact I|]. simpl. repeat split; congruence. }
  destruct (eWiseAdd_ok Z.add idc idc Z.add idc idc btrue idc (NoAcc idc) mnomask MERGE A (Mat A) (Mat G))
    as (D2 & E1' & W1 & R1 & C1 & G1); auto; try apply HA.
  { exact I. } { split; [exact I|]. simpl. repeat split; congruence. }
  assert (D2 = D1) by congruence. subst D2. rewrite E1, E2. cbn [bind]. rewrite (chkm_ex _ _ _ HD1). cbn [bind].
  assert (G1' : forall i j, (i < N)%nat -> (j < N)%nat -> mget D1 i j =
     if (i =? j)%nat then Some (match mget G i j with Some g => g | None => 0 end) else mget G i j).
  { intros i j Hi Hj. rewrite G1 by lia. simpl. unfold idc. rewrite !option_map_id', GA.
    destruct (Nat.eqb_spec i j) as [->|]; simpl.
    - destruct (Nat.ltb_spec j N); [|lia]. destruct (mget G j j) as [g|]; reflexivity.
    - destruct (mget G i j); reflexivity. }
  assert (L : forall n, (n <= N)%nat -> exists s s', mfor (seq 0 n) (apsp_body N) (D1, lil_new 1 N, lil_new N 1) = Ok s /\
    mfor (seq 0 n) (hapsp_body N) (D1', lil_new 1 N, lil_new N 1) = Ok s' /\ arel n s s').
  { induction n as [|n IH]; intro Hn.
    - exists (D1, lil_new 1 N, lil_new N 1), (D1', lil_new 1 N, lil_new N 1). split; [auto|]. split; [auto|].
      split; [revert HD1; apply mrel_impl, ex_R|]. split; [congruence|]. split; [congruence|].
      split; [|split; [apply mrel_new|]; split; [auto|]; split; [auto|]; split; [apply mrel_new|]; split; auto].
      split; [split|split].
      + intros i j x Hx. assert (Hij := mget_some_bounds _ _ _ _ W1 Hx). rewrite G1' in Hx by lia.
        destruct (Nat.eqb_spec i j) as [->|].
        * injection Hx as <-. destruct (mget G j j) as [g|] eqn:E; [exists 1%nat; apply wwalk_edge; auto|exists 0%nat; constructor].
        * exists 1%nat. apply wwalk_edge. auto.
      + intros i j c Hij H. assert (E : mget G i j = Some c) by (inversion H; subst; [auto|lia]). exists c.
        pose proof (w_in' _ _ _ E). rewrite G1' by tauto. destruct (Nat.eqb_spec i j); [tauto|]. split; [auto|lia].
      + intros i j x Hij Hx. assert (Hb := mget_some_bounds _ _ _ _ W1 Hx). rewrite G1' in Hx by lia.
        destruct (Nat.eqb_spec i j); [tauto|]. exists x. constructor. auto.
      + intros i Hi. rewrite G1', Nat.eqb_refl by auto. destruct (mget G i i) as [g|] eqn:E; [|exists 0; split; [auto|lia]].
        exists g. split; [auto|]. apply w_abs in E. lia.
    - destruct IH as (s & s' & E3 & E4 & H); [lia|].
      destruct (hapsp_body_exact n s s') as (r & r' & E5 & E6 & H'); auto.
      exists r, r'. rewrite seq_S, !mfor_app, E3, E4. cbn [bind mfor Nat.add]. rewrite E5, E6. auto. }
  destruct (L N (Nat.le_refl N)) as ([[A1 row] col] & [[A1' row'] col'] & -> & -> & H1 & H2 & H3 & _). cbn [bind fst].
  exists A1, A1'. auto.
Qed.
End Apsp.

(** ** Metrics *)
Section Metrics.
Hypothesis HM : M * (Z.of_nat N + 1) <= B.
Variables zlow zhigh : Z.
Hypothesis R_low : R zlow lowest.
Hypothesis R_high : R zhigh highest.

Lemma source_rel (w0 : bvec Z) (w0' : bvec D) s : wfv w0 -> wfv w0' -> vsize w0 = N -> vsize w0' = N ->
  (forall i, vget w0 i = None) -> (forall i, vget w0' i = None) -> (s < N)%nat ->
  exists u u', vec_setElement w0 s 0 = Ok u /\ vec_setElement w0' s d0 = Ok u' /\ drel M u u'.
Proof.
  intros W W' S S' E E' Hs.
  destruct (vec_setElement_ok w0 s 0) as (u & E1 & _ & S1 & _ & G1 & W1); [apply W|lia|].
  destruct (vec_setElement_ok w0' s d0) as (u' & E2 & _ & S2 & _ & G2 & W2); [apply W'|lia|].
  exists u, u'. split; [auto|]. split; [auto|]. split; [|congruence].
  split; [auto|]. split; [auto|]. split; [congruence|]. intro i. rewrite G1, G2, E, E'. destruct (i =? s)%nat; simpl; auto.
  split; [auto|simpl; lia].
Qed.
Lemma hdistance_exact sid (w0 : bvec Z) (w0' : bvec D) : (sid < N)%nat -> wfv0 w0 -> wfv0 w0' -> vsize w0 = N -> vsize w0' = N ->
  exists d d', graph_distance G sid w0 = Ok d /\ ggraph_distance d0 hsssp FG sid w0' = Ok d' /\ drel MN d d'.
Proof.
  intros Hs W W' S S'. pose proof HG as (WG & WF & RF & CF & GF). unfold graph_distance, ggraph_distance.
  rewrite <- RF, <- CF, RG, CG, S, S', Nat.eqb_refl. cbn [negb orb].
  destruct (vec_clear_wf w0 W) as [Wc Gc]. destruct (vec_clear_wf w0' W') as [Wc' Gc'].
  destruct (source_rel (vec_clear w0) (vec_clear w0') sid) as (u & u' & -> & -> & H); auto. cbn [bind].
  destruct (hsssp_exact u u') as (b & d & d' & -> & -> & H'); auto; [lia|]. cbn [bind snd]. exists d, d'. auto.
Qed.
Lemma hdistance_matrix_exact (C : lil Z) (C' : lil D) : N <> 0%nat -> nrows C = N -> ncols C = N -> nrows C' = N -> ncols C' = N ->
  exists d d', graph_distance_matrix G C = Ok d /\ ggraph_distance_matrix d0 hbatch_sssp FG C' = Ok d' /\ brel N MN d d'.
Proof.
  intros N0 RC CC RC' CC'. pose proof HG as (WG & WF & RF & CF & GF). unfold graph_distance_matrix, ggraph_distance_matrix.
  rewrite <- RF, <- CF, RG, CG, RC, CC, RC', CC', Nat.eqb_refl. cbn [negb orb].
  destruct (scaled_rel N) as (A & A' & -> & -> & HA & RA & CA & _). cbn [bind].
  destruct (hbatch_exact N A A') as (b & d & d' & -> & -> & H'); auto.
  { split; [|auto]. apply (mrel_le 0); [lia|auto]. }
  cbn [bind snd]. exists d, d'. auto.
Qed.
Lemma hvertex_eccentricity_exact vid : (vid < N)%nat ->
  exists e e', vertex_eccentricity zlow G vid = Ok e /\ gvertex_eccentricity dmax d0 lowest hsssp defined FG vid = Ok e' /\ R e e'.
Proof.
  intro Hs. pose proof HG as (WG & WF & RF & CF & GF). unfold vertex_eccentricity, gvertex_eccentricity.
  rewrite <- RF, <- CF, RG, CG, Nat.eqb_refl. cbn [negb].
  destruct (vec_new_ok 0 N) as (w0 & -> & W0 & S0 & G0); [lia|]. cbn [bind].
  destruct (vec_new_ok d0 N) as (w0' & -> & W0' & S0' & G0'); [lia|]. cbn [bind].
  destruct (source_rel w0 w0' vid) as (u & u' & -> & -> & H); auto. cbn [bind].
  destruct (hsssp_exact u u') as (b & d & d' & -> & -> & [H' _]); auto; [lia|]. cbn [bind snd].
  destruct (reduce_vs_rel R R R R idc idc ltac:(intros x y Hx; exact Hx) (NoAcc idc) (NoAcc idc) zlow lowest idc idc zmax dmax zmax dmax 0 d0 d d')
    as (x & x' & -> & -> & Hx); auto; try (intros a y Ha; exact Ha).
  { revert H'. apply vrel_impl, ex_R. }
  cbn [bind]. exists x, x'. split; [auto|]. split; [eauto|auto].
Qed.
Lemma hgraph_radius_exact : N <> 0%nat ->
  exists e e', graph_radius zhigh G = Ok e /\ ggraph_radius dmin dmax d0 highest hbatch_sssp defined FG = Ok e' /\ R e e'.
Proof.
  intro N0. pose proof HG as (WG & WF & RF & CF & GF). unfold graph_radius, ggraph_radius. rewrite <- RF, <- CF, RG, CG.
  destruct (hdistance_matrix_exact (lil_new N N) (lil_new N N)) as (A & A' & -> & -> & (HA & RA & CA)); auto. cbn [bind].
  destruct (vec_new_ok 0 N) as (w0 & -> & W0 & S0 & G0); [lia|]. cbn [bind].
  destruct (vec_new_ok d0 N) as (w0' & -> & W0' & S0' & G0'); [lia|]. cbn [bind].
  destruct (reduce_rel (ex MN) (ex MN) (ex MN) (ex MN) eq btrue btrue idc idc MERGE btrue_rel (idc_ex _) (NoAcc idc) (NoAcc idc) (idc_ex _)
    idc idc zmax dmax zmax dmax vnomask vnomask w0 w0' (Mat A) (Mat A')) as (e & e' & E1 & E2 & He); auto.
  { exact I. } { split; [auto|]. split; [auto|]. split; [congruence|]. intro i. rewrite G0, G0'. exact I. }
  { split; [exact I|]. simpl. congruence. }
  rewrite E1, E2. cbn [bind].
  destruct (reduce_vs_rel R R R R idc idc ltac:(intros x y Hx; exact Hx) (NoAcc idc) (NoAcc idc) zhigh highest idc idc zmin dmin zmin dmin 0 d0 e e')
    as (x & x' & -> & -> & Hx); auto; try (intros a y Ha; exact Ha).
  { revert He. apply vrel_impl, ex_R. }
  cbn [bind]. exists x, x'. split; [auto|]. split; [eauto|auto].
Qed.
Lemma hgraph_diameter_exact : N <> 0%nat ->
  exists e e', graph_diameter zlow G = Ok e /\ ggraph_diameter dmax d0 lowest hbatch_sssp defined FG = Ok e' /\ R e e'.
Proof.
  intro N0. pose proof HG as (WG & WF & RF & CF & GF). unfold graph_diameter, ggraph_diameter. rewrite <- RF, <- CF, RG, CG.
  destruct (hdistance_matrix_exact (lil_new N N) (lil_new N N)) as (A & A' & -> & -> & (HA & RA & CA)); auto. cbn [bind].
  destruct (reduce_ms_rel R R R R idc idc ltac:(intros x y Hx; exact Hx) (NoAcc idc) (NoAcc idc) zlow lowest idc idc zmax dmax zmax dmax zmax dmax 0 d0 A A')
    as (x & x' & -> & -> & Hx); auto; try (intros a y Ha; exact Ha).
  { revert HA. apply mrel_impl, ex_R. }
  cbn [bind]. exists x, x'. split; [auto|]. split; [eauto|auto].
Qed.
Lemma ofold_exact K l l' : 0 <= K -> Z.of_nat (length l) * K <= B -> Forall2 (orel (ex K)) l l' ->
  orel (ex (Z.of_nat (length l) * K)) (ofold idc Z.add l) (ofold idc dplus l').
Proof.
  intros K0 HK F. unfold ofold.
  set (f := fun (acc : option Z) x => match acc, x with None, Some v => Some (idc v) | Some a, Some v => Some (a + v) | _, None => acc end).
  set (f' := fun (acc : option D) x => match acc, x with None, Some v => Some (idc v) | Some a, Some v => Some (dplus a v) | _, None => acc end).
  assert (H : forall P a b, 0 <= P -> P + Z.of_nat (length l) * K <= B -> orel (ex P) a b ->
    orel (ex (P + Z.of_nat (length l) * K)) (fold_left f l a) (fold_left f' l' b)).
  { clear HK. induction F as [|x y l l' Hxy F IH]; intros P a b P0 HP Hab.
    - cbn [length fold_left]. destruct a, b; simpl in *; auto. revert Hab. apply ex_le. lia.
    - cbn [length fold_left] in *. rewrite Nat2Z.inj_succ in *.
      replace (P + Z.succ (Z.of_nat (length l)) * K) with (P + K + Z.of_nat (length l) * K) by lia. apply IH; try lia.
      destruct a, b; simpl in Hab; try contradiction; destruct x, y; simpl in Hxy; try contradiction; simpl; auto.
      + apply ex_plus; auto. nia.
      + revert Hab. apply ex_le. lia.
      + revert Hxy. apply ex_le. lia. }
  specialize (H 0 None None). rewrite Z.add_0_l in H. apply H; simpl; auto; lia.
Qed.
Lemma hcloseness_exact vid : M * Z.of_nat N * Z.of_nat N <= B -> (vid < N)%nat ->
  exists e e', closeness_centrality G vid = Ok e /\ gcloseness_centrality dplus d0 hsssp defined FG vid = Ok e' /\
    R e e' /\ Z.abs e <= M * Z.of_nat N * Z.of_nat N.
Proof.
  intros HM2 Hs. pose proof HG as (WG & WF & RF & CF & GF). unfold closeness_centrality, gcloseness_centrality. rewrite <- RF, RG.
  destruct (vec_new_ok 0 N) as (w0 & -> & W0 & S0 & G0); [lia|]. cbn [bind].
  destruct (vec_new_ok d0 N) as (w0' & -> & W0' & S0' & G0'); [lia|]. cbn [bind].
  destruct (hdistance_exact vid w0 w0') as (d & d' & -> & -> & [Hd Sd]); auto; try apply W0; try apply W0'. cbn [bind].
  pose proof Hd as (Wd & Wd' & Sd' & Gd).
  rewrite !reduce_vs_ok by (reflexivity || (apply wfv_wfvn; auto)). rewrite <- Sd', Sd. cbn [bind].
  pose proof (ofold_exact MN (map (vget d) (seq 0 N)) (map (vget d') (seq 0 N)) ltac:(nia)) as H.
  rewrite map_length, seq_length in H. specialize (H ltac:(nia) ltac:(apply Forall2_maps; auto)).
  unfold idc in *. cbn [opt_accum_scalar].
  destruct (ofold (fun x : Z => x) Z.add (map (vget d) (seq 0 N))) as [z|], (ofold (fun x : D => x) dplus (map (vget d') (seq 0 N))) as [x|];
    simpl in H; try contradiction.
  - destruct H as [Hz Lz]. exists z, x. split; [auto|]. split; [apply (defined_ok z); auto|]. split; [auto|]. nia.
  - exists 0, d0. split; [auto|]. split; [apply (defined_ok 0); auto|]. split; [auto|]. nia.
Qed.
End Metrics.
End Graph.
End Exact.
