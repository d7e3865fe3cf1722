(** Machine integers. *)
From Coq Require Import Lia ZArith.
From Verif Require Import Base ModelLil ModelVec ModelHelpers ModelViews ModelMul ModelElem ModelUtils ModelAlgoBase ModelSssp
  ModelAlgebra ModelFsssp ModelInts Spec SpecOps SpecAlgebra SpecPaths SpecRel SpecInts
  ProofBase ProofLil ProofVec ProofViews ProofMul ProofElem ProofReduce ProofAlgebra ProofLaws ProofOps ProofUtils ProofGraph ProofPaths ProofSssp
  ProofGpaths ProofRel.
Local Open Scope Z_scope.

Lemma fits_plus t a b : integer_type t -> inty t (a + b) -> Plus t a b = Ok (a + b).
Proof.
  intros (s & w & ->) H. unfold Plus. destruct (arith_inty _ _ H) as (r & E). rewrite E. cbn [bind].
  f_equal. rewrite (arith_convert _ _ _ E). apply convert_id; auto.
Qed.
Lemma fits_times t a b : integer_type t -> inty t (a * b) -> Times t a b = Ok (a * b).
Proof.
  intros (s & w & ->) H. unfold Times. destruct (arith_inty _ _ H) as (r & E). rewrite E. cbn [bind].
  f_equal. rewrite (arith_convert _ _ _ E). apply convert_id; auto.
Qed.
Lemma plus_wraps_total t : plus_wraps t -> SpecAlgebra.total Plus t.
Proof. intros (s & w & -> & H). apply Plus_total. intros [E|E]; inversion E; subst; destruct (H eq_refl); discriminate. Qed.
Lemma times_wraps_total t : times_wraps t -> SpecAlgebra.total Times t.
Proof. intros [(s & w & -> & H) N]. apply Times_total; auto. intros [E|E]; inversion E; subst; destruct (H eq_refl); discriminate. Qed.
Lemma wrapped_plus t : plus_wraps t -> rel2 (wrapped t) (wrapped t) (wrapped t) Z.add (op2 Plus t).
Proof.
  intros H a x b y -> ->. unfold wrapped, op2.
  destruct (plus_wraps_total t H _ _ (convert_inty t a) (convert_inty t b)) as (c & E). rewrite E. f_equal.
  apply Plus_eq in E. subst c. destruct H as (s & w & -> & _). rewrite conv_plus, Z.add_comm, conv_plus, Z.add_comm. auto.
Qed.
Lemma wrapped_times t : times_wraps t -> rel2 (wrapped t) (wrapped t) (wrapped t) Z.mul (op2 Times t).
Proof.
  intros H a x b y -> ->. unfold wrapped, op2.
  destruct (times_wraps_total t H _ _ (convert_inty t a) (convert_inty t b)) as (c & E). rewrite E. f_equal.
  apply Times_eq in E. subst c. destruct H as [(s & w & -> & _) _]. rewrite conv_times, Z.mul_comm, conv_times, Z.mul_comm. auto.
Qed.
Lemma times_sym t x y : op2 Times t y x = op2 Times t x y.
Proof. unfold op2, Times. destruct x, y; auto. rewrite Z.mul_comm. auto. Qed.

(** [defined_m] and [defined_v]. *)
Lemma rget_In {T} (r : row T) : forall lo hi, wfrow lo hi r -> forall j v, In (j, v) r -> rget r j = Some v.
Proof.
  induction r as [|(k, x) r IH]; simpl; [tauto|]. intros lo hi [B W] j v [E|H].
  - inversion E. subst. rewrite Nat.eqb_refl. auto.
  - specialize (IH _ _ W j v H). destruct (Nat.eqb_spec k j) as [->|]; auto. exfalso.
    clear - W H. assert (G : forall lo, wfrow lo hi r -> In (j, v) r -> (lo <= j)%nat).
    { clear. induction r as [|(k, x) r IH]; simpl; [tauto|]. intros lo [B W] [E|H]; [inversion E; subst; lia|].
      specialize (IH _ W H). lia. }
    specialize (G _ W H). lia.
Qed.
Lemma defined_m_ok (M : lil ival) : wfm M -> (forall i j x, mget M i j = Some x -> exists z, x = Ok z) -> defined_m M = Ok M.
Proof.
  intros [[L F] _] H. unfold defined_m. replace (forallb _ _) with true; auto. symmetry. apply forallb_forall. intros r Hr.
  apply forallb_forall. intros (j, x) Hx. simpl. apply In_nth with (d := []) in Hr. destruct Hr as (i & Hi & E).
  destruct (H i j x) as (z & ->); [|auto]. unfold mget. rewrite E. apply (rget_In r 0 (ncols M)); auto.
  rewrite Forall_forall in F. apply F. rewrite <- E. apply nth_In. auto.
Qed.
Lemma defined_v_ok (u : bvec ival) : wfv0 u -> (forall i x, vget u i = Some x -> exists z, x = Ok z) -> defined_v u = Ok u.
Proof.
  intros [L1 L2] H. unfold defined_v. replace (forallb _ _) with true; auto. symmetry. apply forallb_forall. intros (b, x) Hr.
  simpl. destruct b; auto. apply In_nth with (d := (false, UB)) in Hr. destruct Hr as (i & Hi & E).
  rewrite combine_length in Hi. apply Nat.min_glb_lt_iff in Hi. destruct Hi as [Hi1 Hi2]. rewrite combine_nth in E by (transitivity (vsize u); auto). injection E as E1 E2.
  destruct (H i x) as (z & ->); auto. unfold vget. assert (F1 : nth_error (vbits u) i = Some true) by (rewrite <- E1; apply nth_error_nth'; exact Hi1).
  assert (F2 : nth_error (vvals u) i = Some x) by (rewrite <- E2; apply nth_error_nth'; exact Hi2).
  rewrite F1, F2. auto.
Qed.

(** ** Sums of values of bounded magnitude *)
Section Exact.
Variable t : ctype.
Hypothesis Ht : integer_type t.
Notation oex K := (orel (exactly t K)).
Lemma tmin_neg : tmin t <= 0 /\ (tmin t = 0 \/ tmin t <= - tmax t).
Proof.
  destruct Ht as (s & w & ->). destruct s, w; vm_compute; split; try (intro; discriminate);
    try (left; reflexivity); right; intro; discriminate.
Qed.
(** Integers of bounded magnitude are values of the type, given that negative ones are excluded for unsigned types. *)
Lemma inty_bound z : Z.abs z <= tmax t -> (tmin t = 0 -> 0 <= z) -> inty t z.
Proof. intros B P. destruct tmin_neg as [N [E|E]]; unfold inty; [specialize (P E); lia|lia]. Qed.
Lemma exactly_plus K K' a x b y : K + K' <= tmax t -> exactly t K a x -> exactly t K' b y -> exactly t (K + K') (a + b) (op2 Plus t x y).
Proof.
  intros H (-> & I1 & B1) (-> & I2 & B2). assert (I : inty t (a + b)).
  { apply inty_bound; [lia|]. intro E. unfold inty in *. lia. }
  split; [|split; [auto|lia]]. simpl. apply fits_plus; auto.
Qed.
Lemma exactly_times K K' a x b y : 0 <= K -> 0 <= K' -> K * K' <= tmax t -> exactly t K a x -> exactly t K' b y ->
  exactly t (K * K') (a * b) (op2 Times t x y).
Proof.
  intros K0 K1 H (-> & I1 & B1) (-> & I2 & B2). assert (B : Z.abs (a * b) <= K * K').
  { rewrite Z.abs_mul. apply Z.mul_le_mono_nonneg; lia. }
  assert (I : inty t (a * b)).
  { apply inty_bound; [lia|]. intro E. unfold inty in *. nia. }
  split; [|split; [auto|lia]]. simpl. apply fits_times; auto.
Qed.
Lemma exactly_min K a x b y : exactly t K a x -> exactly t K b y -> exactly t K (zmin a b) (op2 Min t x y).
Proof.
  intros (-> & I1 & B1) (-> & I2 & B2). unfold zmin. simpl. unfold Min. destruct (a <? b); repeat split; auto; apply I1 || apply I2.
Qed.
Lemma exactly_le K K' z x : K <= K' -> exactly t K z x -> exactly t K' z x.
Proof. intros H (E & I & B). split; [auto|]. split; [auto|lia]. Qed.
Lemma exactly_eqb K K' a x b y : exactly t K a x -> exactly t K' b y -> ieqb x y = (a =? b).
Proof. intros (-> & _) (-> & _). auto. Qed.
Lemma oex_le K K' z x : K <= K' -> oex K z x -> oex K' z x.
Proof. intro H. destruct z, x; simpl; auto. apply exactly_le. auto. Qed.

Lemma osum_exact K l l' : 0 <= K -> Z.of_nat (length l) * K <= tmax t -> Forall2 (oex K) l l' ->
  oex (Z.of_nat (length l) * K) (osum Z.add l) (osum (op2 Plus t) l').
Proof.
  intros K0 HK F. unfold osum.
  assert (G : forall P a b, 0 <= P -> P + Z.of_nat (length l) * K <= tmax t -> oex P a b ->
    oex (P + Z.of_nat (length l) * K) (fold_left (oadd Z.add) l a) (fold_left (oadd (op2 Plus t)) l' b)).
  { clear HK. induction F as [|x y l l' Hxy F IH]; intros P a b P0 HP Hab.
    - cbn [length Z.of_nat fold_left]. apply (oex_le P); [lia|auto].
    - cbn [length fold_left] in *. rewrite Nat2Z.inj_succ in *.
      replace (P + Z.succ (Z.of_nat (length l)) * K) with (P + K + Z.of_nat (length l) * K) by lia. apply IH; try lia.
      destruct a, b; simpl in Hab; try contradiction; destruct x, y; simpl in Hxy; try contradiction; simpl; auto.
      + apply exactly_plus; auto. nia.
      + apply (exactly_le P); auto. lia.
      + apply (exactly_le K); auto. lia. }
  specialize (G 0 None None). simpl in G. rewrite Z.add_0_l in G. apply G; auto; try lia. 
Qed.
Lemma ofold_osum {T} (f : T -> T -> T) l : ofold (fun x => x) f l = osum f l.
Proof.
  unfold ofold, osum. generalize (@None T) as a. induction l as [|x l IH]; intro a; simpl; auto. rewrite IH. f_equal.
  destruct a, x; auto.
Qed.
End Exact.

(** ** Products and reductions *)
(** An operation without mask and accumulator whose computed elements are all defined. *)
Lemma all_defined_m (R : Z -> ival -> Prop) (C D : lil ival) (r : res (lil ival)) T T' :
  (forall z x, R z x -> exists y, x = Ok y) ->
  written btrue idc (NoAcc idc) mnomask MERGE C T' r -> (forall i j, orel R (T i j) (T' i j)) ->
  exists D, (C <- r ;; defined_m C) = Ok D /\ wfm D /\ nrows D = nrows C /\ ncols D = ncols C /\
    forall i j, (i < nrows C)%nat -> (j < ncols C)%nat -> orel R (T i j) (mget D i j).
Proof.
  intros HR (E & -> & W & RE & CE & G) HT. exists E. cbn [bind].
  assert (G' : forall i j, (i < nrows C)%nat -> (j < ncols C)%nat -> orel R (T i j) (mget E i j)).
  { intros i j Hi Hj. rewrite G by auto. cbn. specialize (HT i j). destruct (T i j), (T' i j); simpl in *; auto. }
  split; [|auto]. apply defined_m_ok; auto. intros i j x Hx.
  destruct (Nat.lt_ge_cases i (nrows C)) as [Hi|Hi]; [|rewrite mget_oob in Hx by (auto; left; congruence); discriminate].
  destruct (Nat.lt_ge_cases j (ncols C)) as [Hj|Hj]; [|rewrite mget_oob in Hx by (auto; right; congruence); discriminate].
  specialize (G' i j Hi Hj). rewrite Hx in G'. destruct (T i j); simpl in G'; [eauto|contradiction].
Qed.
Lemma all_defined_v (R : Z -> ival -> Prop) (w : bvec ival) (r : res (bvec ival)) T T' :
  (forall z x, R z x -> exists y, x = Ok y) ->
  vwritten btrue idc (NoAcc idc) vnomask MERGE w T' r -> (forall i, orel R (T i) (T' i)) ->
  exists D, (w <- r ;; defined_v w) = Ok D /\ wfv D /\ vsize D = vsize w /\
    forall i, (i < vsize w)%nat -> orel R (T i) (vget D i).
Proof.
  intros HR (E & -> & W & SE & G) HT. exists E. cbn [bind].
  assert (G' : forall i, (i < vsize w)%nat -> orel R (T i) (vget E i)).
  { intros i Hi. rewrite G by auto. cbn. specialize (HT i). destruct (T i), (T' i); simpl in *; auto. }
  split; [|auto]. apply defined_v_ok; [apply W|]. intros i x Hx.
  destruct (Nat.lt_ge_cases i (vsize w)) as [Hi|Hi]; [|rewrite vget_oob in Hx by (try apply W; congruence); discriminate].
  specialize (G' i Hi). rewrite Hx in G'. destruct (T i); simpl in G'; [eauto|contradiction].
Qed.
Lemma wrapped_ok t z x : wrapped t z x -> exists y, x = Ok y.
Proof. intros ->. eauto. Qed.
Lemma exactly_ok t K z x : exactly t K z x -> exists y, x = Ok y.
Proof. intros (-> & _). eauto. Qed.

Lemma imxm_rel (R RA RB : Z -> ival -> Prop) t C (A B : mview Z) A' B' : (forall z x, R z x -> exists y, x = Ok y) ->
  viewrel RA A A' -> viewrel RB B B' -> wfm C -> nrows C = vrows A -> ncols C = vcols B -> vcols A = vrows B ->
  (forall i j, orel R (smul Z.add Z.mul (vcols A) (sview A) (sview B) i j)
                      (smul (op2 Plus t) (op2 Times t) (vcols A) (sview A') (sview B') i j)) ->
  exists D, imxm t C A' B' = Ok D /\ wfm D /\ nrows D = nrows C /\ ncols D = ncols C /\
    forall i j, (i < nrows C)%nat -> (j < ncols C)%nat ->
      orel R (smul Z.add Z.mul (vcols A) (sview A) (sview B) i j) (mget D i j).
Proof.
  intros HR HA HB WC RC CC F HT. shapes. unfold imxm. apply all_defined_m with (T' := smul (op2 Plus t) (op2 Times t) (vcols A') (sview A') (sview B')); auto.
  - apply mxm_ok; auto; try congruence; try exact I.
    destruct A'; auto. destruct B'; auto. split; [intros; apply times_sym|auto].
  - intros i j. replace (vcols A') with (vcols A) by congruence. auto.
Qed.
Lemma imxv_rel (R RA RB : Z -> ival -> Prop) t w (A : mview Z) (u : bvec Z) A' u' : (forall z x, R z x -> exists y, x = Ok y) ->
  viewrel RA A A' -> vrel RB u u' -> wfv0 w -> vsize w = vrows A -> vsize u = vcols A ->
  (forall i, orel R (smulv Z.add Z.mul (vcols A) (sview A) (vget u) i)
                    (smulv (op2 Plus t) (op2 Times t) (vcols A) (sview A') (vget u') i)) ->
  exists D, imxv t w A' u' = Ok D /\ wfv D /\ vsize D = vsize w /\
    forall i, (i < vsize w)%nat -> orel R (smulv Z.add Z.mul (vcols A) (sview A) (vget u) i) (vget D i).
Proof.
  intros HR HA HB WC SC F HT. shapes. unfold imxv.
  apply all_defined_v with (T' := smulv (op2 Plus t) (op2 Times t) (vcols A') (sview A') (vget u')); auto.
  - apply mxv_ok; auto; try congruence; try exact I. destruct A'; auto. intros; apply times_sym.
  - intros i. replace (vcols A') with (vcols A) by congruence. auto.
Qed.
Lemma ivxm_rel (R RA RB : Z -> ival -> Prop) t w (u : bvec Z) (A : mview Z) u' A' : (forall z x, R z x -> exists y, x = Ok y) ->
  vrel RB u u' -> viewrel RA A A' -> wfv0 w -> vsize w = vcols A -> vsize u = vrows A ->
  (forall i, orel R (svmul Z.add Z.mul (vrows A) (vget u) (sview A) i)
                    (svmul (op2 Plus t) (op2 Times t) (vrows A) (vget u') (sview A') i)) ->
  exists D, ivxm t w u' A' = Ok D /\ wfv D /\ vsize D = vsize w /\
    forall i, (i < vsize w)%nat -> orel R (svmul Z.add Z.mul (vrows A) (vget u) (sview A) i) (vget D i).
Proof.
  intros HR HB HA WC SC F HT. shapes. unfold ivxm.
  apply all_defined_v with (T' := svmul (op2 Plus t) (op2 Times t) (vrows A') (vget u') (sview A')); auto.
  - apply vxm_ok; auto; try congruence; try exact I.
  - intros i. replace (vrows A') with (vrows A) by congruence. auto.
Qed.
Lemma ireduce_rel (R RA : Z -> ival -> Prop) t w (A : mview Z) A' : (forall z x, R z x -> exists y, x = Ok y) ->
  viewrel RA A A' -> wfv0 w -> vsize w = vrows A ->
  (forall i, orel R (osum Z.add (map (sview A i) (seq 0 (vcols A)))) (osum (op2 Plus t) (map (sview A' i) (seq 0 (vcols A))))) ->
  exists D, ireduce t w A' = Ok D /\ wfv D /\ vsize D = vsize w /\
    forall i, (i < vsize w)%nat -> orel R (osum Z.add (map (sview A i) (seq 0 (vcols A)))) (vget D i).
Proof.
  intros HR HA WC SC HT. shapes. unfold ireduce.
  apply all_defined_v with (T' := fun i => osum (op2 Plus t) (map (sview A' i) (seq 0 (vcols A')))); auto.
  - destruct (reduce_ok idc (op2 Plus t) (op2 Plus t) btrue idc (NoAcc idc) vnomask MERGE w A') as (E & E1 & E2 & E3 & E4); auto.
    { exact I. } { split; [exact I|congruence]. }
    exists E. repeat split; auto; try apply E2. intros i Hi. rewrite E4 by auto. cbn. rewrite <- ofold_osum. auto.
  - intros i. replace (vcols A') with (vcols A) by congruence. auto.
Qed.

Lemma view_rel {T T' : Type} (R : T -> T' -> Prop) (A : mview T) A' i j : viewrel R A A' -> orel R (sview A i j) (sview A' i j).
Proof. destruct A, A'; simpl; try tauto; intros (_ & _ & _ & _ & H); apply H. Qed.
(** Sums of products. *)
Lemma dot_wrapped t (f g : nat -> option Z) f' g' n : times_wraps t -> (forall k, orel (wrapped t) (f k) (f' k)) ->
  (forall k, orel (wrapped t) (g k) (g' k)) ->
  orel (wrapped t) (osum Z.add (map (fun k => omap2 Z.mul (f k) (g k)) (seq 0 n)))
    (osum (op2 Plus t) (map (fun k => omap2 (op2 Times t) (f' k) (g' k)) (seq 0 n))).
Proof.
  intros T Hf Hg. apply osum_rel; [apply wrapped_plus, T|]. apply Forall2_maps. intro k.
  eapply orel_map2; eauto. apply wrapped_times, T.
Qed.
Lemma dot_exact t K K' (f g : nat -> option Z) f' g' n : integer_type t -> 0 <= K -> 0 <= K' -> Z.of_nat n * (K * K') <= tmax t ->
  (forall k, orel (exactly t K) (f k) (f' k)) -> (forall k, orel (exactly t K') (g k) (g' k)) ->
  orel (exactly t (Z.of_nat n * (K * K'))) (osum Z.add (map (fun k => omap2 Z.mul (f k) (g k)) (seq 0 n)))
    (osum (op2 Plus t) (map (fun k => omap2 (op2 Times t) (f' k) (g' k)) (seq 0 n))).
Proof.
  intros T K0 K1 B Hf Hg. destruct n as [|n]; [exact I|].
  pose proof (osum_exact t T (K * K') (map (fun k => omap2 Z.mul (f k) (g k)) (seq 0 (S n)))
    (map (fun k => omap2 (op2 Times t) (f' k) (g' k)) (seq 0 (S n)))) as H.
  rewrite map_length, seq_length in H. apply H; auto; [nia|]. apply Forall2_maps. intro k.
  eapply orel_map2; [|apply Hf|apply Hg]. intros a x b y Hx Hy. apply exactly_times; auto. nia.
Qed.

(** ** sssp *)
Section Sssp.
Variable t : ctype.
Hypothesis Ht : integer_type t.
Notation oex K := (orel (exactly t K)).
Lemma oex_min K a x b y : oex K a x -> oex K b y -> oex K (oadd zmin a b) (oadd (op2 Min t) x y).
Proof. apply orel_add. intros a' x' b' y'. apply exactly_min. Qed.
Lemma step_exact N K M w fw d fd v : K + M <= tmax t -> 0 <= M ->
  (forall u, oex M (w u v) (fw u v)) -> (forall u, oex K (d u) (fd u)) ->
  oex (K + M) (oadd zmin (d v) (candidates N w d v)) (oadd (op2 Min t) (fd v) (gcand ival (op2 Min t) (op2 Plus t) N fw fd v)).
Proof.
  intros B M0 Hw Hd. apply oex_min; [apply (oex_le t K); auto; lia|].
  apply osum_rel; [intros a' x' b' y'; apply exactly_min|]. apply Forall2_maps. intro u.
  eapply orel_map2; [|apply Hd|apply Hw]. intros a x b y. apply exactly_plus; auto.
Qed.

Section Graph.
Variables (G : lil Z) (FG : lil ival) (N : nat) (M : Z).
Hypothesis HG : mrel (exactly t M) G FG.
Hypothesis RG : nrows G = N.
Hypothesis CG : ncols G = N.
Hypothesis M0 : 0 <= M.
Hypothesis HM : M * (Z.of_nat N + 1) <= tmax t.
Definition drel K (d : bvec Z) (fd : bvec ival) : Prop := vrel (exactly t K) d fd /\ vsize d = N.
Lemma istep_exact K d fd : 0 <= K -> K + M <= tmax t -> drel K d fd ->
  exists d' fd', sssp_step G d = Ok d' /\ istep t FG fd = Ok fd' /\ drel (K + M) d' fd'.
Proof.
  intros K0 HK ((W & W' & S' & H) & S). pose proof HG as (WG & WF & RF & CF & GF).
  destruct (sssp_step_ok G N WG RG CG d W S) as (d1 & E1 & W1 & S1 & G1).
  destruct (gstep_ok ival (op2 Min t) (op2 Plus t) FG N WF ltac:(congruence) ltac:(congruence) fd W' ltac:(congruence)) as (d2 & E2 & W2 & S2 & G2).
  assert (R : forall v, oex (K + M) (vget d1 v) (vget d2 v)).
  { intro v. destruct (Nat.lt_ge_cases v N) as [Hv|Hv].
    - rewrite G1, G2 by auto. apply step_exact; auto.
    - rewrite !vget_oob; [exact I|apply W2|lia|apply W1|lia]. }
  exists d1, d2. split; [auto|]. split.
  - unfold istep. rewrite E2. cbn [bind]. apply defined_v_ok; [apply W2|]. intros i x Hx. specialize (R i). rewrite Hx in R.
    destruct (vget d1 i); simpl in R; [|contradiction]. eapply exactly_ok; eauto.
  - split; [|auto]. repeat split; auto; try apply W1; try apply W2; congruence.
Qed.
Lemma iloop_exact n : forall k K d fd, 0 <= K -> K + M * Z.of_nat n <= tmax t -> drel K d fd ->
  exists d' fd', mfor (seq k n) (fun _ d => sssp_step G d) d = Ok d' /\
    mfor (seq k n) (fun _ d => istep t FG d) fd = Ok fd' /\ drel (K + M * Z.of_nat n) d' fd'.
Proof.
  induction n as [|n IH]; intros k K d fd K0 HK H.
  - exists d, fd. split; [auto|]. split; [auto|]. replace (K + M * Z.of_nat 0) with K by lia. auto.
  - rewrite Nat2Z.inj_succ in HK. destruct (istep_exact K d fd) as (d1 & fd1 & E1 & E2 & R); auto; [nia|].
    cbn [seq mfor]. rewrite E1, E2. cbn [bind].
    destruct (IH (S k) (K + M) d1 fd1) as (d2 & fd2 & E3 & E4 & R2); auto; [lia|nia|].
    exists d2, fd2. split; [auto|]. split; [auto|].
    replace (K + M * Z.of_nat (S n)) with (K + M + M * Z.of_nat n) by lia. auto.
Qed.
Theorem isssp_exact dist fdist : N <> 0%nat -> drel M dist fdist ->
  exists b d fd, sssp G dist = Ok (b, d) /\ isssp t FG fdist = Ok (b, fd) /\ drel (M * Z.of_nat N) d fd.
Proof.
  intros N0 R. pose proof R as ((_ & _ & S' & _) & S). pose proof HG as (WG & WF & RF & CF & GF).
  unfold sssp, isssp. rewrite <- RF, <- CF, RG, CG, <- S', S, Nat.eqb_refl. cbn [negb orb].
  destruct (iloop_exact (N - 1) 0 M dist fdist M0) as (d & fd & -> & -> & R1); [nia|auto|]. cbn [bind].
  replace (M + M * Z.of_nat (N - 1)) with (M * Z.of_nat N) in R1 by nia.
  destruct (istep_exact (M * Z.of_nat N) d fd) as (d2 & fd2 & -> & -> & R2); [nia|nia|auto|]. cbn [bind].
  destruct (vec_new_ok false N N0) as (f & -> & Wf & Sf & _). cbn [bind].
  pose proof R1 as ((W1 & W1' & S1' & H1) & S1). pose proof R2 as ((W2 & W2' & S2' & H2) & S2).
  destruct (eWiseMult_v_ok Z.eqb btrue idc (NoAcc idc) vnomask MERGE f d d2) as (fl & -> & Wfl & Sfl & Gfl).
  { apply Wf. } { apply wfv_wfvn; auto. } { apply wfv_wfvn; auto. } { exact Logic.I. }
  { split; [exact Logic.I|]. split; congruence. }
  destruct (eWiseMult_v_ok ieqb btrue idc (NoAcc idc) vnomask MERGE f fd fd2) as (fl' & -> & Wfl' & Sfl' & Gfl').
  { apply Wf. } { apply wfv_wfvn; auto. } { apply wfv_wfvn; auto. } { exact Logic.I. }
  { split; [exact Logic.I|]. split; congruence. }
  cbn [bind]. exists (negb (any_false_v fl)), d, fd. split; [auto|]. split; [|auto].
  do 3 f_equal. apply eq_true_iff_eq. rewrite !any_false_v_iff by (apply Wfl || apply Wfl').
  assert (Eq : forall v, vget fl' v = vget fl v).
  { intro v. destruct (Nat.lt_ge_cases v N) as [Hv|Hv].
    - rewrite Gfl, Gfl' by congruence. simpl. specialize (H1 v). specialize (H2 v).
      destruct (vget d v), (vget fd v); try contradiction; destruct (vget d2 v), (vget fd2 v); try contradiction; simpl; auto.
      unfold idc. f_equal. eapply exactly_eqb; eauto.
    - rewrite !vget_oob; [auto|apply Wfl|lia|apply Wfl'|lia]. }
  split; intros (i & Hi); exists i; rewrite <- Hi; auto.
Qed.
End Graph.
End Sssp.
