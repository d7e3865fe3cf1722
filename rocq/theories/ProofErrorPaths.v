(** Shortest paths with rounded sums against exact shortest paths. *)
From Coq Require Import Lia ZArith Floats.SpecFloat.
From Verif Require Import Base ModelLil ModelVec ModelHelpers ModelViews ModelElem ModelUtils ModelAlgoBase ModelSssp ModelFloat ModelFsssp
  Spec SpecOps SpecPaths SpecFloats SpecFpaths SpecMstTypes ProofLil ProofVec ProofReduce ProofRound ProofFloat ProofGpaths ProofSssp ProofFsssp ProofPaths
  ProofError SpecError SpecErrorPaths.
Local Open Scope Z_scope.

Section Near.
Variables (t : ftype) (N : nat) (w : nat -> nat -> option fval) (D0 : nat -> option fval).
Hypothesis HW : forall u v g, w u v = Some g -> value t g /\ finite g /\ nonnegative g.
Hypothesis HD : forall v a, D0 v = Some a -> value t a /\ finite a /\ nonnegative a.
Hypothesis BW : forall u v g, w u v = Some g -> (u < N /\ v < N)%nat.
Hypothesis BD : forall v a, D0 v = Some a -> (v < N)%nat.
Notation W := (exact2 t w).
Notation D := (exact1 t D0).

Lemma nonneg_multiple x : value t x -> finite x -> nonnegative x -> 0 <= multiple t x.
Proof.
  intros V F P. rewrite multiple_sv by auto. unfold nonnegative in P.
  rewrite (fle_sv t) in P by (auto using f0_number, finite_number). exact P.
Qed.
Lemma W_nonneg u v g : W u v = Some g -> 0 <= g.
Proof.
  unfold exact2. destruct (w u v) as [x|] eqn:E; [|discriminate]. intro H. inversion H. destruct (HW u v x E) as (V & F & P).
  apply nonneg_multiple; auto.
Qed.
Lemma D_nonneg v a : D v = Some a -> 0 <= a.
Proof.
  unfold exact1. destruct (D0 v) as [x|] eqn:E; [|discriminate]. intro H. inversion H. destruct (HD v x E) as (V & F & P).
  apply nonneg_multiple; auto.
Qed.
Lemma W_bound u v g : W u v = Some g -> (u < N /\ v < N)%nat.
Proof. unfold exact2. destruct (w u v) eqn:E; [|discriminate]. eauto. Qed.
Lemma D_bound v g : D v = Some g -> (v < N)%nat.
Proof. unfold exact1. destruct (D0 v) eqn:E; [|discriminate]. eauto. Qed.
Lemma wwalk_nonneg u v k c : wwalk W u v k c -> 0 <= c.
Proof. induction 1; [lia|]. pose proof (W_nonneg _ _ _ H0). lia. Qed.

(** The terms of a walk. *)
Definition terms (k : nat) (xs : list fval) : Prop :=
  length xs = S k /\ Forall (fun x => value t x /\ finite x /\ nonnegative x) xs.
Lemma terms_magnitude k xs : terms k xs -> magnitude (map (multiple t) xs) = total (map (multiple t) xs) /\ 0 <= total (map (multiple t) xs).
Proof.
  intros (_ & H). unfold magnitude, total. induction H as [|x xs (V & F & P) H IH]; simpl; [lia|].
  pose proof (nonneg_multiple x V F P). lia.
Qed.
Lemma terms_range k xs : terms k xs -> (k < N)%nat ->
  2 * (U t + Z.of_nat N) * total (map (multiple t) xs) <= U t * overflow_threshold t -> sum_in_range t xs.
Proof.
  intros T K B. destruct (terms_magnitude k xs T) as (M & P). destruct T as (L & F). split.
  - rewrite Forall_forall in *. intros x Hx. apply (F x Hx).
  - rewrite M, L. pose proof (U_pos t). set (s := total (map (multiple t) xs)) in *.
    transitivity (2 * (U t + Z.of_nat N) * s); [|exact B]. apply Z.mul_le_mono_nonneg_r; lia.
Qed.
Lemma fwalk_terms k v x : fwalk t w D0 k v x ->
  number t x /\ 0 <= sv t x /\
  exists xs, terms k xs /\ sums t xs x /\ walk_from W D k v (total (map (multiple t) xs)).
Proof.
  induction 1 as [v a H|k u v a g H IH E].
  - destruct (HD v a H) as (V & F & P). split; [apply finite_number; auto|]. split.
    { rewrite <- multiple_sv by auto. apply nonneg_multiple; auto. }
    exists [a]. split; [split; auto|]. split; [apply sums_one; auto|].
    apply walk_from_0. unfold exact1. rewrite H. cbn [map option_map]. rewrite total_one. auto.
  - destruct (HW u v g E) as (V & F & P). destruct IH as (Na & Pa & xs & (L & T) & S & K).
    assert (Wg : fweight t g) by (split; auto). split; [apply (f_plus_good t); auto|].
    split. { pose proof (f_plus_up t a g Na Wg P) as Q. unfold fkey in Q. lia. }
    exists (xs ++ [g]). split; [split|split].
    + rewrite app_length, L. simpl. lia.
    + apply Forall_app. auto.
    + apply sums_plus; auto. apply sums_one; auto.
    + rewrite map_app, total_app. cbn [map]. rewrite total_one. apply walk_from_S.
      exists u, (total (map (multiple t) xs)), (multiple t g). split; [auto|]. split; [|auto]. unfold exact2. rewrite E. auto.
Qed.
Lemma terms_fwalk k v d : walk_from W D k v d -> exists x xs, fwalk t w D0 k v x /\ terms k xs /\ sums t xs x /\ d = total (map (multiple t) xs).
Proof.
  revert v d. induction k as [|k IH]; intros v d H.
  - apply walk_from_0 in H. unfold exact1 in H. destruct (D0 v) as [a|] eqn:E; [|discriminate]. inversion H; subst d.
    destruct (HD v a E) as (V & F & P). exists a, [a]. split; [constructor; auto|]. split; [split; auto|].
    split; [apply sums_one; auto|]. cbn [map]. rewrite total_one. auto.
  - apply walk_from_S in H. destruct H as (u & y & g' & K & E & ->). unfold exact2 in E. destruct (w u v) as [g|] eqn:Eg; [|discriminate].
    inversion E; subst g'. destruct (IH u y K) as (x & xs & F1 & (L & T) & S & ->). destruct (HW u v g Eg) as (V & F & P).
    exists (FPlus t x g), (xs ++ [g]). split; [econstructor; eauto|]. split; [split|split].
    + rewrite app_length, L. simpl. lia.
    + apply Forall_app. auto.
    + apply sums_plus; auto. apply sums_one; auto.
    + rewrite map_app, total_app. cbn [map]. rewrite total_one. auto.
Qed.

(** Cutting cycles does not make a walk longer. *)
Lemma shorter k v x : walk_from W D k v x -> exists k' x', (k' < N)%nat /\ walk_from W D k' v x' /\ x' <= x.
Proof.
  revert x. induction k as [k IH] using lt_wf_ind. intros x H.
  destruct (Nat.lt_ge_cases k N) as [Hk|Hk]; [exists k, x; split; [auto|]; split; [auto|lia]|].
  destruct H as (u & a & c & H1 & H2 & ->).
  destruct (walk_cycle N W W_bound u v k c) as (s & i & m & l & c1 & c2 & c3 & W1 & W2 & W3 & -> & ->); eauto using D_bound.
  destruct (IH (i + l)%nat ltac:(lia) (a + (c1 + c3))) as (k' & x' & K & F & L).
  { exists u, a, (c1 + c3). split; [auto|]. split; [|auto]. eapply wwalk_app; eauto. }
  exists k', x'. split; [auto|]. split; [auto|]. pose proof (wwalk_nonneg _ _ _ _ W2). lia.
Qed.

Lemma near_some v x d : fshortest_of (fun k => (k < N)%nat) t w D0 v x -> shortest W D v d ->
  0 <= d /\ (2 * (U t + Z.of_nat N) * d <= U t * overflow_threshold t ->
    finite x /\ U t * Z.abs (multiple t x - d) <= (Z.of_nat N - 1) * d).
Proof.
  intros ((k & Hk & F) & Hm) ((j & Fj) & Hd).
  destruct (fwalk_terms k v x F) as (Nx & Px & xs & T & S & K). pose proof (Hd _ _ K) as Hl.
  assert (D0' : 0 <= d). { destruct Fj as (u & a & c & H1 & H2 & ->). pose proof (D_nonneg u a H1). pose proof (wwalk_nonneg _ _ _ _ H2). lia. }
  split; auto. intro B.
  destruct (shorter j v d Fj) as (j' & d' & Hj & Fj' & L'). assert (d' = d) by (pose proof (Hd _ _ Fj'); lia). subst d'.
  destruct (terms_fwalk j' v d Fj') as (y & ys & Fy & Ty & Sy & Ey).
  destruct (fwalk_terms j' v y Fy) as (Ny & Py & _).
  pose proof (Hm j' y Hj Fy) as L. rewrite (fle_sv t) in L by auto.
  assert (FY : finite y). { apply Sy. apply (terms_range j'); auto. rewrite <- Ey. auto. }
  destruct (finite_rep t y (proj1 Ny) FY) as (_ & LY).
  assert (FX : finite x). { apply (finite_sv t); auto. lia. }
  split; auto. destruct Sy as (_ & Ay & _). specialize (Ay FY). destruct S as (_ & Ax & _). specialize (Ax FX).
  rewrite (proj1 (terms_magnitude _ _ Ty)), (proj1 Ty), <- Ey in Ay. rewrite (proj1 (terms_magnitude _ _ T)), (proj1 T) in Ax.
  rewrite multiple_sv in * by auto. set (l := total (map (multiple t) xs)) in *. pose proof (U_pos t) as U0.
  replace (Z.of_nat (Datatypes.S j') - 1) with (Z.of_nat j') in Ay by lia. replace (Z.of_nat (Datatypes.S k) - 1) with (Z.of_nat k) in Ax by lia.
  set (X := sv t x) in *. set (Y := sv t y) in *. clearbody X Y l. set (n := Z.of_nat N) in *.
  assert (Z.of_nat k <= n - 1) by lia. assert (Z.of_nat j' <= n - 1) by lia. set (kk := Z.of_nat k) in *. set (jj := Z.of_nat j') in *.
  assert (0 <= kk) by lia. assert (0 <= jj) by lia. clearbody kk jj n. clear - Px L Hl D0' Ax Ay U0 H H0 H1 H2.
  assert (Up : U t * (X - d) <= (n - 1) * d).
  { transitivity (U t * Z.abs (Y - d)); [apply Z.mul_le_mono_nonneg_l; lia|]. transitivity (jj * d); [auto|]. apply Z.mul_le_mono_nonneg_r; lia. }
  assert (Lo : U t * (d - X) <= (n - 1) * d).
  { destruct (Z.le_gt_cases (U t) (n - 1)) as [C|C].
    - transitivity (U t * d); [apply Z.mul_le_mono_nonneg_l; lia|]. apply Z.mul_le_mono_nonneg_r; lia.
    - assert (U t * (l - X) <= kk * l) by (transitivity (U t * Z.abs (X - l)); [apply Z.mul_le_mono_nonneg_l; lia|auto]).
      assert ((U t - kk) * d <= (U t - kk) * l) by (apply Z.mul_le_mono_nonneg_l; lia).
      assert (kk * d <= (n - 1) * d) by (apply Z.mul_le_mono_nonneg_r; lia). lia. }
  destruct (Z.abs_spec (X - d)) as [(_ & ->)|(_ & ->)]; [exact Up|]. replace (- (X - d)) with (d - X) by lia. exact Lo.
Qed.
(** Shortest walks exist. *)
Fixpoint best (k : nat) : nat -> option Z :=
  match k with O => D | S k => fun v => oadd zmin (best k v) (candidates N W (best k) v) end.
Lemma best_ok k : covers W D k (best k) /\ sound W D k (best k) /\ forall v, (N <= v)%nat -> best k v = None.
Proof.
  induction k as [|k (C & S & O)].
  - split; [|split].
    + intros j v y Hj H. replace j with 0%nat in H by lia. apply walk_from_0 in H. exists y. split; [auto|lia].
    + intros v x H. exists 0%nat. split; [auto|]. apply walk_from_0. auto.
    + intros v Hv. cbn. destruct (D v) as [a|] eqn:E; auto. apply D_bound in E. lia.
  - assert (O' : forall v, (N <= v)%nat -> best (Datatypes.S k) v = None).
    { intros v Hv. cbn. rewrite O by auto. cbn. destruct (candidates N W (best k) v) as [x|] eqn:E; auto.
      apply candidates_sound in E. destruct E as (u & y & g & _ & E & _). apply W_bound in E. lia. }
    split; [|split]; auto.
    + apply (relax_covers N W W_bound D D_bound k (best k)); auto.
    + apply (relax_sound N W D k (best k)); auto.
Qed.
Lemma shortest_exists k v x : walk_from W D k v x -> exists d, shortest W D v d.
Proof.
  intro H. destruct (best_ok (N - 1)) as (C & S & _). destruct (shorter k v x H) as (k' & x' & Hk & F & _).
  destruct (C k' v x' ltac:(lia) F) as (d & E & _). exists d. split.
  - destruct (S v d E) as (j & _ & Fj). eauto.
  - intros j y Hj. destruct (shorter j v y Hj) as (j' & y' & Hj' & Fj' & L). destruct (C j' v y' ltac:(lia) Fj') as (d' & E' & L').
    rewrite E in E'. inversion E'. lia.
Qed.

Lemma near_all v o : (o = None -> forall k x, ~ fwalk t w D0 k v x) ->
  (forall x, o = Some x -> fshortest_of (fun k => (k < N)%nat) t w D0 v x) -> near_shortest t N w D0 v o.
Proof.
  intros H1 H2. destruct o as [x|]; simpl.
  - pose proof (H2 x eq_refl) as F. destruct F as ((k & Hk & F) & _).
    destruct (fwalk_terms k v x F) as (_ & _ & xs & _ & _ & K). destruct (shortest_exists _ _ _ K) as (d & S). exists d. split; auto.
    apply (near_some v x d); auto.
  - intros k d F. destruct (terms_fwalk k v d F) as (x & _ & F' & _). apply (H1 eq_refl k x F').
Qed.
End Near.
