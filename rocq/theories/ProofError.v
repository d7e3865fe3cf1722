(** Rounding errors of sums and sums of products. *)
From Coq Require Import Lia ZArith Floats.SpecFloat.
From Verif Require Import Base ModelLil ModelVec ModelHelpers ModelViews ModelMul ModelElem ModelUtils ModelAlgoBase ModelFloat ModelFloatOps
  Spec SpecOps SpecFloats SpecMstTypes ProofRound ProofFloat ProofMul ProofReduce ProofInts SpecError.
Local Open Scope Z_scope.

(** ** One rounding *)
Section Format.
Variables prec emax : Z.
Hypothesis Hprec : 1 < prec.
Hypothesis Hemax : prec < emax.
Notation emin := (emin prec emax).
Notation Rz := (Rz prec emax).
Notation rv := (rv prec emax).
Notation big := (big prec emax).
Notation shift_of := (shift_of prec emax).

Lemma shift_emin m : shift_of m emin = Z.max (Zdigits2 m - prec) 0.
Proof. unfold ProofRound.shift_of, SpecFloat.fexp. lia. Qed.
Lemma rv_emin m : rv m emin = rne m (shift_of m emin) * 2 ^ shift_of m emin.
Proof. unfold ProofRound.rv. do 2 f_equal. lia. Qed.
Lemma digits_pos z : 0 < z -> 2 ^ (Zdigits2 z - 1) <= z < 2 ^ Zdigits2 z /\ 0 < Zdigits2 z.
Proof. destruct z as [|p|p]; try lia. intros _. cbn [Zdigits2]. split; [apply digits_bounds|lia]. Qed.

Lemma rv_err z : 0 < z -> 2 ^ prec * Z.abs (rv z emin - z) <= z /\
  2 * Z.abs (rv z emin - z) <= 2 ^ shift_of z emin.
Proof.
  intro Hz. rewrite rv_emin. pose proof (shift_emin z) as S. set (n := shift_of z emin) in *.
  assert (Hn : 0 <= n) by lia. pose proof (rne_near z n ltac:(lia) Hn) as (N1 & N2).
  split; [|lia]. destruct (digits_pos z Hz) as (B & D).
  destruct (Z.eq_dec n 0) as [->|NZ].
  - rewrite rne_0, Z.pow_0_r. replace (z * 1 - z) with 0 by lia. simpl. lia.
  - assert (E : Zdigits2 z - 1 = (prec - 1) + n) by lia.
    rewrite E, Z.pow_add_r in B by lia.
    replace (2 ^ prec) with (2 * 2 ^ (prec - 1)) by (rewrite <- Z.pow_succ_r by lia; f_equal; lia).
    assert (0 < 2 ^ (prec - 1)) by (apply Z.pow_pos_nonneg; lia). nia.
Qed.

(** Values that are not changed by rounding. *)
Definition rep (y : Z) : Prop := Rz y = y.
Lemma rep_pos y : 0 < y -> rep y -> y < big -> exists k, y = k * 2 ^ shift_of y emin.
Proof.
  unfold rep. intros Hy E L. rewrite Rz_pos in E by auto. exists (rne y (shift_of y emin)).
  rewrite <- rv_emin. lia.
Qed.

Lemma rv_nearest z y : 0 < z -> 0 < y -> rep y -> y < big -> Z.abs (rv z emin - z) <= Z.abs (y - z).
Proof.
  intros Hz Hy Ry Ly. destruct (rep_pos y Hy Ry Ly) as (k & Ek).
  pose proof (rv_err z Hz) as (_ & Half). rewrite rv_emin in *. pose proof (shift_emin z) as Sz. pose proof (shift_emin y) as Sy.
  set (n := shift_of z emin) in *. set (ny := shift_of y emin) in *. set (q := rne z n) in *.
  assert (Hn : 0 <= n) by lia. assert (Hp : 0 < 2 ^ n) by (apply Z.pow_pos_nonneg; lia).
  (* two multiples of 2^n *)
  assert (K : forall c, Z.abs (q * 2 ^ n - z) <= Z.abs (c * 2 ^ n - z)).
  { intro c. destruct (Z.eq_dec c q) as [->|NE]; [lia|].
    assert (2 ^ n <= Z.abs ((c - q) * 2 ^ n)) by (rewrite Z.abs_mul, (Z.abs_eq (2 ^ n)) by lia; nia). lia. }
  destruct (Z.le_gt_cases n ny) as [L|L].
  - specialize (K (k * 2 ^ (ny - n))). rewrite <- Z.mul_assoc, <- Z.pow_add_r in K by lia.
    replace (ny - n + n) with ny in K by lia. rewrite <- Ek in K. exact K.
  - destruct (digits_pos z Hz) as (Bz & Dz). destruct (digits_pos y Hy) as (By & Dy).
    specialize (K (2 ^ (prec - 1))). rewrite <- Z.pow_add_r in K by lia.
    replace (prec - 1 + n) with (Zdigits2 z - 1) in K by lia.
    assert (2 ^ Zdigits2 y <= 2 ^ (Zdigits2 z - 1)) by (apply Z.pow_le_mono_r; lia). lia.
Qed.

Lemma Rz_small z : Z.abs (Rz z) < big -> Rz z = Z.sgn z * rv (Z.abs z) emin.
Proof.
  unfold ProofRound.Rz. destruct (Z.lt_trichotomy z 0) as [L|[->|L]]; simpl; auto.
  - rewrite Z.sgn_neg by auto. intro H. pose proof (rv_nonneg prec emax (Z.abs z) emin ltac:(lia) (fexp_emin _ _ _)). lia.
  - rewrite Z.sgn_pos by auto. intro H. pose proof (rv_nonneg prec emax (Z.abs z) emin ltac:(lia) (fexp_emin _ _ _)). lia.
Qed.
Lemma Rz_err z : Z.abs (Rz z) < big -> 2 ^ prec * Z.abs (Rz z - z) <= Z.abs z.
Proof.
  intro H. rewrite Rz_small by auto. destruct (Z.lt_trichotomy z 0) as [L|[->|L]]; [|simpl; lia|].
  - rewrite Z.sgn_neg by auto. pose proof (rv_err (Z.abs z) ltac:(lia)) as (E & _).
    replace (Z.abs (-1 * rv (Z.abs z) emin - z)) with (Z.abs (rv (Z.abs z) emin - Z.abs z)) by lia. exact E.
  - rewrite Z.sgn_pos by auto. pose proof (rv_err (Z.abs z) ltac:(lia)) as (E & _).
    replace (Z.abs (1 * rv (Z.abs z) emin - z)) with (Z.abs (rv (Z.abs z) emin - Z.abs z)) by lia. exact E.
Qed.
Lemma rep_opp y : rep y -> rep (- y).
Proof. unfold rep. rewrite Rz_opp. lia. Qed.
Lemma Rz_nearest z y : Z.abs (Rz z) < big -> rep y -> Z.abs y < big -> Z.abs (Rz z - z) <= Z.abs (y - z).
Proof.
  intros H Ry Ly. pose proof (Rz_err z H) as E.
  assert (P1 : 1 <= 2 ^ prec) by (pose proof (Z.pow_pos_nonneg 2 prec); lia).
  destruct (Z.le_gt_cases (y * z) 0) as [S|S].
  { assert (Z.abs z <= Z.abs (y - z)) by nia. nia. }
  rewrite (Rz_small z H). destruct (Z.lt_trichotomy z 0) as [L|[->|L]]; [|lia|].
  - assert (y < 0) by nia. rewrite Z.sgn_neg by auto.
    pose proof (rv_nearest (- z) (- y) ltac:(lia) ltac:(lia) (rep_opp y Ry) ltac:(lia)).
    replace (Z.abs z) with (- z) by lia. lia.
  - assert (0 < y) by nia. rewrite Z.sgn_pos by auto.
    pose proof (rv_nearest z y ltac:(lia) ltac:(lia) Ry ltac:(lia)).
    replace (Z.abs z) with z by lia. lia.
Qed.

(** ** Sums *)
Lemma merge_arith P k l S T x y z va vb D r : 0 <= k -> 0 <= l -> k <> 0 -> l <> 0 -> 0 < P -> P * x <= (k - 1) * S -> P * y <= (l - 1) * T ->
  P * D <= z -> D <= vb -> D <= va -> r <= D + x + y -> va <= x + S -> vb <= y + T -> z <= x + S + (y + T) -> 0 <= S -> 0 <= T -> 0 <= x -> 0 <= y ->
  P * r <= (k + l - 1) * (S + T).
Proof.
  clear. intros Hk Hl Nk Nl P0 EA EB E1 E2 E3 TR XA XB XC S0 T0 H H0.
  assert (mono : forall c a b, 0 <= c -> a <= b -> c * a <= c * b) by (clear; intros; apply Z.mul_le_mono_nonneg_l; auto).
  assert (HR : P * r <= P * D + P * x + P * y) by (pose proof (mono P r (D + x + y) ltac:(lia) TR); lia).
  destruct (Z.le_gt_cases (P * T) S) as [C|C].
  - assert (P * D <= P * y + P * T) by (pose proof (mono P D (y + T) ltac:(lia) ltac:(lia)); lia).
    assert (T <= S) by (pose proof (Z.mul_le_mono_nonneg_r 1 P T T0 ltac:(lia)); lia).
    assert ((l - 1) * T <= (l - 1) * S) by (apply mono; lia).
    assert (0 <= k * T) by (apply Z.mul_nonneg_nonneg; lia). lia.
  - destruct (Z.le_gt_cases (P * S) T) as [C'|C'].
    + assert (P * D <= P * x + P * S) by (pose proof (mono P D (x + S) ltac:(lia) ltac:(lia)); lia).
      assert (S <= T) by (pose proof (Z.mul_le_mono_nonneg_r 1 P S S0 ltac:(lia)); lia).
      assert ((k - 1) * S <= (k - 1) * T) by (apply mono; lia).
      assert (0 <= l * S) by (apply Z.mul_nonneg_nonneg; lia). lia.
    + assert (x <= (k - 1) * T).
      { apply (Z.mul_le_mono_pos_l _ _ P); auto. pose proof (mono (k - 1) S (P * T) ltac:(lia) ltac:(lia)). lia. }
      assert (y <= (l - 1) * S).
      { apply (Z.mul_le_mono_pos_l _ _ P); auto. pose proof (mono (l - 1) T (P * S) ltac:(lia) ltac:(lia)). lia. }
      lia.
Qed.
(** The sum of two sums of k and l terms: the error stays below ((k + l - 1) u) times the sum of the magnitudes. *)
Lemma sum_merge k l a b A B S T : 0 <= k -> 0 <= l -> (k = 0 -> S = 0) -> (l = 0 -> T = 0) -> rep a -> rep b -> Z.abs a < big -> Z.abs b < big ->
  Z.abs (Rz (a + b)) < big -> Z.abs A <= S -> Z.abs B <= T ->
  2 ^ prec * Z.abs (a - A) <= (k - 1) * S -> 2 ^ prec * Z.abs (b - B) <= (l - 1) * T ->
  2 ^ prec * Z.abs (Rz (a + b) - (A + B)) <= (k + l - 1) * (S + T).
Proof.
  intros Hk Hl Zk Zl Ra Rb La Lb LR LA LB EA EB.
  assert (P0 : 0 < 2 ^ prec) by (apply Z.pow_pos_nonneg; [reflexivity|apply Z.lt_le_incl, (Z.lt_trans _ 1); [reflexivity|exact Hprec]]).
  pose proof (Rz_err (a + b) LR) as E1. pose proof (Rz_nearest (a + b) a LR Ra La) as E2.
  pose proof (Rz_nearest (a + b) b LR Rb Lb) as E3. unfold rep in Ra, Rb.
  destruct (Z.eq_dec k 0) as [K0|Nk].
  { specialize (Zk K0). clear - K0 Zk LA EA EB P0 Rb. subst k S. revert EA EB P0. generalize (2 ^ prec). intros P EA EB P0.
    assert (A = 0) by lia. subst A. assert (AA : Z.abs (a - 0) <= 0) by (apply (Z.mul_le_mono_pos_l _ _ P); lia).
    assert (a = 0) by lia. subst a. rewrite Z.add_0_l, Rb, !Z.add_0_l. exact EB. }
  destruct (Z.eq_dec l 0) as [L0|Nl].
  { specialize (Zl L0). clear - L0 Zl LB EA EB P0 Ra. subst l T. revert EA EB P0. generalize (2 ^ prec). intros P EA EB P0.
    assert (B = 0) by lia. subst B. assert (BB : Z.abs (b - 0) <= 0) by (apply (Z.mul_le_mono_pos_l _ _ P); lia).
    assert (b = 0) by lia. subst b. rewrite Z.add_0_r, Ra, !Z.add_0_r. exact EA. }
  clear Ra Rb Zk Zl LR La Lb. revert P0 E1 E2 E3 EA EB. generalize (2 ^ prec) (Rz (a + b)). intros P R P0 E1 E2 E3 EA EB.
  clear - Hk Hl Nk Nl P0 E1 E2 E3 EA EB LA LB.
  apply (merge_arith P k l S T (Z.abs (a - A)) (Z.abs (b - B)) (Z.abs (a + b)) (Z.abs a) (Z.abs b) (Z.abs (R - (a + b)))); auto; clear P0 EA EB E1; lia.
Qed.
End Format.

Lemma multiple_sv t x : finite x -> multiple t x = sv t x.
Proof. destruct x; try contradiction; reflexivity. Qed.
Lemma finite_fin x : finite x -> fin x = true.
Proof. destruct x; try contradiction; reflexivity. Qed.
Lemma finite_number t x : value t x -> finite x -> number t x.
Proof. intros V F. split; auto. destruct x; try contradiction; discriminate. Qed.
Lemma plus_finite t a b : finite (FPlus t a b) -> finite a /\ finite b.
Proof.
  unfold FPlus. destruct a as [sx|sx| |sx mx ex], b as [sy|sy| |sy my ey]; cbn [SFadd]; simpl; auto;
    try (destruct (Bool.eqb sx sy)); simpl; tauto.
Qed.
Lemma finite_rep t x : value t x -> finite x -> rep (prec t) (emax t) (sv t x) /\ Z.abs (sv t x) < big (prec t) (emax t).
Proof.
  intros V F. split.
  - exact (Rz_fix (prec t) (emax t) (prec_ok t) (emax_ok t) x V (finite_fin x F)).
  - pose proof (fin_bounds (prec t) (emax t) (prec_ok t) (emax_ok t) x V (finite_fin x F)). unfold sv. lia.
Qed.

Lemma magnitude_total l : Z.abs (total l) <= magnitude l.
Proof. unfold magnitude, total. induction l; simpl; lia. Qed.
Lemma total_app l l' : total (l ++ l') = total l + total l'.
Proof. unfold total. induction l; simpl; lia. Qed.
Lemma magnitude_app l l' : magnitude (l ++ l') = magnitude l + magnitude l'.
Proof. unfold magnitude. rewrite map_app. apply total_app. Qed.
Lemma total_one x : total [x] = x.
Proof. unfold total. simpl. lia. Qed.
Lemma magnitude_one x : magnitude [x] = Z.abs x.
Proof. apply total_one. Qed.
Lemma magnitude_cons x l : magnitude (x :: l) = Z.abs x + magnitude l.
Proof. reflexivity. Qed.
Lemma magnitude_nonneg l : 0 <= magnitude l.
Proof. pose proof (magnitude_total l). lia. Qed.

Lemma osum_present {T} (f : T -> T -> T) l :
  osum f l = match present l with [] => None | x :: r => Some (fold_left f r x) end.
Proof.
  unfold osum. assert (K : forall l a, fold_left (oadd f) l (Some a) = Some (fold_left f (present l) a)).
  { clear l. induction l as [|[x|] l IH]; intro a; simpl; auto. }
  induction l as [|[x|] l IH]; simpl; auto.
Qed.
Lemma present_in {T} (l : list (option T)) x : In x (present l) -> In (Some x) l.
Proof.
  unfold present. intro H. apply in_flat_map in H. destruct H as ([y|] & H1 & H2); simpl in H2; [|tauto].
  destruct H2 as [<-|[]]. auto.
Qed.

(** No overflow. *)
Lemma Rz_half t z : 2 * Z.abs z <= big (prec t) (emax t) -> Z.abs (Rz (prec t) (emax t) z) < big (prec t) (emax t).
Proof.
  intro H. pose proof (big_pos (prec t) (emax t) (prec_ok t) (emax_ok t)) as BP.
  set (h := 2 ^ (emax t - 1 - emin (prec t) (emax t))).
  assert (Eh : big (prec t) (emax t) = 2 * h).
  { unfold h, big. rewrite <- Z.pow_succ_r by (destruct t; vm_compute; discriminate). f_equal. lia. }
  assert (Rh : Rz (prec t) (emax t) h = h).
  { rewrite Rz_pos by lia. replace h with (1 * h) by lia. unfold h.
    rewrite rv_fix by (destruct t; vm_compute; congruence). fold h. lia. }
  pose proof (Rz_mono (prec t) (emax t) (prec_ok t) (emax_ok t) z h ltac:(lia)).
  pose proof (Rz_mono (prec t) (emax t) (prec_ok t) (emax_ok t) (- h) z ltac:(lia)) as M. rewrite Rz_opp, Rh in M. lia.
Qed.
Lemma finite_sv t x : number t x -> Z.abs (sv t x) < big (prec t) (emax t) -> finite x.
Proof.
  intros (V & N) H. destruct x as [s|s| |s m e]; simpl; auto; try congruence.
  pose proof (big_pos (prec t) (emax t) (prec_ok t) (emax_ok t)). unfold sv, sval, sg in H. destruct s; lia.
Qed.

(** ** Sums, added up in any order *)
Lemma U_pos t : 0 < U t.
Proof. destruct t; reflexivity. Qed.
Lemma big_threshold t : big (prec t) (emax t) = overflow_threshold t.
Proof. unfold big, overflow_threshold. f_equal. unfold SpecFloat.emin. lia. Qed.
Lemma sums_none t : sums t [] f0.
Proof. repeat split. intros _. simpl. unfold magnitude, total. simpl. lia. Qed.
Lemma sums_one t x : value t x -> sums t [x] x.
Proof.
  intro V. split; [auto|]. split.
  - intros _. unfold magnitude, total. simpl. rewrite Z.add_0_r, Z.sub_diag. simpl. lia.
  - intros (F & _). inversion F; auto.
Qed.
Lemma in_range_app t xs ys : sum_in_range t (xs ++ ys) -> sum_in_range t xs /\ sum_in_range t ys.
Proof.
  intros (F & B). apply Forall_app in F. destruct F as (F1 & F2). rewrite map_app, magnitude_app, app_length, Nat2Z.inj_add in B.
  pose proof (magnitude_nonneg (map (multiple t) xs)). pose proof (magnitude_nonneg (map (multiple t) ys)). pose proof (U_pos t).
  set (p := magnitude (map (multiple t) xs)) in *. set (q := magnitude (map (multiple t) ys)) in *.
  set (n := Z.of_nat (length xs)) in *. set (m := Z.of_nat (length ys)) in *. assert (0 <= n) by (unfold n; lia). assert (0 <= m) by (unfold m; lia).
  assert (0 <= U t * q) by nia. assert (0 <= U t * p) by nia. assert (0 <= n * q) by nia. assert (0 <= m * p) by nia.
  assert (0 <= n * p) by nia. assert (0 <= m * q) by nia.
  split; split; auto; fold p q n m; lia.
Qed.
Lemma sums_plus t xs ys a b : sums t xs a -> sums t ys b -> sums t (xs ++ ys) (FPlus t a b).
Proof.
  intros (Va & Aa & Fa) (Vb & Ab & Fb). split; [apply plus_value; auto|].
  pose proof (magnitude_total (map (multiple t) xs)) as Mx. pose proof (magnitude_total (map (multiple t) ys)) as My.
  split.
  - intro F. destruct (plus_finite t a b F) as (F1 & F2). specialize (Aa F1). specialize (Ab F2).
    destruct (plus_fin t a b Va Vb F1 F2) as (Np & Ep). rewrite (multiple_sv t _ F), Ep, map_app, total_app, magnitude_app, app_length.
    destruct (finite_rep t a Va F1) as (R1 & L1). destruct (finite_rep t b Vb F2) as (R2 & L2).
    destruct (finite_rep t _ (proj1 Np) F) as (_ & L3). rewrite Ep in L3. rewrite Nat2Z.inj_add.
    rewrite (multiple_sv t a F1) in Aa. rewrite (multiple_sv t b F2) in Ab.
    apply (sum_merge (prec t) (emax t) (prec_ok t) (emax_ok t)); auto; try lia.
    + destruct xs; [reflexivity|simpl length; lia].
    + destruct ys; [reflexivity|simpl length; lia].
  - intro R. destruct (in_range_app t xs ys R) as (R1 & R2). specialize (Fa R1). specialize (Fb R2).
    destruct (plus_fin t a b Va Vb Fa Fb) as (Np & Ep). apply (finite_sv t); auto. rewrite Ep. apply Rz_half.
    specialize (Aa Fa). specialize (Ab Fb). rewrite (multiple_sv t a Fa) in Aa. rewrite (multiple_sv t b Fb) in Ab.
    destruct R as (_ & R). rewrite map_app, magnitude_app, app_length, Nat2Z.inj_add, <- big_threshold in R.
    set (p := magnitude (map (multiple t) xs)) in *. set (q := magnitude (map (multiple t) ys)) in *.
    set (n := Z.of_nat (length xs)) in *. set (m := Z.of_nat (length ys)) in *.
    assert (0 <= n) by (unfold n; lia). assert (0 <= m) by (unfold m; lia). pose proof (U_pos t) as U0.
    assert (0 <= p) by lia. assert (0 <= q) by lia.
    assert (C : U t * (2 * Z.abs (sv t a + sv t b)) <= U t * big (prec t) (emax t)).
    { assert (U t * Z.abs (sv t a) <= (n - 1) * p + U t * p) by nia. assert (U t * Z.abs (sv t b) <= (m - 1) * q + U t * q) by nia.
      assert (U t * Z.abs (sv t a + sv t b) <= U t * Z.abs (sv t a) + U t * Z.abs (sv t b)) by nia.
      assert (0 <= m * p) by nia. assert (0 <= n * q) by nia. lia. }
    apply Z.mul_le_mono_pos_l in C; auto.
Qed.
Lemma sums_fold t r : forall xs s, sums t xs s -> Forall (value t) r -> sums t (xs ++ r) (fold_left (FPlus t) r s).
Proof.
  induction r as [|x r IH]; intros xs s A V; simpl; [rewrite app_nil_r; auto|]. inversion V; subst.
  replace (xs ++ x :: r) with ((xs ++ [x]) ++ r) by (rewrite <- app_assoc; reflexivity).
  apply IH; auto. apply sums_plus; auto. apply sums_one; auto.
Qed.
Lemma osum_sums t l : Forall (value t) (present l) -> osums t (present l) (osum (FPlus t) l).
Proof.
  intro V. rewrite osum_present. destruct (present l) as [|s r] eqn:E; [reflexivity|]. inversion V; subst.
  split; [discriminate|]. change (s :: r) with ([s] ++ r). apply sums_fold; auto. apply sums_one; auto.
Qed.

(** Rounded products. *)
Lemma times_finite t a b : finite (FTimes t a b) -> finite a /\ finite b.
Proof. unfold FTimes. destruct a as [sx|sx| |sx mx ex], b as [sy|sy| |sy my ey]; cbn [SFmul]; simpl; tauto. Qed.

Lemma rv_prod t m e a b : 0 < m -> emin (prec t) (emax t) <= a -> emin (prec t) (emax t) <= b -> e = a + b ->
  e <= fexp (prec t) (emax t) (Zdigits2 m + e) ->
  let c := emin (prec t) (emax t) in let U := 2 ^ prec t in let E := 2 ^ (- c) in
  2 * U * Z.abs (rv (prec t) (emax t) m e * E - m * 2 ^ (a - c) * 2 ^ (b - c)) <= 2 * (m * 2 ^ (a - c) * 2 ^ (b - c)) + U * E.
Proof.
  intros Hm Ha Hb -> He c U E. unfold rv, shift_of. fold c. set (f := fexp (prec t) (emax t) (Zdigits2 m + (a + b))) in *.
  assert (C0 : c < 0) by (unfold c; destruct t; reflexivity). fold c in Ha, Hb.
  assert (Hf : c <= f) by apply fexp_emin.
  set (sh := f - (a + b)) in *. assert (S0 : 0 <= sh) by (unfold sh; lia).
  assert (D : m * 2 ^ (a - c) * 2 ^ (b - c) = m * 2 ^ (a + b - 2 * c)).
  { rewrite <- Z.mul_assoc, <- Z.pow_add_r by lia. do 2 f_equal. lia. }
  rewrite D. replace (rne m sh * 2 ^ (a + b + sh - c) * E) with (rne m sh * 2 ^ sh * 2 ^ (a + b - 2 * c)).
  2:{ unfold E. rewrite <- !Z.mul_assoc, <- !Z.pow_add_r by lia. do 2 f_equal. lia. }
  set (g := 2 ^ (a + b - 2 * c)). assert (G0 : 0 < g) by (apply Z.pow_pos_nonneg; lia).
  rewrite <- Z.mul_sub_distr_r, Z.abs_mul, (Z.abs_eq g) by lia.
  pose proof (rne_near m sh ltac:(lia) S0) as (N1 & N2).
  set (d := Z.abs (rne m sh * 2 ^ sh - m)) in *. assert (N : 2 * d <= 2 ^ sh) by (unfold d; lia).
  assert (D0 : 0 <= d) by (unfold d; lia).
  assert (U0 : 0 < U) by (apply Z.pow_pos_nonneg; pose proof (prec_ok t); lia).
  assert (E0 : 0 < E) by (apply Z.pow_pos_nonneg; lia).
  destruct (digits_pos m Hm) as (B & _).
  assert (K : U * d <= m \/ 2 * (d * g) <= E).
  { destruct (Z.eq_dec f c) as [F|F].
    - right. assert (EE : E = 2 ^ sh * g). { unfold E, g. rewrite <- Z.pow_add_r by lia. f_equal. unfold sh. lia. }
      rewrite EE. clearbody d g. nia.
    - left. assert (F2 : f = Zdigits2 m + (a + b) - prec t) by (unfold f, SpecFloat.fexp in *; fold c in F; unfold c in F; lia).
      assert (P : U * 2 ^ sh = 2 * 2 ^ (Zdigits2 m - 1)).
      { unfold U. rewrite <- Z.pow_add_r by (pose proof (prec_ok t); lia). rewrite <- Z.pow_succ_r by (destruct (digits_pos m Hm); lia).
        f_equal. unfold sh. lia. }
      clearbody d. nia. }
  clearbody d g E U. destruct K; nia.
Qed.

Lemma ulps_pos t : 0 < ulps t.
Proof. destruct t; reflexivity. Qed.
Lemma ulps_emin t : ulps t = 2 ^ (- emin (prec t) (emax t)).
Proof. unfold ulps. f_equal. unfold SpecFloat.emin. lia. Qed.

Lemma times_rv t a b : value t a -> value t b -> finite a -> finite b ->
  number t (FTimes t a b) /\
  exists g r, (g = 1 \/ g = -1) /\ 0 <= r /\ multiple t a * multiple t b = g * Z.abs (multiple t a * multiple t b) /\
    sv t (FTimes t a b) = g * Z.min (big (prec t) (emax t)) r /\
    2 * U t * Z.abs (r * ulps t - Z.abs (multiple t a * multiple t b)) <= 2 * Z.abs (multiple t a * multiple t b) + U t * ulps t.
Proof.
  intros Va Vb Fa Fb. pose proof (U_pos t) as U0. pose proof (ulps_pos t) as E0. rewrite !multiple_sv by auto.
  pose proof (big_pos (prec t) (emax t) (prec_ok t) (emax_ok t)) as BP.
  destruct a as [sx|sx| |sx mx ex], b as [sy|sy| |sy my ey]; try contradiction;
    try (split; [split; [reflexivity|discriminate]|]; exists 1, 0; replace (sv t (FTimes t _ _)) with 0 by reflexivity;
         unfold sv, sval; rewrite ?Z.mul_0_r, ?Z.mul_0_l; simpl Z.abs; split; [auto|]; repeat split; try lia; nia).
  destruct (mul_fin (prec t) (emax t) (prec_ok t) (emax_ok t) _ _ _ _ _ _ Va Vb) as (V & NN & S).
  split; [split; assumption|].
  pose proof (valid_finite (prec t) (emax t) _ _ _ Va) as Wa. pose proof (valid_finite (prec t) (emax t) _ _ _ Vb) as Wb.
  pose proof (mul_pre (prec t) (emax t) (prec_ok t) (emax_ok t) _ _ _ _ _ _ Va Vb) as MP. rewrite Pos2Z.inj_mul in MP.
  pose proof (fexp_emin (prec t) (emax t) (Zpos (digits2_pos mx) + ex)) as Xa.
  pose proof (fexp_emin (prec t) (emax t) (Zpos (digits2_pos my) + ey)) as Xb.
  pose proof (rv_prod t (Zpos mx * Zpos my) (ex + ey) ex ey ltac:(lia) ltac:(lia) ltac:(lia) eq_refl MP) as R. cbv zeta in R.
  fold (U t) in R. rewrite <- ulps_emin in R.
  pose proof (rv_nonneg (prec t) (emax t) (Zpos mx * Zpos my) (ex + ey) ltac:(lia) MP) as R0.
  unfold sv. unfold FTimes. rewrite S. unfold sval. set (c := emin (prec t) (emax t)) in *.
  set (r := rv (prec t) (emax t) (Zpos mx * Zpos my) (ex + ey)) in *.
  assert (A0 : 0 < 2 ^ (ex - c)) by (apply Z.pow_pos_nonneg; lia). assert (B0 : 0 < 2 ^ (ey - c)) by (apply Z.pow_pos_nonneg; lia).
  set (p := 2 ^ (ex - c)) in *. set (q := 2 ^ (ey - c)) in *. set (w := Zpos mx * Zpos my * p * q) in *.
  assert (W : sg sx * (Z.pos mx * p) * (sg sy * (Z.pos my * q)) = sg (xorb sx sy) * w).
  { unfold sg, w. destruct sx, sy; simpl xorb; cbn match; ring. }
  assert (0 < w) by (unfold w; apply Z.mul_pos_pos; [apply Z.mul_pos_pos|]; lia).
  rewrite W. assert (AW : Z.abs (sg (xorb sx sy) * w) = w) by (unfold sg; destruct (xorb sx sy); lia). rewrite AW.
  exists (sg (xorb sx sy)), r. split; [unfold sg; destruct (xorb sx sy); auto|]. auto.
Qed.

Lemma times_err t a b : value t a -> value t b -> finite (FTimes t a b) ->
  2 * U t * Z.abs (multiple t (FTimes t a b) * ulps t - multiple t a * multiple t b) <=
    2 * Z.abs (multiple t a * multiple t b) + U t * ulps t.
Proof.
  intros Va Vb F. destruct (times_finite t a b F) as (Fa & Fb).
  destruct (times_rv t a b Va Vb Fa Fb) as ((V & _) & g & r & Hg & R0 & W & S & R).
  destruct (finite_rep t _ V F) as (_ & L). rewrite S in L. pose proof (big_pos (prec t) (emax t) (prec_ok t) (emax_ok t)) as BP.
  rewrite (multiple_sv t (FTimes t a b) F), S. rewrite Z.min_r in * by lia.
  set (w := Z.abs (multiple t a * multiple t b)) in *. rewrite W. 
  replace (Z.abs (g * r * ulps t - g * w)) with (Z.abs (r * ulps t - w)); auto.
  destruct Hg; subst g; lia.
Qed.
Lemma times_in_range t a b : value t a -> value t b -> finite a -> finite b ->
  2 * (U t + 1) * Z.abs (multiple t a * multiple t b) + U t * ulps t < 2 * U t * ulps t * overflow_threshold t -> finite (FTimes t a b).
Proof.
  intros Va Vb Fa Fb B. destruct (times_rv t a b Va Vb Fa Fb) as (N & g & r & Hg & R0 & W & S & R).
  apply (finite_sv t); auto. rewrite S, big_threshold. pose proof (U_pos t) as U0. pose proof (ulps_pos t) as E0.
  set (w := Z.abs (multiple t a * multiple t b)) in *. assert (0 <= w) by (unfold w; lia).
  assert (2 * U t * ulps t * r < 2 * U t * ulps t * overflow_threshold t).
  { set (d := Z.abs (r * ulps t - w)) in *. assert (r * ulps t <= w + d) by (unfold d; lia). clearbody d.
    assert (2 * U t * (r * ulps t) <= 2 * U t * (w + d)) by (apply Z.mul_le_mono_nonneg_l; lia). lia. }
  assert (r < overflow_threshold t) by (apply Z.mul_lt_mono_pos_l in H0; nia).
  destruct Hg; subst g; lia.
Qed.

Definition rounded (t : ftype) (ps : list (fval * fval)) : list fval := map (fun p => FTimes t (fst p) (snd p)) ps.
Definition pvalues (t : ftype) (ps : list (fval * fval)) : Prop := Forall (fun p => value t (fst p) /\ value t (snd p)) ps.
Lemma products_err t ps : pvalues t ps -> Forall finite (rounded t ps) ->
  let n := Z.of_nat (length ps) in
  exists D, 2 * U t * D <= 2 * magnitude (products t ps) + n * (U t * ulps t) /\
    Z.abs (total (map (multiple t) (rounded t ps)) * ulps t - total (products t ps)) <= D /\
    magnitude (map (multiple t) (rounded t ps)) * ulps t <= magnitude (products t ps) + D.
Proof.
  intros H F n. subst n. pose proof (ulps_pos t) as E0.
  induction H as [|(a, b) ps (Va & Vb) Hp IH].
  - exists 0. simpl. unfold magnitude, total. simpl. lia.
  - inversion F as [|? ? Fh Ft]; subst. destruct (IH Ft) as (D & I1 & I2 & I3). cbn [fst snd] in *.
    pose proof (times_err t a b Va Vb Fh) as K. unfold rounded, products in *.
    cbn [map length fst snd] in *. rewrite !magnitude_cons. unfold total in *. cbn [fold_right].
    set (p := multiple t (FTimes t a b)) in *. set (w := multiple t a * multiple t b) in *.
    exists (Z.abs (p * ulps t - w) + D). split; [|split].
    + rewrite Nat2Z.inj_succ. clearbody p w. nia.
    + match goal with |- Z.abs ((p + ?x) * ulps t - (w + ?y)) <= _ =>
        replace ((p + x) * ulps t - (w + y)) with ((p * ulps t - w) + (x * ulps t - y)) by ring end. lia.
    + assert (Z.abs p * ulps t <= Z.abs w + Z.abs (p * ulps t - w)).
      { replace (Z.abs p * ulps t) with (Z.abs (p * ulps t)) by (rewrite Z.abs_mul; lia). lia. }
      lia.
Qed.

Lemma dot_of_sum t ps x : ps <> [] -> pvalues t ps -> (finite x -> Forall finite (rounded t ps)) ->
  sum_accurate t (rounded t ps) x -> dot_accurate t ps x.
Proof.
  intros NE V FF A F. specialize (A F). specialize (FF F).
  set (n := Z.of_nat (length ps)). destruct (products_err t ps V FF) as (D & I1 & I2 & I3).
  unfold rounded in A at 2. rewrite map_length in A. fold n in A, I1.
  set (R := map (multiple t) (rounded t ps)) in *. pose proof (ulps_pos t) as E0. pose proof (U_pos t) as U0.
  set (E := ulps t) in *. set (U := U t) in *.
  assert (N1 : 1 <= n) by (unfold n; destruct ps; [congruence|simpl length; lia]).
  pose proof (magnitude_nonneg (products t ps)) as M0.
  set (M := magnitude (products t ps)) in *. set (S := total (products t ps)) in *. set (X := multiple t x) in *.
  set (T := total R) in *. set (m := magnitude R) in *.
  assert (B1 : U * Z.abs (X * E - T * E) <= (n - 1) * (M + D)).
  { replace (X * E - T * E) with ((X - T) * E) by ring. rewrite Z.abs_mul, (Z.abs_eq E) by lia.
    transitivity ((n - 1) * m * E); [rewrite Z.mul_assoc; apply Z.mul_le_mono_nonneg_r; lia|].
    rewrite <- Z.mul_assoc. apply Z.mul_le_mono_nonneg_l; lia. }
  assert (B2 : Z.abs (X * E - S) <= Z.abs (X * E - T * E) + D) by lia.
  assert (B3 : 2 * U * U * Z.abs (X * E - S) <= 2 * U * ((n - 1) * (M + D)) + U * (2 * U * D)).
  { clearbody U. set (y := Z.abs (X * E - T * E)) in *. clearbody y. set (z := Z.abs (X * E - S)) in *. clearbody z.
    transitivity (2 * U * (U * y) + U * (2 * U * D)); [|apply Z.add_le_mono_r, Z.mul_le_mono_nonneg_l; lia].
    replace (2 * U * (U * y) + U * (2 * U * D)) with (2 * U * U * (y + D)) by ring. apply Z.mul_le_mono_nonneg_l; nia. }
  replace (2 * U * ((n - 1) * (M + D))) with (2 * U * (n - 1) * M + (n - 1) * (2 * U * D)) in B3 by ring.
  set (Q := 2 * U * D) in *. clearbody Q.
  assert (B4 : (n - 1) * Q <= (n - 1) * (2 * M + n * (U * E))) by (apply Z.mul_le_mono_nonneg_l; lia).
  assert (B5 : U * Q <= U * (2 * M + n * (U * E))) by (apply Z.mul_le_mono_nonneg_l; lia).
  assert (B6 : 0 <= n * (U * E)) by (apply Z.mul_nonneg_nonneg; nia).
  transitivity (2 * U * (n - 1) * M + (n - 1) * (2 * M + n * (U * E)) + U * (2 * M + n * (U * E))); [lia|].
  ring_simplify. lia.
Qed.
Lemma products_in t ps p : In p ps -> Z.abs (multiple t (fst p) * multiple t (snd p)) <= magnitude (products t ps).
Proof.
  induction ps as [|q ps IH]; simpl; [tauto|]. unfold products. cbn [map]. rewrite magnitude_cons. fold (products t ps).
  pose proof (magnitude_nonneg (products t ps)). intros [->|H']; [lia|]. specialize (IH H'). lia.
Qed.
Lemma dot_range t ps : ps <> [] -> pvalues t ps -> dot_in_range t ps -> sum_in_range t (rounded t ps).
Proof.
  intros NE V (F & B). pose proof (ulps_pos t) as E0. pose proof (U_pos t) as U0.
  pose proof (magnitude_nonneg (products t ps)) as M0. set (n := Z.of_nat (length ps)) in *.
  assert (N1 : 1 <= n) by (unfold n; destruct ps; [congruence|simpl length; lia]).
  assert (FF : Forall finite (rounded t ps)).
  { apply Forall_forall. intros y Hy. unfold rounded in Hy. apply in_map_iff in Hy. destruct Hy as (p & <- & Hp).
    rewrite Forall_forall in F. destruct (F p Hp). unfold pvalues in V. rewrite Forall_forall in V. destruct (V p Hp).
    apply times_in_range; auto. pose proof (products_in t ps p Hp) as I.
    set (w := Z.abs (multiple t (fst p) * multiple t (snd p))) in *. set (M := magnitude (products t ps)) in *.
    set (G := 2 * (U t + 1) * M + n * U t * ulps t) in *.
    assert (2 * (U t + 1) * w + U t * ulps t <= G).
    { unfold G. apply Z.add_le_mono; [apply Z.mul_le_mono_nonneg_l; lia|]. rewrite <- Z.mul_assoc. nia. }
    assert (G0 : 0 < G). { pose proof (Z.mul_pos_pos _ _ U0 E0). assert (0 <= w) by (unfold w; lia). nia. }
    assert (U t * G < U t * (2 * U t * ulps t * overflow_threshold t)).
    { apply Z.lt_le_trans with ((U t + n) * G); [nia|].
      transitivity (U t * U t * ulps t * overflow_threshold t); [exact B|].
      assert (0 <= U t * U t * ulps t * overflow_threshold t).
      { apply Z.mul_nonneg_nonneg; [|unfold overflow_threshold; apply Z.pow_nonneg; lia]. nia. }
      lia. }
    apply Z.mul_lt_mono_pos_l in H4; lia. }
  split; auto. destruct (products_err t ps V FF) as (D & I1 & _ & I3). unfold rounded at 1. rewrite map_length. fold n. fold n in I1.
  set (m := magnitude (map (multiple t) (rounded t ps))) in *. set (M := magnitude (products t ps)) in *.
  assert (K : 2 * U t * ulps t * m <= 2 * (U t + 1) * M + n * U t * ulps t).
  { assert (2 * U t * (m * ulps t) <= 2 * U t * (M + D)) by (apply Z.mul_le_mono_nonneg_l; lia). lia. }
  set (G := 2 * (U t + 1) * M + n * U t * ulps t) in *. clearbody G.
  assert (C : U t * ulps t * (2 * (U t + n) * m) <= U t * ulps t * (U t * overflow_threshold t)).
  { transitivity ((U t + n) * (2 * U t * ulps t * m)); [apply Z.eq_le_incl; ring|].
    transitivity ((U t + n) * G); [apply Z.mul_le_mono_nonneg_l; lia|].
    transitivity (U t * U t * ulps t * overflow_threshold t); [exact B|apply Z.eq_le_incl; ring]. }
  apply Z.mul_le_mono_pos_l in C; auto. nia.
Qed.

Lemma fold_plus_finite t r : forall s, finite (fold_left (FPlus t) r s) -> finite s /\ Forall finite r.
Proof.
  induction r as [|x r IH]; simpl; auto. intros s F. apply IH in F. destruct F as (F & Fr). apply plus_finite in F. destruct F. auto.
Qed.
Lemma present_map2 {X Y Z} (f : X -> Y -> Z) (g : nat -> option X) (h : nat -> option Y) l :
  present (map (fun k => omap2 f (g k) (h k)) l) = map (fun p => f (fst p) (snd p)) (present (map (fun k => opair (g k) (h k)) l)).
Proof. induction l as [|k l IH]; simpl; auto. destruct (g k), (h k); simpl; rewrite <- ?IH; reflexivity. Qed.

Lemma dot_odots t (g h : nat -> option fval) l : pvalues t (present (map (fun k => opair (g k) (h k)) l)) ->
  odots t (present (map (fun k => opair (g k) (h k)) l)) (osum (FPlus t) (map (fun k => omap2 (FTimes t) (g k) (h k)) l)).
Proof.
  set (ps := present (map (fun k => opair (g k) (h k)) l)). intro V.
  assert (E : present (map (fun k => omap2 (FTimes t) (g k) (h k)) l) = rounded t ps) by (apply present_map2).
  assert (VR : Forall (value t) (rounded t ps)).
  { apply Forall_forall. intros y Hy. unfold rounded in Hy. apply in_map_iff in Hy. destruct Hy as (p & <- & Hp).
    unfold pvalues in V. rewrite Forall_forall in V. destruct (V p Hp). apply times_value; auto. }
  pose proof (osum_sums t (map (fun k => omap2 (FTimes t) (g k) (h k)) l)) as S. rewrite E in S. specialize (S VR).
  pose proof (osum_present (FPlus t) (map (fun k => omap2 (FTimes t) (g k) (h k)) l)) as O. rewrite E in O.
  destruct (osum (FPlus t) (map (fun k => omap2 (FTimes t) (g k) (h k)) l)) as [x|]; simpl in *.
  - destruct S as (NE & Vx & A & R). assert (N : ps <> []) by (intro Q; rewrite Q in NE; apply NE; reflexivity).
    split; auto. split; auto. split.
    + apply dot_of_sum; auto. intro F. destruct (rounded t ps) as [|s r] eqn:Er; auto. inversion O; subst.
      destruct (fold_plus_finite t r s F). constructor; auto.
    + intro D. apply R. apply dot_range; auto.
  - destruct ps; [reflexivity|discriminate].
Qed.

(** ** The operations *)
Lemma times_comm t a b : FTimes t a b = FTimes t b a.
Proof.
  unfold FTimes. destruct a as [sx|sx| |sx mx ex], b as [sy|sy| |sy my ey]; cbn [SFmul]; rewrite 1?(xorb_comm sx sy); auto.
  rewrite (Pos.mul_comm mx my), (Z.add_comm ex ey). reflexivity.
Qed.
Lemma map_idc {T} (o : option T) : option_map idc o = o.
Proof. destruct o; reflexivity. Qed.
Lemma present_values t (f : nat -> option fval) l : (forall k x, f k = Some x -> value t x) -> Forall (value t) (present (map f l)).
Proof.
  intro H. apply Forall_forall. intros x Hx. apply present_in in Hx. apply in_map_iff in Hx. destruct Hx as (k & E & _). eauto.
Qed.
Lemma present_pvalues t (f g : nat -> option fval) l : (forall k x, f k = Some x -> value t x) -> (forall k x, g k = Some x -> value t x) ->
  pvalues t (present (map (fun k => opair (f k) (g k)) l)).
Proof.
  intros H H'. apply Forall_forall. intros (x, y) Hx. apply present_in in Hx. apply in_map_iff in Hx. destruct Hx as (k & E & _).
  unfold opair in E. destruct (f k) eqn:E1, (g k) eqn:E2; try discriminate. inversion E; subst. simpl. eauto.
Qed.
Lemma fmxm_dots t C A B : mvalues t A -> mvalues t B -> wfm C -> wfview A -> wfview B -> nrows C = vrows A -> ncols C = vcols B ->
  vcols A = vrows B ->
  exists D, fmxm t C A B = Ok D /\ wfm D /\ nrows D = nrows C /\ ncols D = ncols C /\
    forall i j, (i < nrows C)%nat -> (j < ncols C)%nat ->
      odots t (present (map (fun k => opair (sview A i k) (sview B k j)) (seq 0 (vcols A)))) (mget D i j).
Proof.
  intros VA VB WC WA WB R1 R2 R3. unfold fmxm.
  destruct (mxm_ok (FPlus t) (FTimes t) (FTimes t) idc idc btrue idc (NoAcc idc) mnomask MERGE C A B) as (D & E & WD & RD & CD & GD);
    auto; try exact I.
  { destruct A; auto. destruct B; auto. split; [intros; apply times_comm|auto]. }
  exists D. split; [exact E|]. split; [exact WD|]. split; [exact RD|]. split; [exact CD|]. intros i j Hi Hj. rewrite GD by auto. cbn. rewrite !map_idc.
  unfold smul. apply dot_odots with (g := fun k => sview A i k) (h := fun k => sview B k j). apply present_pvalues; intros k x; [apply VA|apply VB].
Qed.
Lemma fmxv_dots t w A u : mvalues t A -> vvalues t u -> wfv0 w -> wfview A -> wfvn u -> vsize w = vrows A -> vsize u = vcols A ->
  exists D, fmxv t w A u = Ok D /\ wfv D /\ vsize D = vsize w /\
    forall i, (i < vsize w)%nat -> odots t (present (map (fun k => opair (sview A i k) (vget u k)) (seq 0 (vcols A)))) (vget D i).
Proof.
  intros VA VB WC WA WB R1 R2. unfold fmxv.
  destruct (mxv_ok (FPlus t) (FTimes t) (FTimes t) btrue idc (NoAcc idc) vnomask MERGE w A u) as (D & E & WD & SD & GD); auto; try exact I.
  { destruct A; auto. intros; apply times_comm. }
  exists D. split; [exact E|]. split; [exact WD|]. split; [exact SD|]. intros i Hi. rewrite GD by auto. cbn. rewrite !map_idc.
  unfold smulv. apply dot_odots with (g := fun k => sview A i k) (h := vget u). apply present_pvalues; intros k x; [apply VA|apply VB].
Qed.
Lemma fvxm_dots t w u A : mvalues t A -> vvalues t u -> wfv0 w -> wfview A -> wfvn u -> vsize w = vcols A -> vsize u = vrows A ->
  exists D, fvxm t w u A = Ok D /\ wfv D /\ vsize D = vsize w /\
    forall i, (i < vsize w)%nat -> odots t (present (map (fun k => opair (vget u k) (sview A k i)) (seq 0 (vrows A)))) (vget D i).
Proof.
  intros VA VB WC WA WB R1 R2. unfold fvxm.
  destruct (vxm_ok (FPlus t) (FTimes t) btrue idc (NoAcc idc) vnomask MERGE w u A) as (D & E & WD & SD & GD); auto; try exact I.
  exists D. split; [exact E|]. split; [exact WD|]. split; [exact SD|]. intros i Hi. rewrite GD by auto. cbn. rewrite !map_idc.
  unfold svmul. apply dot_odots with (h := fun k => sview A k i) (g := vget u). apply present_pvalues; intros k x; [apply VB|apply VA].
Qed.
Lemma freduce_sums t w A : mvalues t A -> wfv0 w -> wfview A -> vsize w = vrows A ->
  exists D, freduce t w A = Ok D /\ wfv D /\ vsize D = vsize w /\
    forall i, (i < vsize w)%nat -> osums t (present (map (sview A i) (seq 0 (vcols A)))) (vget D i).
Proof.
  intros VA WW WA S. unfold freduce.
  destruct (reduce_ok idc (FPlus t) (FPlus t) btrue idc (NoAcc idc) vnomask MERGE w A) as (D & E & WD & SD & GD); auto.
  { exact I. } { split; [exact I|auto]. }
  exists D. split; [exact E|]. split; [exact WD|]. split; [exact SD|]. intros i Hi. rewrite GD by auto. cbn. rewrite !map_idc.
  change (fun x : fval => x) with (@idc fval). change (ofold idc (FPlus t) (map (fun j => sview A i j) (seq 0 (vcols A)))) with
    (ofold (fun x => x) (FPlus t) (map (fun j => sview A i j) (seq 0 (vcols A)))). rewrite ofold_osum.
  apply osum_sums. apply present_values. intros k x. apply VA.
Qed.
Lemma freduce_vs_sums t val u : vvalues t u -> wfvn u ->
  exists x, freduce_vs t val u = Ok x /\ sums t (present (map (vget u) (seq 0 (vsize u)))) x.
Proof.
  intros V W. unfold freduce_vs. rewrite reduce_vs_ok by auto. cbn. eexists. split; [reflexivity|].
  change (ofold idc (FPlus t)) with (ofold (fun x => x) (FPlus t)). rewrite ofold_osum.
  pose proof (osum_sums t (map (vget u) (seq 0 (vsize u)))) as S. specialize (S (present_values t _ _ V)).
  unfold idc. destruct (osum (FPlus t) (map (vget u) (seq 0 (vsize u)))); simpl in S; [apply S|rewrite S; apply sums_none].
Qed.
Lemma freduce_ms_sums t val (A : lil fval) : mvalues t (Mat A) -> wfm A ->
  exists x, freduce_ms t val A = Ok x /\
    sums t (present (flat_map (fun i => map (mget A i) (seq 0 (ncols A))) (seq 0 (nrows A)))) x.
Proof.
  intros V W. unfold freduce_ms. rewrite reduce_ms_rows by auto. cbn. eexists. split; [reflexivity|]. unfold idc, rows_sum.
  assert (K : forall l xs s, sums t xs s ->
    sums t (xs ++ present (flat_map (fun i => map (mget A i) (seq 0 (ncols A))) l))
      (fold_left (fun s i => match ofold (fun x => x) (FPlus t) (map (mget A i) (seq 0 (ncols A))) with Some x => FPlus t s x | None => s end) l s)).
  { induction l as [|i l IH]; intros xs s Hs; simpl; [rewrite app_nil_r; auto|].
    unfold present at 1. rewrite flat_map_app. fold (present (map (mget A i) (seq 0 (ncols A)))).
    fold (present (flat_map (fun i => map (mget A i) (seq 0 (ncols A))) l)). rewrite app_assoc. apply IH.
    rewrite ofold_osum. pose proof (osum_sums t (map (mget A i) (seq 0 (ncols A)))) as S. specialize (S (present_values t _ _ (V i))).
    destruct (osum (FPlus t) (map (mget A i) (seq 0 (ncols A)))) as [x|]; simpl in S.
    - apply sums_plus; auto. apply S.
    - rewrite S, app_nil_r. auto. }
  apply (K (seq 0 (nrows A)) [] f0). apply sums_none.
Qed.
