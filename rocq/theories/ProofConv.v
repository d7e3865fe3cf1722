(** Proofs about conversions. *)
From Coq Require Import ZArith QArith Qabs Qpower Lia Lqa Bool Floats.SpecFloat.
From Verif Require Import Base ModelAlgebra ModelOps ModelFloat ModelConv SpecFloats ProofRound ProofFloat SpecConv.
Local Open Scope Z_scope.

(** ** Rational numbers m 2^e *)

Definition two : Q := (2 # 1)%Q.
Lemma two_pos : forall e, (0 < two ^ e)%Q.
Proof. intros e. apply Qpower_0_lt. reflexivity. Qed.

Lemma pow_split : forall a e e0, e0 <= e ->
  (inject_Z a * two ^ e == inject_Z (a * 2 ^ (e - e0)) * two ^ e0)%Q.
Proof.
  intros a e e0 H. rewrite inject_Z_mult, (Zpower_Qpower 2 (e - e0)) by lia.
  change (inject_Z 2) with two. rewrite <- Qmult_assoc, <- Qpower_plus by discriminate.
  replace (e - e0 + e0) with e by lia. reflexivity.
Qed.

Lemma dyadic_le : forall a e b f e0, e0 <= e -> e0 <= f ->
  ((inject_Z a * two ^ e <= inject_Z b * two ^ f)%Q <-> a * 2 ^ (e - e0) <= b * 2 ^ (f - e0)).
Proof.
  intros a e b f e0 H1 H2. rewrite (pow_split a e e0), (pow_split b f e0) by auto.
  rewrite Qmult_le_r by apply two_pos. rewrite <- Zle_Qle. reflexivity.
Qed.
Lemma dyadic_lt : forall a e b f e0, e0 <= e -> e0 <= f ->
  ((inject_Z a * two ^ e < inject_Z b * two ^ f)%Q <-> a * 2 ^ (e - e0) < b * 2 ^ (f - e0)).
Proof.
  intros a e b f e0 H1 H2. rewrite (pow_split a e e0), (pow_split b f e0) by auto.
  rewrite Qmult_lt_r by apply two_pos. rewrite <- Zlt_Qlt. reflexivity.
Qed.

Definition em (t : ftype) : Z := emin (prec t) (emax t).
Lemma em_neg : forall t, em t < 0.
Proof. intros t. apply emin_neg; [apply prec_ok|apply emax_ok]. Qed.

Lemma cond_sg : forall s z, cond_Zopp s z = sg s * z.
Proof. intros [|] z; cbn [cond_Zopp sg]; lia. Qed.

(** A finite value is the multiple [sv] of 2^em. *)
Lemma real_sv : forall t x, value t x -> finite x -> (real x == inject_Z (sv t x) * two ^ em t)%Q.
Proof.
  intros t [s|s| |s m e] V F; try contradiction; unfold sv; cbn [real sval].
  - change (inject_Z 0) with 0%Q. ring.
  - pose proof (valid_finite (prec t) (emax t) s m e V) as [E _].
    change (2 # 1)%Q with two. rewrite (pow_split _ e (em t)) by (unfold em; lia).
    rewrite cond_sg, <- Z.mul_assoc. reflexivity.
Qed.

Lemma sv_bounds : forall t x, value t x -> finite x ->
  - big (prec t) (emax t) < sv t x < big (prec t) (emax t).
Proof.
  intros t x V F. apply fin_bounds; try apply prec_ok; try apply emax_ok; auto.
  destruct x; try contradiction; reflexivity.
Qed.
Lemma finite_number : forall t x, value t x -> finite x -> number t x.
Proof. intros t x V F. split; [exact V|]. intros ->. contradiction. Qed.

(** ** Rounding *)

Lemma rv_le : forall t m1 e1 m2 e2 e0, 0 < m1 -> 0 < m2 -> e0 <= em t -> e0 <= e1 -> e0 <= e2 ->
  e1 <= fexp (prec t) (emax t) (Zdigits2 m1 + e1) -> e2 <= fexp (prec t) (emax t) (Zdigits2 m2 + e2) ->
  m1 * 2 ^ (e1 - e0) <= m2 * 2 ^ (e2 - e0) ->
  rv (prec t) (emax t) m1 e1 <= rv (prec t) (emax t) m2 e2.
Proof.
  intros t m1 e1 m2 e2 e0 H1 H2 H0 L1 L2 F1 F2 H.
  rewrite <- (Zplus_minus e0 e1), <- (Zplus_minus e0 e2).
  assert (P1 : 0 < 2 ^ (e1 - e0)) by (apply Z.pow_pos_nonneg; lia).
  rewrite <- (rv_scale (prec t) (emax t) m1), <- (rv_scale (prec t) (emax t) m2);
    rewrite ?(Zplus_minus e0 e1), ?(Zplus_minus e0 e2); auto; try lia.
  apply rv_mono; try apply prec_ok; try apply emax_ok.
  - split; [|exact H]. apply Z.mul_pos_pos; lia.
  - pose proof (fexp_emin (prec t) (emax t) (Zdigits2 (m1 * 2 ^ (e1 - e0)) + e0)). unfold em in *. lia.
Qed.

Lemma rv_sv : forall t y, value t y -> finite y -> 0 < sv t y ->
  rv (prec t) (emax t) (sv t y) (em t) = sv t y.
Proof.
  intros t y V F P. pose proof (sv_bounds t y V F) as B.
  pose proof (Rz_fix (prec t) (emax t) (prec_ok t) (emax_ok t) y V) as R.
  assert (Fy : fin y = true) by (destruct y; try contradiction; reflexivity).
  specialize (R Fy). fold (sv t y) in R. rewrite Rz_pos in R by (try apply prec_ok; try apply emax_ok; auto).
  unfold em. lia.
Qed.

Lemma real_zero : forall t x, number t x -> finite x -> sv t x = 0 -> (real x == 0)%Q.
Proof.
  intros t x [V N] F E. rewrite (real_sv t x V F), E. change (inject_Z 0) with 0%Q. ring.
Qed.

Lemma rounds_zero : forall t x, number t x -> sv t x = 0 -> rounds_to t 0 x.
Proof.
  intros t x N E. split; [exact N|]. pose proof (em_neg t) as Em. split.
  - intros y V F. pose proof (finite_number t y V F) as Ny.
    assert (R : (real y == inject_Z (sv t y) * two ^ em t)%Q) by now apply real_sv.
    assert (Z0 : (0 == inject_Z 0 * two ^ em t)%Q) by (change (inject_Z 0) with 0%Q; ring).
    rewrite !(fle_sv t), E by auto. rewrite R, Z0.
    split; intros H; apply (dyadic_le _ _ _ _ (em t)) in H; try lia;
      rewrite Z.sub_diag, Z.pow_0_r in H; lia.
  - intros F y V Fy. rewrite (real_zero t x N F E). change (Qabs (0 - 0)) with 0%Q. apply Qabs_nonneg.
Qed.

Lemma rounds_eq : forall t p q x, (p == q)%Q -> rounds_to t p x -> rounds_to t q x.
Proof.
  intros t p q x E (N & H & K). split; [exact N|]. split.
  - intros y V F. destruct (H y V F) as [A B]. split; intros L; [apply A|apply B]; now rewrite E.
  - intros F y V Fy. rewrite <- E. now apply K.
Qed.

(** ** The nearest value *)

Lemma dyadic_dist : forall a e b f c g e0, e0 <= e -> e0 <= f -> e0 <= g ->
  Z.abs (a * 2 ^ (e - e0) - b * 2 ^ (f - e0)) <= Z.abs (c * 2 ^ (g - e0) - b * 2 ^ (f - e0)) ->
  (Qabs (inject_Z a * two ^ e - inject_Z b * two ^ f) <= Qabs (inject_Z c * two ^ g - inject_Z b * two ^ f))%Q.
Proof.
  intros a e b f c g e0 H1 H2 H3 H.
  rewrite (pow_split a e e0), (pow_split b f e0), (pow_split c g e0) by auto.
  assert (D : forall u v, (inject_Z u * two ^ e0 - inject_Z v * two ^ e0 == inject_Z (u - v) * two ^ e0)%Q).
  { intros u v. unfold Z.sub. rewrite inject_Z_plus, inject_Z_opp. ring. }
  rewrite !D, !Qabs_Qmult. apply Qmult_le_compat_r; [|apply Qabs_nonneg].
  rewrite Zle_Qle in H. exact H.
Qed.

(** The rounded mantissa is the nearest multiple of 2^n. *)
Lemma rne_nearest : forall m n k, 0 <= m -> 0 <= n ->
  Z.abs (rne m n * 2 ^ n - m) <= Z.abs (k * 2 ^ n - m).
Proof.
  intros m n k Hm Hn. pose proof (rne_near m n Hm Hn) as R.
  assert (P : 0 < 2 ^ n) by (apply Z.pow_pos_nonneg; lia).
  destruct (Z.eq_dec k (rne m n)) as [->|NE]; [lia|].
  assert (2 ^ n <= Z.abs (k * 2 ^ n - rne m n * 2 ^ n)) by nia. lia.
Qed.

Lemma rounds_nearest : forall t x m e, number t x -> finite x -> 0 < m -> e <= fexp (prec t) (emax t) (Zdigits2 m + e) ->
  sv t x = rv (prec t) (emax t) m e ->
  forall y, value t y -> finite y -> (Qabs (real x - inject_Z m * two ^ e) <= Qabs (real y - inject_Z m * two ^ e))%Q.
Proof.
  intros t x m e [Vx Nx] Fx Hm He E y Vy Fy.
  pose proof (em_neg t) as Em. pose proof (prec_ok t) as Pt.
  set (f := fexp (prec t) (emax t) (Zdigits2 m + e)) in *.
  assert (Hf : em t <= f) by apply fexp_emin.
  assert (Ef : f = Z.max (Zdigits2 m + e - prec t) (em t)) by (unfold f, fexp, em; lia).
  set (n := f - e). set (e0 := Z.min e (em t)).
  assert (Rx : (real x == inject_Z (rne m n) * two ^ f)%Q).
  { rewrite (real_sv t x Vx Fx), E. unfold rv, shift_of. fold f. fold n.
    rewrite (pow_split (rne m n) f (em t)) by exact Hf.
    replace (e + n) with f by (unfold n; lia). reflexivity. }
  assert (Ry : (real y == inject_Z (sv t y) * two ^ em t)%Q) by now apply real_sv.
  rewrite Rx, Ry. apply (dyadic_dist _ _ _ _ _ _ e0); try (unfold e0; lia).
  set (M := m * 2 ^ (e - e0)). set (Y := sv t y * 2 ^ (em t - e0)).
  assert (P0 : 0 < 2 ^ (e - e0)) by (apply Z.pow_pos_nonneg; unfold e0; lia).
  assert (Pf : 0 < 2 ^ (f - e0)) by (apply Z.pow_pos_nonneg; unfold e0; lia).
  assert (Mpos : 0 < M) by (unfold M; nia).
  (* nearest among the multiples of 2^f *)
  assert (Mult : forall k, Z.abs (rne m n * 2 ^ (f - e0) - M) <= Z.abs (k * 2 ^ (f - e0) - M)).
  { intros k. pose proof (rne_nearest m n k ltac:(lia) ltac:(unfold n; lia)) as R.
    replace (2 ^ (f - e0)) with (2 ^ n * 2 ^ (e - e0))
      by (rewrite <- Z.pow_add_r by (unfold n, e0; lia); f_equal; unfold n; lia).
    unfold M. rewrite !Z.mul_assoc, <- !Z.mul_sub_distr_r, !Z.abs_mul. apply Z.mul_le_mono_nonneg_r; lia. }
  destruct (Z.lt_ge_cases (sv t y) 0) as [Neg|Pos].
  { pose proof (Mult 0) as M0. assert (P2 : 0 < 2 ^ (em t - e0)) by (apply Z.pow_pos_nonneg; unfold e0; lia).
    assert (Y < 0) by (unfold Y; nia). lia. }
  destruct y as [s|s| |s my ey]; try contradiction.
  { unfold Y, sv; cbn [sval]. rewrite Z.mul_0_l. exact (Mult 0). }
  pose proof (valid_finite (prec t) (emax t) s my ey Vy) as [Ey _]. fold (em t) in Ey.
  assert (Ys : Y = sg s * Zpos my * 2 ^ (ey - e0)).
  { unfold Y, sv; cbn [sval]. fold (em t). rewrite <- !Z.mul_assoc, <- Z.pow_add_r by (unfold e0; lia).
    do 3 f_equal. lia. }
  destruct (Z.le_gt_cases f ey) as [Lf|Lf].
  { rewrite Ys. replace (2 ^ (ey - e0)) with (2 ^ (ey - f) * 2 ^ (f - e0))
      by (rewrite <- Z.pow_add_r by (unfold e0; lia); f_equal; lia).
    rewrite Z.mul_assoc. apply Mult. }
  (* y is below the power of two below m 2^e, which is a multiple of 2^f *)
  assert (Fd : f = Zdigits2 m + e - prec t) by lia.
  destruct m as [|p|p]; try lia. cbn [Zdigits2] in *.
  pose proof (digits_bounds p) as Bp. pose proof (digits_bounds my) as By.
  set (k := Zpos (digits2_pos p) + e - 1).
  assert (Kf : f <= k) by (unfold k; lia).
  pose proof (Mult (2 ^ (k - f))) as MK.
  rewrite <- Z.pow_add_r in MK by (unfold e0; lia). replace (k - f + (f - e0)) with (k - e0) in MK by lia.
  assert (KM : 2 ^ (k - e0) <= M).
  { unfold M. replace (k - e0) with (Zpos (digits2_pos p) - 1 + (e - e0)) by (unfold k; lia).
    rewrite Z.pow_add_r by (unfold e0; lia). apply Z.mul_le_mono_nonneg_r; lia. }
  assert (YK : Y <= 2 ^ (k - e0)).
  { rewrite Ys. transitivity (2 ^ Zpos (digits2_pos my) * 2 ^ (ey - e0)).
    - apply Z.mul_le_mono_nonneg_r; [apply Z.pow_nonneg; lia|]. destruct s; cbn [sg]; lia.
    - rewrite <- Z.pow_add_r by (unfold e0; lia). apply Z.pow_le_mono_r; [lia|]. unfold k. lia. }
  lia.
Qed.

Lemma rounds_pos : forall t x m e, number t x -> 0 < m -> e <= fexp (prec t) (emax t) (Zdigits2 m + e) ->
  sv t x = Z.min (big (prec t) (emax t)) (rv (prec t) (emax t) m e) ->
  rounds_to t (inject_Z m * two ^ e) x.
Proof.
  intros t x m e N Hm He E. split; [exact N|]. split.
  2: { intros Fx. apply rounds_nearest; auto. pose proof (sv_bounds t x (proj1 N) Fx). lia. }
  intros y V F.
  pose proof (finite_number t y V F) as Ny. pose proof (em_neg t) as Em.
  pose proof (sv_bounds t y V F) as B.
  pose proof (rv_nonneg (prec t) (emax t) m e ltac:(lia) He) as R0.
  assert (R : (real y == inject_Z (sv t y) * two ^ em t)%Q) by now apply real_sv.
  set (e0 := Z.min e (em t)).
  rewrite !(fle_sv t), E by auto. rewrite R.
  assert (P1 : 0 < 2 ^ (e - e0)) by (apply Z.pow_pos_nonneg; lia).
  assert (P2 : 0 < 2 ^ (em t - e0)) by (apply Z.pow_pos_nonneg; lia).
  split; intros H; apply (dyadic_le _ _ _ _ e0) in H; try (unfold e0; lia).
  - destruct (Z.lt_ge_cases 0 (sv t y)) as [P|P]; [|lia].
    apply Z.min_glb; [lia|]. rewrite <- (rv_sv t y V F P) at 1.
    apply (rv_le t _ _ _ _ e0); auto; try (unfold e0; lia). apply fexp_emin.
  - assert (P : 0 < sv t y) by nia.
    transitivity (rv (prec t) (emax t) m e); [apply Z.le_min_r|].
    rewrite <- (rv_sv t y V F P) at 1.
    apply (rv_le t _ _ _ _ e0); auto; try (unfold e0; lia). apply fexp_emin.
Qed.

Lemma opp_real : forall t x, (real (FAdditiveInverse t x) == - real x)%Q.
Proof.
  intros t [s|s| |s m e]; cbn [FAdditiveInverse SFopp real]; try reflexivity.
  rewrite !cond_sg. destruct s; cbn [negb sg]; rewrite ?inject_Z_mult; change (inject_Z (-1)) with (-(1))%Q;
    change (inject_Z 1) with 1%Q; ring.
Qed.
Lemma opp_finite : forall t x, finite x -> finite (FAdditiveInverse t x).
Proof. intros t [s|s| |s m e] H; try contradiction; exact I. Qed.
Lemma opp_finite' : forall t x, finite (FAdditiveInverse t x) -> finite x.
Proof. intros t [s|s| |s m e] H; try contradiction; exact I. Qed.

Lemma rounds_opp : forall t q x, rounds_to t q x -> rounds_to t (- q) (FAdditiveInverse t x).
Proof.
  intros t q x (N & H & K). split; [now apply opp_number|].
  assert (Oy : forall y, value t y -> finite y -> number t y /\ value t (FAdditiveInverse t y) /\ finite (FAdditiveInverse t y)).
  { intros y V F. pose proof (finite_number t y V F) as Ny. pose proof (opp_number t y Ny) as No.
    split; [exact Ny|]. split; [apply No|now apply opp_finite]. }
  split.
  - intros y V F. destruct (Oy y V F) as (Ny & Vo & Fo). pose proof (opp_number t y Ny) as No.
    destruct (H _ Vo Fo) as [A B].
    rewrite (fle_sv t) in A, B by auto. rewrite !(fle_sv t) by auto using opp_number.
    rewrite opp_sv in *. rewrite opp_real in A, B.
    split; intros L; [assert (sv t x <= - sv t y) by (apply B; lra)|assert (- sv t y <= sv t x) by (apply A; lra)]; lia.
  - intros F y V Fy. destruct (Oy y V Fy) as (Ny & Vo & Fo).
    specialize (K (opp_finite' t x F) _ Vo Fo). rewrite opp_real in *.
    rewrite <- (Qabs_opp (- real x - - q)), <- (Qabs_opp (real y - - q)).
    setoid_replace (- (- real x - - q))%Q with (real x - q)%Q by ring.
    setoid_replace (- (real y - - q))%Q with (- real y - q)%Q by ring. exact K.
Qed.

(** ** The roundings of the library *)

Lemma round_any : forall t s m e,
  number t (binary_round (prec t) (emax t) s m e) /\
  exists m' e', 0 < m' /\ e' <= fexp (prec t) (emax t) (Zdigits2 m' + e') /\
    (inject_Z m' * two ^ e' == inject_Z (Zpos m) * two ^ e)%Q /\
    sv t (binary_round (prec t) (emax t) s m e) =
      sg s * Z.min (big (prec t) (emax t)) (rv (prec t) (emax t) m' e').
Proof.
  intros t s m e. unfold binary_round, shl_align.
  pose proof (prec_ok t) as P1. pose proof (emax_ok t) as P2.
  set (f := fexp (prec t) (emax t) (Zpos (digits2_pos m) + e)).
  assert (K : e <= f -> number t (binary_round_aux (prec t) (emax t) s (Zpos m) e loc_Exact) /\
    exists m' e', 0 < m' /\ e' <= fexp (prec t) (emax t) (Zdigits2 m' + e') /\
    (inject_Z m' * two ^ e' == inject_Z (Zpos m) * two ^ e)%Q /\
    sv t (binary_round_aux (prec t) (emax t) s (Zpos m) e loc_Exact) =
      sg s * Z.min (big (prec t) (emax t)) (rv (prec t) (emax t) m' e')).
  { intros L. assert (L' : e <= fexp (prec t) (emax t) (Zdigits2 (Zpos m) + e)) by (cbn [Zdigits2]; fold f; lia).
    destruct (round_aux_spec (prec t) (emax t) P1 P2 s (Zpos m) e ltac:(lia) L') as (A & B & C & _).
    split; [split; assumption|]. exists (Zpos m), e. split; [lia|]. split; [exact L'|]. split; [reflexivity|exact C]. }
  destruct (f - e) as [|q|q] eqn:E; [apply K; lia|apply K; lia|].
  assert (Sh : Zpos (shift_pos q m) = Zpos m * 2 ^ (e - f)).
  { rewrite Zpower.shift_pos_correct. rewrite Z.mul_comm. f_equal.
    replace (e - f) with (Zpos q) by lia. reflexivity. }
  assert (D : Zpos (digits2_pos (shift_pos q m)) = Zpos (digits2_pos m) + (e - f))
    by (apply digits_shift; [lia|exact Sh]).
  assert (PreC : f <= fexp (prec t) (emax t) (Zdigits2 (Zpos (shift_pos q m)) + f)).
  { cbn [Zdigits2]. rewrite D. replace (Zpos (digits2_pos m) + (e - f) + f)
      with (Zpos (digits2_pos m) + e) by lia. fold f. lia. }
  destruct (round_aux_spec (prec t) (emax t) P1 P2 s (Zpos (shift_pos q m)) f ltac:(lia) PreC) as (A & B & C & _).
  split; [split; assumption|]. exists (Zpos (shift_pos q m)), f.
  split; [lia|]. split; [exact PreC|]. split; [|exact C].
  rewrite Sh. symmetry. apply pow_split. lia.
Qed.

Lemma round_opp : forall t s m e,
  binary_round (prec t) (emax t) s m e =
    (if s then FAdditiveInverse t (binary_round (prec t) (emax t) false m e) else binary_round (prec t) (emax t) false m e).
Proof.
  intros t [|] m e; [|reflexivity].
  unfold binary_round. destruct (shl_align _ _ _) as [mz ez].
  unfold binary_round_aux. destruct (shr_fexp _ _ _ _ _) as [mrs' e'].
  destruct (shr_fexp _ _ _ _ _) as [mrs'' e'']. destruct (shr_m mrs''); try reflexivity.
  destruct (Zle_bool _ _); reflexivity.
Qed.

Lemma round_rounds : forall t s m e,
  rounds_to t (inject_Z (cond_Zopp s (Zpos m)) * two ^ e) (binary_round (prec t) (emax t) s m e).
Proof.
  intros t s m e.
  assert (P : rounds_to t (inject_Z (Zpos m) * two ^ e) (binary_round (prec t) (emax t) false m e)).
  { destruct (round_any t false m e) as (N & m' & e' & Hm & He & Q & E).
    apply (rounds_eq _ _ _ _ Q). apply rounds_pos; auto. cbn [sg] in E. lia. }
  rewrite round_opp. destruct s; cbn [cond_Zopp]; [|exact P].
  apply (rounds_eq _ (- (inject_Z (Zpos m) * two ^ e))).
  - rewrite inject_Z_opp. ring.
  - now apply rounds_opp.
Qed.

Lemma normalize_rounds : forall t z e s, rounds_to t (inject_Z z * two ^ e) (binary_normalize (prec t) (emax t) z e s).
Proof.
  intros t [|p|p] e s; cbn [binary_normalize].
  - apply (rounds_eq _ 0).
    + change (inject_Z 0) with 0%Q. ring.
    + apply rounds_zero; [split; [reflexivity|discriminate]|reflexivity].
  - apply (round_rounds t false p e).
  - apply (round_rounds t true p e).
Qed.

Lemma of_int_rounds : forall t z, rounds_to t (inject_Z z) (of_int t z).
Proof.
  intros t z. apply (rounds_eq _ (inject_Z z * two ^ 0)); [cbn; ring|]. apply normalize_rounds.
Qed.
Lemma to_float_rounds : forall t x, finite x -> rounds_to t (real x) (float_to_float t x).
Proof.
  intros t [s|s| |s m e] F; try contradiction; cbn [real float_to_float].
  - apply rounds_zero; [split; [reflexivity|discriminate]|reflexivity].
  - apply normalize_rounds.
Qed.

(** Rounding to the value itself. *)
Lemma rounds_exact : forall t q x, rounds_to t q x -> forall y, value t y -> finite y -> (real y == q)%Q -> feq x y.
Proof.
  intros t q x (N & H & _) y V F E. destruct (H y V F) as [A B]. pose proof (finite_number t y V F) as Ny.
  rewrite (fle_sv t) in A, B by auto. apply (feq_sv t); auto.
  assert (L1 : (real y <= q)%Q) by (rewrite E; apply Qle_refl).
  assert (L2 : (q <= real y)%Q) by (rewrite E; apply Qle_refl).
  specialize (A L1). specialize (B L2). lia.
Qed.

Lemma opp_opp : forall t x, FAdditiveInverse t (FAdditiveInverse t x) = x.
Proof. intros t [s|s| |s m e]; cbn; rewrite ?negb_involutive; reflexivity. Qed.

Lemma rounds_signed : forall t s x m e, number t x -> 0 < m -> e <= fexp (prec t) (emax t) (Zdigits2 m + e) ->
  sv t x = sg s * Z.min (big (prec t) (emax t)) (rv (prec t) (emax t) m e) ->
  rounds_to t (inject_Z (sg s * m) * two ^ e) x.
Proof.
  intros t [|] x m e N Hm He E; cbn [sg] in *.
  - rewrite <- (opp_opp t x). apply (rounds_eq _ (- (inject_Z m * two ^ e))).
    + replace (-1 * m) with (- m) by lia. rewrite inject_Z_opp. ring.
    + apply rounds_opp, rounds_pos; auto; [now apply opp_number|]. rewrite opp_sv, E. lia.
  - rewrite Z.mul_1_l in *. apply rounds_pos; auto.
Qed.

Lemma rounds_Rz : forall t x z, number t x -> sv t x = Rz (prec t) (emax t) z ->
  rounds_to t (inject_Z z * two ^ em t) x.
Proof.
  intros t x z N E. destruct (Z.eq_dec z 0) as [->|NZ].
  { apply (rounds_eq _ 0); [change (inject_Z 0) with 0%Q; ring|]. apply rounds_zero; [exact N|now rewrite E]. }
  replace z with (sg (z <? 0) * Z.abs z) by (destruct (Z.ltb_spec z 0); cbn [sg]; lia).
  apply rounds_signed; [exact N|lia|apply fexp_emin|].
  rewrite E. unfold Rz. f_equal. destruct (Z.ltb_spec z 0); cbn [sg]; lia.
Qed.

Lemma plus_rounds : forall t x y, value t x -> value t y -> finite x -> finite y ->
  rounds_to t (real x + real y) (FPlus t x y).
Proof.
  intros t x y Vx Vy Fx Fy. destruct (plus_fin t x y Vx Vy Fx Fy) as [N E].
  apply (rounds_eq _ (inject_Z (sv t x + sv t y) * two ^ em t)); [|now apply rounds_Rz].
  rewrite (real_sv t x), (real_sv t y), inject_Z_plus by auto. ring.
Qed.
Lemma minus_rounds : forall t x y, value t x -> value t y -> finite x -> finite y ->
  rounds_to t (real x - real y) (FMinus t x y).
Proof.
  intros t x y Vx Vy Fx Fy. rewrite minus_plus.
  pose proof (opp_number t y (finite_number t y Vy Fy)) as [Vo _].
  apply (rounds_eq _ (real x + real (FAdditiveInverse t y))); [rewrite opp_real; reflexivity|].
  apply plus_rounds; auto using opp_finite.
Qed.
Lemma times_rounds : forall t x y, value t x -> value t y -> finite x -> finite y ->
  rounds_to t (real x * real y) (FTimes t x y).
Proof.
  intros t x y Vx Vy Fx Fy.
  assert (Z0 : forall q s, (q == 0)%Q -> rounds_to t q (S754_zero s)).
  { intros q s Q. apply (rounds_eq _ 0); [symmetry; exact Q|].
    apply rounds_zero; [split; [reflexivity|discriminate]|reflexivity]. }
  destruct x as [sx|sx| |sx mx ex]; try contradiction.
  { destruct y as [sy|sy| |sy my ey]; try contradiction; cbn [FTimes SFmul real]; apply Z0; ring. }
  destruct y as [sy|sy| |sy my ey]; try contradiction.
  { cbn [FTimes SFmul real]. apply Z0. ring. }
  destruct (mul_fin (prec t) (emax t) (prec_ok t) (emax_ok t) _ _ _ _ _ _ Vx Vy) as (V & N & E).
  pose proof (mul_pre (prec t) (emax t) (prec_ok t) (emax_ok t) _ _ _ _ _ _ Vx Vy) as Pm. rewrite Pos2Z.inj_mul in Pm.
  apply (rounds_eq _ (inject_Z (sg (xorb sx sy) * (Zpos mx * Zpos my)) * two ^ (ex + ey))).
  - cbn [real]. rewrite Qpower_plus by discriminate. rewrite !cond_sg, !inject_Z_mult.
    destruct sx, sy; cbn [xorb sg]; change (inject_Z (-1)) with (-(1))%Q; change (inject_Z 1) with 1%Q;
      change (2 # 1)%Q with two; ring.
  - apply rounds_signed; auto; [split; assumption|lia].
Qed.

(** ** Exact conversions *)

Lemma int_exact : forall t z, Z.abs z <= 2 ^ prec t ->
  value t (of_int t z) /\ finite (of_int t z) /\ (real (of_int t z) == inject_Z z)%Q.
Proof.
  intros t z H. destruct (int_ok t z H) as ([V N] & F & E). split; [exact V|]. split; [exact F|].
  rewrite (real_sv t _ V F), E. unfold unit_of. fold (em t). pose proof (em_neg t).
  transitivity (inject_Z z * two ^ 0)%Q; [|cbn; ring].
  rewrite (pow_split z 0 (em t)) by lia. reflexivity.
Qed.

Lemma sv_finite : forall t x, number t x -> Z.abs (sv t x) < big (prec t) (emax t) -> finite x.
Proof.
  intros t [s|s| |s m e] [V N] B; try exact I; try congruence.
  unfold sv in B; cbn [sval] in B. destruct s; cbn [sg] in B; lia.
Qed.

Lemma widen_exact : forall x, value CFloat x -> finite x ->
  value CDouble (float_to_float CDouble x) /\ finite (float_to_float CDouble x) /\
  (real (float_to_float CDouble x) == real x)%Q.
Proof.
  intros [s|s| |s m e] V F; try contradiction.
  { split; [reflexivity|]. split; [exact I|reflexivity]. }
  pose proof (valid_finite 24 128 s m e V) as [E1 E2]. unfold emin in E1.
  pose proof (digits_bounds m) as Bm.
  assert (Dm : Zpos (digits2_pos m) <= 24) by lia.
  assert (Eem : em CDouble = -1074) by reflexivity.
  cbn [float_to_float].
  destruct (normalize_spec (prec CDouble) (emax CDouble) (prec_ok CDouble) (emax_ok CDouble) (cond_Zopp s (Zpos m)) e s
    ltac:(fold (em CDouble); lia)) as (Vn & Nn & En).
  fold (em CDouble) in En.
  set (x := binary_normalize (prec CDouble) (emax CDouble) (cond_Zopp s (Zpos m)) e s) in *.
  fold (sv CDouble x) in En.
  assert (P : 0 < 2 ^ (e - em CDouble)) by (apply Z.pow_pos_nonneg; lia).
  assert (Mb : Zpos m * 2 ^ (e - em CDouble) < big (prec CDouble) (emax CDouble)).
  { apply Z.lt_le_trans with (2 ^ Zpos (digits2_pos m) * 2 ^ (e - em CDouble)); [apply Z.mul_lt_mono_pos_r; lia|].
    rewrite <- Z.pow_add_r by lia. unfold big. fold (em CDouble). apply Z.pow_le_mono_r; [lia|]. cbn [emax]. lia. }
  assert (R : Rz (prec CDouble) (emax CDouble) (Zpos m * 2 ^ (e - em CDouble)) = Zpos m * 2 ^ (e - em CDouble)).
  { rewrite Rz_pos by (try apply prec_ok; try apply emax_ok; lia). rewrite rv_fix; try lia.
    unfold shift_of. rewrite Zdigits_scale by lia. cbn [Zdigits2]. unfold fexp. fold (em CDouble). cbn [prec]. lia. }
  assert (Ex : sv CDouble x = cond_Zopp s (Zpos m) * 2 ^ (e - em CDouble)).
  { rewrite En. destruct s; cbn [cond_Zopp]; [|exact R].
    rewrite Z.mul_opp_l, Rz_opp, R. reflexivity. }
  assert (Fx : finite x).
  { apply (sv_finite CDouble); [split; assumption|]. rewrite Ex, Z.abs_mul, cond_sg, Z.abs_mul.
    rewrite (Z.abs_eq (2 ^ _)) by lia. destruct s; cbn [sg Z.abs]; lia. }
  split; [exact Vn|]. split; [exact Fx|].
  rewrite (real_sv CDouble x Vn Fx), Ex. cbn [real]. change (2 # 1)%Q with two.
  symmetry. apply pow_split. lia.
Qed.

(** A value of the type is not changed. *)
Lemma same_type : forall t x, value t x -> float_to_float t x = x.
Proof.
  intros t [s|s| |s m e] V; try reflexivity.
  pose proof (to_float_rounds t (S754_finite s m e) I) as R.
  pose proof (rounds_exact t _ _ R (S754_finite s m e) V I (Qeq_refl _)) as E.
  destruct R as (N & _). apply (feq_sv t) in E; auto using finite_number; [|now apply finite_number].
  apply (sv_inj t) in E; [|exact N|now apply finite_number].
  destruct E as [E|(s1 & s2 & _ & E)]; [exact E|discriminate].
Qed.

Lemma widen_narrow : forall x, value CFloat x -> float_to_float CFloat (float_to_float CDouble x) = x.
Proof.
  intros [s|s| |s m e] V; try reflexivity.
  set (x := S754_finite s m e) in *.
  destruct (widen_exact x V I) as (Vy & Fy & Ey). set (y := float_to_float CDouble x) in *.
  pose proof (to_float_rounds CFloat y Fy) as R.
  pose proof (rounds_exact CFloat _ _ R x V I (Qeq_sym _ _ Ey)) as E.
  destruct R as (N & _). apply (feq_sv CFloat) in E; [|exact N|now apply finite_number].
  apply (sv_inj CFloat) in E; [|exact N|now apply finite_number].
  destruct E as [E|(s1 & s2 & _ & E)]; [exact E|discriminate].
Qed.

(** ** Truncation *)

Lemma inject_dyadic : forall z, (inject_Z z == inject_Z z * two ^ 0)%Q.
Proof. intros z. cbn. ring. Qed.

Lemma trunc_pos : forall m e,
  (inject_Z (Z.shiftl (Zpos m) e) <= inject_Z (Zpos m) * two ^ e < inject_Z (Z.shiftl (Zpos m) e + 1))%Q.
Proof.
  intros m e. rewrite (inject_dyadic (Z.shiftl _ _)), (inject_dyadic (Z.shiftl _ _ + 1)).
  destruct (Z.le_gt_cases 0 e) as [L|L].
  - rewrite Z.shiftl_mul_pow2 by exact L. rewrite (dyadic_le _ _ _ _ 0), (dyadic_lt _ _ _ _ 0) by lia.
    rewrite Z.sub_diag, Z.pow_0_r, Z.sub_0_r. lia.
  - replace e with (- (- e)) at 1 4 by lia. rewrite Z.shiftl_opp_r, Z.shiftr_div_pow2 by lia.
    rewrite (dyadic_le _ _ _ _ e), (dyadic_lt _ _ _ _ e) by lia.
    rewrite Z.sub_diag, Z.pow_0_r. change (0 - e) with (- e).
    assert (P : 0 < 2 ^ (- e)) by (apply Z.pow_pos_nonneg; lia).
    pose proof (Z.mul_div_le (Zpos m) (2 ^ (- e)) P). pose proof (Z.mul_succ_div_gt (Zpos m) (2 ^ (- e)) P). nia.
Qed.

Lemma truncate_spec : forall x z, finite x -> truncate x = Some z -> truncates_to (real x) z.
Proof.
  intros [s|s| |s m e] z F E; try contradiction; cbn [truncate] in E; injection E as <-.
  - cbn [real]. split; intros _; split; try apply Qle_refl; reflexivity.
  - pose proof (trunc_pos m e) as [A B]. pose proof (two_pos e) as P.
    cbn [real]. change (2 # 1)%Q with two.
    assert (Pm : (0 < inject_Z (Zpos m) * two ^ e)%Q).
    { rewrite <- (Qmult_0_l (two ^ e)). apply Qmult_lt_r; [exact P|]. reflexivity. }
    rewrite inject_Z_plus in B. change (inject_Z 1) with 1%Q in B.
    unfold truncates_to, Z.sub. rewrite !inject_Z_plus. change (inject_Z 1) with 1%Q. change (inject_Z (- (1))) with (-(1))%Q.
    set (q := (inject_Z (Zpos m) * two ^ e)%Q) in *. destruct s; cbn [cond_Zopp].
    + rewrite !inject_Z_opp. assert (Eq : (- inject_Z (Zpos m) * two ^ e == - q)%Q) by (unfold q; ring).
      rewrite Eq. split; intros H; split; lra.
    + fold q. split; intros H; split; lra.
Qed.

Lemma truncates_unique : forall q y z, truncates_to q y -> truncates_to q z -> y = z.
Proof.
  intros q y z [A1 A2] [B1 B2]. destruct (Qlt_le_dec q 0) as [H|H].
  - specialize (A2 (Qlt_le_weak _ _ H)). specialize (B2 (Qlt_le_weak _ _ H)).
    assert (inject_Z (y - 1) < inject_Z z)%Q by lra. assert (inject_Z (z - 1) < inject_Z y)%Q by lra.
    rewrite <- Zlt_Qlt in *. lia.
  - specialize (A1 H). specialize (B1 H).
    assert (inject_Z y < inject_Z (z + 1))%Q by lra. assert (inject_Z z < inject_Z (y + 1))%Q by lra.
    rewrite <- Zlt_Qlt in *. lia.
Qed.

Lemma truncates_int : forall z q, (q == inject_Z z)%Q -> truncates_to q z.
Proof.
  intros z q E. unfold truncates_to. rewrite E, <- !Zle_Qle, <- !Zlt_Qlt. lia.
Qed.

Lemma float_to_int_spec : forall t x, t <> CBool ->
  (forall z, float_to_int t x = Ok z <-> finite x /\ truncates_to (real x) z /\ tmin t <= z <= tmax t) /\
  (float_to_int t x = UB <-> ~ exists z, finite x /\ truncates_to (real x) z /\ tmin t <= z <= tmax t).
Proof.
  intros t x NB.
  assert (D : float_to_int t x = match truncate x with
    | Some z => if (tmin t <=? z) && (z <=? tmax t) then Ok z else UB | None => UB end)
    by (destruct t; [congruence|reflexivity]).
  rewrite D. destruct (truncate x) as [z0|] eqn:T.
  - assert (F : finite x) by (destruct x; try discriminate; exact I).
    pose proof (truncate_spec x z0 F T) as S0.
    destruct (Z.leb_spec (tmin t) z0), (Z.leb_spec z0 (tmax t)); cbn [andb].
    1: { split; [|split; [discriminate|intros K; exfalso; apply K; eauto]].
         intros z. split; [intros K; injection K as <-; auto|].
         intros (_ & Sz & _). f_equal. now apply (truncates_unique (real x)). }
    all: split; [intros z; split; [discriminate|intros (_ & Sz & B); pose proof (truncates_unique _ _ _ S0 Sz); lia]|];
      split; [intros _ (z & _ & Sz & B); pose proof (truncates_unique _ _ _ S0 Sz); lia|reflexivity].
  - assert (F : ~ finite x) by (destruct x; try discriminate; auto).
    split; [intros z; split; [discriminate|intros (K & _); contradiction]|].
    split; [intros _ (z & K & _); contradiction|reflexivity].
Qed.

Lemma int_round_trip : forall t u z, t <> CBool -> tmin t <= z <= tmax t -> Z.abs z <= 2 ^ prec u ->
  float_to_int t (of_int u z) = Ok z.
Proof.
  intros t u z NB B H. destruct (int_exact u z H) as (V & F & E).
  apply (proj1 (float_to_int_spec t (of_int u z) NB)). split; [exact F|]. split; [|exact B].
  now apply truncates_int.
Qed.

(** ** Operators with a floating point operand *)

Lemma usual_float : forall t1 t2 u, usual t1 t2 = SF u ->
  (u = CDouble \/ (u = CFloat /\ t1 <> SF CDouble /\ t2 <> SF CDouble)).
Proof.
  intros [c1|[|]] [c2|[|]] u H; cbn in H; try discriminate; injection H as <-; auto;
    right; repeat split; discriminate.
Qed.

Lemma cast_same : forall t u v, (u = CDouble \/ t <> SF CDouble) -> has_type t v -> fits u v ->
  exists x, cast (SF u) v = Ok (VF x) /\ number u x /\ same v x.
Proof.
  intros [c|c] u [z|x] U T F; try contradiction; cbn [has_type fits cast] in *.
  - destruct (int_exact u z F) as (V & Fi & E). exists (of_int u z).
    split; [reflexivity|]. split; [now apply finite_number|]. split; assumption.
  - exists (float_to_float u x). split; [reflexivity|].
    assert (W : finite x -> number u (float_to_float u x) /\ finite (float_to_float u x) /\
      (real (float_to_float u x) == real x)%Q).
    { intros Fi. destruct c, u.
      - rewrite same_type by exact T. split; [now apply finite_number|]. split; [exact Fi|reflexivity].
      - destruct (widen_exact x T Fi) as (V & Fw & E). split; [now apply finite_number|]. split; assumption.
      - destruct U; congruence.
      - rewrite same_type by exact T. split; [now apply finite_number|]. split; [exact Fi|reflexivity]. }
    destruct x as [s|s| |s m e]; try congruence.
    + exact (W I).
    + split; [apply inf_number|reflexivity].
    + exact (W I).
Qed.

Lemma sv_big : forall t s, sv t (S754_infinity s) = sg s * big (prec t) (emax t).
Proof. reflexivity. Qed.

Lemma sless_sv : forall t a b x y, number t x -> number t y -> same a x -> same b y ->
  (sless a b <-> sv t x < sv t y).
Proof.
  intros t a b x y Nx Ny Sa Sb.
  assert (FF : forall p q, finite x /\ (real x == p)%Q -> finite y /\ (real y == q)%Q -> ((p < q)%Q <-> sv t x < sv t y)).
  { intros p q [Fx Ex] [Fy Ey]. rewrite <- Ex, <- Ey.
    rewrite (real_sv t x), (real_sv t y) by (auto; try apply Nx; try apply Ny).
    rewrite (dyadic_lt _ _ _ _ (em t)) by lia. rewrite Z.sub_diag, Z.pow_0_r. lia. }
  assert (Bx : finite x -> - big (prec t) (emax t) < sv t x < big (prec t) (emax t))
    by (intros F; apply sv_bounds; [apply Nx|exact F]).
  assert (By : finite y -> - big (prec t) (emax t) < sv t y < big (prec t) (emax t))
    by (intros F; apply sv_bounds; [apply Ny|exact F]).
  pose proof (big_pos (prec t) (emax t) (prec_ok t) (emax_ok t)) as Bp.
  destruct a as [za|[sa|sa| |sa ma ea]], b as [zb|[sb|sb| |sb mb eb]]; cbn [same sless] in *;
    try (now apply FF);
    try (subst x; rewrite sv_big); try (subst y; rewrite sv_big);
    try (destruct Sa as [Fa Ea]; specialize (Bx Fa)); try (destruct Sb as [Fb Eb]; specialize (By Fb));
    try (destruct sa); try (destruct sb); cbn [sg]; split; intros; try contradiction; try discriminate; try reflexivity; try lia; exact I.
Qed.

Section Mixed.
Variables (t1 t2 : stype) (u : ftype) (a b : scalar).
Hypothesis C : usual t1 t2 = SF u.
Hypothesis Ta : has_type t1 a.
Hypothesis Tb : has_type t2 b.
Hypothesis Fa : fits u a.
Hypothesis Fb : fits u b.

Lemma operands : exists x y, cast (SF u) a = Ok (VF x) /\ cast (SF u) b = Ok (VF y) /\
  number u x /\ number u y /\ same a x /\ same b y.
Proof.
  destruct (usual_float t1 t2 u C) as [->|(-> & N1 & N2)].
  - destruct (cast_same t1 CDouble a (or_introl eq_refl) Ta Fa) as (x & Ex & Nx & Sx).
    destruct (cast_same t2 CDouble b (or_introl eq_refl) Tb Fb) as (y & Ey & Ny & Sy). eauto 10.
  - destruct (cast_same t1 CFloat a (or_intror N1) Ta Fa) as (x & Ex & Nx & Sx).
    destruct (cast_same t2 CFloat b (or_intror N2) Tb Fb) as (y & Ey & Ny & Sy). eauto 10.
Qed.

Lemma compare_exact : forall fi ff t3 (P : Prop),
  (forall x y, number u x -> number u y -> same a x -> same b y -> (ff x y = true <-> P)) ->
  exists r, scompare fi ff t1 t2 t3 a b = cast t3 (sbool r) /\ (r = true <-> P).
Proof.
  intros fi ff t3 P H. destruct operands as (x & y & Ex & Ey & Nx & Ny & Sx & Sy).
  unfold scompare. rewrite C, Ex. cbn [bind]. rewrite Ey. cbn [bind]. eauto.
Qed.

Lemma less_exact : forall t3, exists r, SLessThan t1 t2 t3 a b = cast t3 (sbool r) /\ (r = true <-> sless a b).
Proof.
  intros t3. apply compare_exact. intros x y Nx Ny Sx Sy. unfold FLessThan.
  rewrite (ltb_sv u), Z.ltb_lt by auto. symmetry. now apply sless_sv.
Qed.
Lemma greater_exact : forall t3, exists r, SGreaterThan t1 t2 t3 a b = cast t3 (sbool r) /\ (r = true <-> sless b a).
Proof.
  intros t3. apply compare_exact. intros x y Nx Ny Sx Sy. unfold FGreaterThan.
  rewrite (ltb_sv u), Z.ltb_lt by auto. symmetry. now apply sless_sv.
Qed.
Lemma less_equal_exact : forall t3, exists r, SLessEqual t1 t2 t3 a b = cast t3 (sbool r) /\ (r = true <-> ~ sless b a).
Proof.
  intros t3. apply compare_exact. intros x y Nx Ny Sx Sy. unfold FLessEqual.
  rewrite (leb_sv u), Z.leb_le by auto. rewrite (sless_sv u b a y x) by auto. lia.
Qed.
Lemma greater_equal_exact : forall t3, exists r, SGreaterEqual t1 t2 t3 a b = cast t3 (sbool r) /\ (r = true <-> ~ sless a b).
Proof.
  intros t3. apply compare_exact. intros x y Nx Ny Sx Sy. unfold FGreaterEqual.
  rewrite (leb_sv u), Z.leb_le by auto. rewrite (sless_sv u a b x y) by auto. lia.
Qed.
Lemma equal_exact : forall t3, exists r, SEqual t1 t2 t3 a b = cast t3 (sbool r) /\ (r = true <-> sequal a b).
Proof.
  intros t3. apply compare_exact. intros x y Nx Ny Sx Sy. unfold FEqual, sequal.
  rewrite (eqb_sv u), Z.eqb_eq by auto. rewrite (sless_sv u a b x y), (sless_sv u b a y x) by auto. lia.
Qed.
Lemma not_equal_exact : forall t3, exists r, SNotEqual t1 t2 t3 a b = cast t3 (sbool r) /\ (r = true <-> ~ sequal a b).
Proof.
  intros t3. apply compare_exact. intros x y Nx Ny Sx Sy. unfold FNotEqual, sequal.
  rewrite negb_true_iff, (eqb_sv u), Z.eqb_neq by auto. rewrite (sless_sv u a b x y), (sless_sv u b a y x) by auto. lia.
Qed.

Lemma arith_rounds : forall fi (ff : fbin) t3 q, finite_scalar a -> finite_scalar b ->
  (forall x y, value u x -> value u y -> finite x -> finite y -> (real x == exact a)%Q -> (real y == exact b)%Q ->
     rounds_to u q (ff u x y)) ->
  exists r, sarith fi ff t1 t2 t3 a b = cast t3 (VF r) /\ rounds_to u q r.
Proof.
  intros fi ff t3 q Ia Ib H. destruct operands as (x & y & Ex & Ey & Nx & Ny & Sx & Sy).
  unfold sarith, in_common. rewrite C, Ex. cbn [bind]. rewrite Ey. cbn [bind].
  exists (ff u x y). split; [reflexivity|].
  assert (Kx : finite x /\ (real x == exact a)%Q) by (destruct a as [|[ | | | ]]; try contradiction; exact Sx).
  assert (Ky : finite y /\ (real y == exact b)%Q) by (destruct b as [|[ | | | ]]; try contradiction; exact Sy).
  apply H; try apply Kx; try apply Ky; [apply Nx|apply Ny].
Qed.

Lemma plus_mixed : forall t3, finite_scalar a -> finite_scalar b ->
  exists r, SPlus t1 t2 t3 a b = cast t3 (VF r) /\ rounds_to u (exact a + exact b) r.
Proof.
  intros t3 Ia Ib. apply arith_rounds; auto. intros x y Vx Vy Fx Fy Ex Ey.
  apply (rounds_eq _ (real x + real y)); [rewrite Ex, Ey; reflexivity|now apply plus_rounds].
Qed.
Lemma minus_mixed : forall t3, finite_scalar a -> finite_scalar b ->
  exists r, SMinus t1 t2 t3 a b = cast t3 (VF r) /\ rounds_to u (exact a - exact b) r.
Proof.
  intros t3 Ia Ib. apply arith_rounds; auto. intros x y Vx Vy Fx Fy Ex Ey.
  apply (rounds_eq _ (real x - real y)); [rewrite Ex, Ey; reflexivity|now apply minus_rounds].
Qed.
Lemma times_mixed : forall t3, finite_scalar a -> finite_scalar b ->
  exists r, STimes t1 t2 t3 a b = cast t3 (VF r) /\ rounds_to u (exact a * exact b) r.
Proof.
  intros t3 Ia Ib. apply arith_rounds; auto. intros x y Vx Vy Fx Fy Ex Ey.
  apply (rounds_eq _ (real x * real y)); [rewrite Ex, Ey; reflexivity|now apply times_rounds].
Qed.
(** The smaller and the larger operand, as numbers of the common type. *)
Lemma min_mixed : forall t3, exists v, (v = a \/ v = b) /\ ~ sless a v /\ ~ sless b v /\
  exists x, same v x /\ SMin t1 t2 t3 a b = cast t3 (VF x).
Proof.
  intros t3. destruct operands as (x & y & Ex & Ey & Nx & Ny & Sx & Sy).
  unfold SMin, sarith, in_common. rewrite C, Ex. cbn [bind]. rewrite Ey. cbn [bind]. unfold FMin.
  rewrite (ltb_sv u) by auto. destruct (Z.ltb_spec (sv u x) (sv u y)).
  - exists a. split; [auto|]. rewrite (sless_sv u a a x x), (sless_sv u b a y x) by auto.
    split; [lia|]. split; [lia|]. eauto.
  - exists b. split; [auto|]. rewrite (sless_sv u b b y y), (sless_sv u a b x y) by auto.
    split; [lia|]. split; [lia|]. eauto.
Qed.
Lemma max_mixed : forall t3, exists v, (v = a \/ v = b) /\ ~ sless v a /\ ~ sless v b /\
  exists x, same v x /\ SMax t1 t2 t3 a b = cast t3 (VF x).
Proof.
  intros t3. destruct operands as (x & y & Ex & Ey & Nx & Ny & Sx & Sy).
  unfold SMax, sarith, in_common. rewrite C, Ex. cbn [bind]. rewrite Ey. cbn [bind]. unfold FMax.
  rewrite (ltb_sv u) by auto. destruct (Z.ltb_spec (sv u x) (sv u y)).
  - exists b. split; [auto|]. rewrite (sless_sv u b b y y), (sless_sv u b a y x) by auto.
    split; [lia|]. split; [lia|]. eauto.
  - exists a. split; [auto|]. rewrite (sless_sv u a a x x), (sless_sv u a b x y) by auto.
    split; [lia|]. split; [lia|]. eauto.
Qed.
End Mixed.

(** ** Operators with equal domains, ModelAlgebra.v, ModelOps.v and ModelFloat.v *)

Lemma convert_ofbool : forall t b, convert t (ofbool b) = ofbool b.
Proof. intros [|[|] [| | |]] [|]; reflexivity. Qed.

Lemma ints_agree :
  int_agrees3 SEqual Equal /\ int_agrees3 SNotEqual NotEqual /\ int_agrees3 SGreaterThan GreaterThan /\
  int_agrees3 SLessThan LessThan /\ int_agrees3 SGreaterEqual GreaterEqual /\ int_agrees3 SLessEqual LessEqual /\
  int_agrees3 SFirst First3 /\ int_agrees3 SSecond Second3 /\ int_agrees3 SMin Min3 /\ int_agrees3 SMax Max3 /\
  int_agrees3 SPlus Plus3 /\ int_agrees3 SMinus Minus3 /\ int_agrees3 STimes Times3 /\ int_agrees3 SDiv Div.
Proof.
  repeat split; intros t1 t2 t3 x y; try reflexivity.
  - unfold SPlus, sarith, in_common, Plus3, arith3. cbn [usual cast bind]. destruct (arith _ _); reflexivity.
  - unfold SMinus, sarith, in_common, Minus3, arith3. cbn [usual cast bind]. destruct (arith _ _); reflexivity.
  - unfold STimes, sarith, in_common, Times3, arith3. cbn [usual cast bind]. destruct (arith _ _); reflexivity.
  - unfold SDiv, sarith, in_common, Div. cbn [usual cast bind]. destruct (quotient _ _ _); reflexivity.
Qed.
Lemma logical_agree :
  int_agrees SLogicalOr LogicalOr /\ int_agrees SLogicalAnd LogicalAnd /\
  int_agrees SLogicalXor LogicalXor /\ int_agrees SLogicalXnor LogicalXnor.
Proof.
  repeat split; intros t x y; unfold SLogicalOr, SLogicalAnd, SLogicalXor, SLogicalXnor, slogical, sbool; cbn [cast strue];
    rewrite convert_ofbool; reflexivity.
Qed.
Lemma unary_agree :
  int_agrees1 SIdentity Identity /\ int_agrees1 SAbs Abs /\ int_agrees1 SAdditiveInverse AdditiveInverse /\
  int_agrees1 SMultiplicativeInverse MultiplicativeInverse /\ int_agrees1 SLogicalNot LogicalNot /\
  int_agrees1 SBitwiseNot BitwiseNot.
Proof.
  repeat split; intros t1 t2 x; try reflexivity.
  - unfold SAbs, Abs. destruct (my_abs _ _); reflexivity.
  - unfold SAdditiveInverse, AdditiveInverse. destruct (arith _ _); reflexivity.
  - unfold SMultiplicativeInverse, SDiv, sarith, in_common, MultiplicativeInverse. cbn [usual cast bind].
    destruct (quotient _ _ _); reflexivity.
  - unfold SLogicalNot, LogicalNot, sbool. cbn [cast strue]. rewrite convert_ofbool. reflexivity.
Qed.

Lemma usual_same : forall t, usual (SF t) (SF t) = SF t.
Proof. intros [|]; reflexivity. Qed.
Lemma float_arith : forall fi (ff : fbin), (forall t x y, value t x -> value t y -> value t (ff t x y)) ->
  float_agrees (sarith fi ff) ff.
Proof.
  intros fi ff H t x y Vx Vy. unfold sarith, in_common. rewrite usual_same. cbn [cast bind].
  rewrite (same_type t x), (same_type t y) by auto. rewrite same_type by auto. reflexivity.
Qed.
Lemma floats_agree :
  float_agrees SPlus FPlus /\ float_agrees SMinus FMinus /\ float_agrees STimes FTimes /\
  float_agrees SMin FMin /\ float_agrees SMax FMax /\ float_agrees SFirst FFirst /\ float_agrees SSecond FSecond.
Proof.
  split; [apply float_arith; intros; now apply plus_value|].
  split. { apply float_arith. intros t x y Vx Vy. rewrite minus_plus. apply plus_value; auto.
           destruct y as [s|s| |s m e]; exact Vy. }
  split; [apply float_arith; intros; now apply times_value|].
  split; [apply float_arith; intros t x y Vx Vy; unfold FMin; destruct (SFltb x y); assumption|].
  split; [apply float_arith; intros t x y Vx Vy; unfold FMax; destruct (SFltb x y); assumption|].
  split; intros t x y Vx Vy; unfold SFirst, SSecond, FFirst, FSecond; cbn [cast]; now rewrite same_type.
Qed.
Lemma float_compare : forall fi ff, float_compares (scompare fi ff) ff.
Proof.
  intros fi ff t x y Vx Vy. unfold scompare. rewrite usual_same. cbn [cast bind].
  rewrite !same_type by assumption. unfold sbool. cbn [cast]. rewrite convert_ofbool. reflexivity.
Qed.

Lemma real_nonzero : forall s m e, ~ (real (S754_finite s m e) == 0)%Q.
Proof.
  intros s m e H. cbn [real] in H. apply Qmult_integral in H. destruct H as [H|H].
  - change 0%Q with (inject_Z 0) in H. apply inject_Z_injective in H. destruct s; discriminate.
  - pose proof (two_pos e) as P. unfold two in P. rewrite H in P. discriminate P.
Qed.
