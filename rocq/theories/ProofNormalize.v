(** Relative errors of roundings, products and quotients. *)
From Coq Require Import ZArith QArith Qabs Qpower Qround Lia Lqa Bool Floats.SpecFloat.
From Verif Require Import Base ModelAlgebra ModelFloat ModelConv SpecFloats ProofRound ProofFloat SpecConv ProofConv ProofDiv SpecNormalize.
Local Open Scope Z_scope.

Lemma two_plus a b : (two ^ (a + b) == two ^ a * two ^ b)%Q.
Proof. apply Qpower_plus. discriminate. Qed.
Lemma two_Z k : 0 <= k -> (inject_Z (2 ^ k) == two ^ k)%Q.
Proof. intros K. rewrite Zpower_Qpower by lia. reflexivity. Qed.
Lemma two_le a b : a <= b -> (two ^ a <= two ^ b)%Q.
Proof.
  intros H. replace b with (a + (b - a)) by lia. rewrite two_plus, <- (two_Z (b - a)) by lia.
  assert (1 <= 2 ^ (b - a)) by (apply (Z.pow_le_mono_r 2 0); lia).
  assert (inject_Z 1 <= inject_Z (2 ^ (b - a)))%Q by (rewrite <- Zle_Qle; lia).
  change (inject_Z 1) with 1%Q in *. pose proof (two_pos a). nra.
Qed.
Lemma two_lt_inv a b : (two ^ a < two ^ b)%Q -> a < b.
Proof. intros H. destruct (Z_lt_le_dec a b) as [|L]; auto. apply two_le in L. lra. Qed.

Lemma binade q : (0 < q)%Q -> exists k, (two ^ k <= q)%Q /\ (q < two ^ (k + 1))%Q.
Proof.
  intros P. destruct q as [n d]. assert (N : 0 < n) by (unfold Qlt in P; cbn in P; lia).
  pose proof (Z.log2_spec n N) as [A1 A2]. pose proof (Z.log2_spec (Zpos d) eq_refl) as [B1 B2].
  set (a := Z.log2 n) in *. set (b := Z.log2 (Zpos d)) in *.
  assert (Ha : 0 <= a) by apply Z.log2_nonneg. assert (Hb : 0 <= b) by apply Z.log2_nonneg.
  rewrite <- Z.add_1_r in A2, B2.
  assert (E : ((n # d) * inject_Z (Zpos d) == inject_Z n)%Q) by (unfold Qeq; cbn; lia).
  rewrite Zle_Qle in A1, B1. rewrite Zlt_Qlt in A2, B2. rewrite !two_Z in * by lia.
  clearbody a b. set (q := (n # d)%Q) in *. set (D := inject_Z (Zpos d)) in *. clearbody q D.
  pose proof (two_pos (a - b)) as P1. pose proof (two_pos b) as P2.
  assert (Ea : (two ^ a == two ^ (a - b) * two ^ b)%Q) by (rewrite <- two_plus; replace (a - b + b) with a by lia; reflexivity).
  assert (Ea1 : (two ^ (a + 1) == 2 * two ^ a)%Q) by (rewrite two_plus; change (two ^ 1)%Q with 2%Q; ring).
  assert (Eb1 : (two ^ (b + 1) == 2 * two ^ b)%Q) by (rewrite two_plus; change (two ^ 1)%Q with 2%Q; ring).
  destruct (Qlt_le_dec q (two ^ (a - b))) as [L|L].
  - exists (a - b - 1). replace (a - b - 1 + 1) with (a - b) by lia. split; auto.
    assert (Ek : (two ^ (a - b) == 2 * two ^ (a - b - 1))%Q).
    { replace (a - b) with (a - b - 1 + 1) at 1 by lia. rewrite two_plus. change (two ^ 1)%Q with 2%Q. ring. }
    destruct (Qlt_le_dec q (two ^ (a - b - 1))) as [C|C]; auto. exfalso. rewrite Eb1 in B2. rewrite Ea, Ek in A1.
    assert (q * D < q * (2 * two ^ b))%Q by nra. assert (q * (2 * two ^ b) < two ^ (a - b - 1) * (2 * two ^ b))%Q by nra. lra.
  - exists (a - b). split; auto. destruct (Qlt_le_dec q (two ^ (a - b + 1))) as [C|C]; auto. exfalso.
    rewrite two_plus in C. change (two ^ 1)%Q with 2%Q in C. rewrite Ea1, Ea in A2.
    assert (two ^ (a - b) * 2 * two ^ b <= q * D)%Q by nra. lra.
Qed.

(** A number with a full mantissa is a value of the type. *)
Lemma canonical_value t m e : 2 ^ (prec t - 1) <= Zpos m < 2 ^ prec t -> em t <= e <= emax t - prec t ->
  value t (S754_finite false m e).
Proof.
  intros M E. unfold value, valid_binary, bounded, canonical_mantissa. pose proof (prec_ok t) as P.
  assert (D : Zpos (digits2_pos m) = prec t) by (apply digits_unique; lia).
  rewrite andb_true_iff. split.
  - apply Zeq_is_eq_bool. unfold fexp. rewrite D. unfold em in E. lia.
  - apply Zle_is_le_bool. lia.
Qed.

Lemma mantissa_value t m e : 2 ^ (prec t - 1) <= m <= 2 ^ prec t -> em t <= e -> e < emax t - prec t ->
  exists y, value t y /\ finite y /\ (real y == inject_Z m * two ^ e)%Q.
Proof.
  intros M E1 E2. pose proof (prec_ok t) as P. assert (P2 : 2 ^ prec t = 2 * 2 ^ (prec t - 1)).
  { rewrite <- Z.pow_succ_r by lia. f_equal. lia. }
  assert (Q : 0 < 2 ^ (prec t - 1)) by (apply Z.pow_pos_nonneg; lia).
  destruct (Z.eq_dec m (2 ^ prec t)) as [->|N].
  - exists (S754_finite false (Z.to_pos (2 ^ (prec t - 1))) (e + 1)). split; [|split; [exact I|]].
    + apply canonical_value; [rewrite Z2Pos.id by lia|]; lia.
    + cbn [real cond_Zopp]. rewrite Z2Pos.id by lia. change (2 # 1)%Q with two.
      rewrite two_plus. change (two ^ 1)%Q with (inject_Z 2). rewrite P2, inject_Z_mult. ring.
  - exists (S754_finite false (Z.to_pos m) e). split; [|split; [exact I|]].
    + apply canonical_value; [rewrite Z2Pos.id by lia|]; lia.
    + cbn [real cond_Zopp]. rewrite Z2Pos.id by lia. reflexivity.
Qed.

Lemma value_opp t x : value t x -> value t (FAdditiveInverse t x).
Proof. destruct x; auto. Qed.

Lemma em_eq t : em t = 3 - emax t - prec t.
Proof. reflexivity. Qed.

(** A power of two bounds a rounded number. *)
Lemma rounds_finite t q x : rounds_to t q x -> (Qabs q <= two ^ (emax t - 2))%Q -> finite x.
Proof.
  intros (N & H & _) L. pose proof (prec_ok t) as P. pose proof (emax_ok t) as P'.
  destruct (mantissa_value t (2 ^ (prec t - 1)) (emax t - 2 - (prec t - 1))) as (y & Vy & Fy & Ey); try (rewrite ?em_eq; lia).
  { split; [lia|]. apply Z.pow_le_mono_r; lia. }
  rewrite two_Z, <- two_plus in Ey by lia. replace (prec t - 1 + (emax t - 2 - (prec t - 1))) with (emax t - 2) in Ey by lia.
  apply Qabs_Qle_condition in L. destruct L as [L1 L2].
  destruct (H y Vy Fy) as [_ H1]. rewrite Ey in H1. specialize (H1 L2).
  destruct (H (FAdditiveInverse t y) (value_opp t y Vy) (opp_finite t y Fy)) as [H2 _]. rewrite opp_real, Ey in H2. specialize (H2 L1).
  destruct x as [s|s| |s m e]; try exact I.
  - exfalso. destruct y as [sy|sy| |sy my ey]; try contradiction; destruct s; cbn in H1, H2; try destruct sy; discriminate.
  - destruct N as [_ N]. congruence.
Qed.

Lemma rounds_within_pos t q x : rounds_to t q x -> (two ^ (3 - emax t) <= q)%Q -> (q <= two ^ (emax t - 2))%Q -> within1 t q x.
Proof.
  intros R L1 L2. pose proof (two_pos (3 - emax t)) as P0. assert (Q0 : (0 < q)%Q) by lra.
  assert (F : finite x). { apply (rounds_finite t q); auto. rewrite Qabs_pos by lra. auto. }
  destruct R as (N & _ & H). split; [apply N|]. split; auto. specialize (H F).
  destruct (binade q Q0) as (k & K1 & K2).
  assert (B1 : 3 - emax t < k + 1) by (apply two_lt_inv; lra).
  assert (B2 : k <= emax t - 2). { destruct (Z_le_gt_dec k (emax t - 2)) as [|G]; auto. exfalso.
    assert (two ^ (emax t - 2 + 1) <= two ^ k)%Q by (apply two_le; lia). rewrite two_plus in H0. change (two ^ 1)%Q with 2%Q in H0.
    pose proof (two_pos (emax t - 2)). lra. }
  pose proof (prec_ok t) as P. pose proof (emax_ok t) as P'.
  set (e := k - (prec t - 1)). pose proof (two_pos e) as Pe.
  assert (Ek : (two ^ k == two ^ (prec t - 1) * two ^ e)%Q) by (rewrite <- two_plus; replace (prec t - 1 + e) with k by (unfold e; lia); reflexivity).
  assert (Ek1 : (two ^ (k + 1) == two ^ prec t * two ^ e)%Q) by (rewrite <- two_plus; replace (prec t + e) with (k + 1) by (unfold e; lia); reflexivity).
  set (m := Qfloor (q / two ^ e)). pose proof (Qfloor_le (q / two ^ e)) as M1. pose proof (Qlt_floor (q / two ^ e)) as M2. fold m in M1, M2.
  assert (Eq : (q == q / two ^ e * two ^ e)%Q) by (field; lra).
  set (r := (q / two ^ e)%Q) in *. clearbody r.
  assert (R1 : (two ^ (prec t - 1) <= r)%Q).
  { destruct (Qlt_le_dec r (two ^ (prec t - 1))) as [C|]; auto. exfalso. rewrite Eq in K1. rewrite Ek in K1. nra. }
  assert (R2 : (r < two ^ prec t)%Q).
  { destruct (Qlt_le_dec r (two ^ prec t)) as [|C]; auto. exfalso. rewrite Eq in K2. rewrite Ek1 in K2. nra. }
  rewrite <- (two_Z (prec t - 1)) in R1 by lia. rewrite <- (two_Z (prec t)) in R2 by lia.
  assert (M3 : 2 ^ (prec t - 1) <= m). { apply Z.lt_succ_r. rewrite <- Z.add_1_r. rewrite Zlt_Qlt. lra. }
  assert (M4 : m < 2 ^ prec t). { rewrite Zlt_Qlt. lra. }
  assert (E1 : em t <= e) by (rewrite em_eq; unfold e; lia). assert (E2 : e < emax t - prec t) by (unfold e; lia).
  destruct (mantissa_value t m e) as (y & Vy & Fy & Ey); try lia.
  destruct (mantissa_value t (m + 1) e) as (z & Vz & Fz & Ez); try lia.
  pose proof (H y Vy Fy) as Hy. pose proof (H z Vz Fz) as Hz. rewrite Ey in Hy. rewrite Ez in Hz.
  rewrite inject_Z_plus in *. change (inject_Z 1) with 1%Q in *.
  assert (G : (Qabs (real x - q) <= (1 # 2) * two ^ e)%Q).
  { set (i := inject_Z m) in *. clearbody i. clear - Hy Hz M1 M2 Eq Pe.
    rewrite (Qabs_neg (i * two ^ e - q)) in Hy by (rewrite Eq; nra). rewrite (Qabs_pos ((i + 1) * two ^ e - q)) in Hz by (rewrite Eq; nra).
    assert (S : (- (i * two ^ e - q) + ((i + 1) * two ^ e - q) == two ^ e)%Q) by ring. lra. }
  apply (Qle_trans _ _ _ G). rewrite (Qabs_pos q) by lra. unfold unit_roundoff. change (2 # 1)%Q with two.
  assert (U : (two ^ (- prec t) * two ^ k == (1 # 2) * two ^ e)%Q).
  { change (1 # 2)%Q with (two ^ (-1))%Q. rewrite <- !two_plus. replace (- prec t + k) with (-1 + e) by (unfold e; lia). reflexivity. }
  rewrite <- U. pose proof (two_pos (- prec t)). nra.
Qed.

Definition wide_range (t : ftype) (q : Q) : Prop := (two ^ (3 - emax t) <= Qabs q)%Q /\ (Qabs q <= two ^ (emax t - 2))%Q.
Lemma normal_wide t q : normal_range t q -> wide_range t q.
Proof.
  intros [A B]. change (2 # 1)%Q with two in *.
  assert (two ^ (3 - emax t) <= two ^ (4 - emax t))%Q by (apply two_le; lia).
  assert (two ^ (emax t - 3) <= two ^ (emax t - 2))%Q by (apply two_le; lia). split; lra.
Qed.
Lemma rounds_within t q x : rounds_to t q x -> wide_range t q -> within1 t q x.
Proof.
  intros R [L1 L2]. destruct (Qlt_le_dec q 0) as [C|C].
  - rewrite Qabs_neg in L1, L2 by lra. pose proof (rounds_opp t q x R) as R'.
    destruct (rounds_within_pos t _ _ R' L1 L2) as (V & F & H). split; [apply R|]. split; [apply (opp_finite' t); auto|].
    rewrite opp_real in H. rewrite Qabs_opp in H. refine (Qle_trans _ _ _ _ H). apply Qle_lteq. right.
    rewrite <- Qabs_opp. apply Qabs_wd. ring.
  - rewrite Qabs_pos in L1, L2 by lra. apply rounds_within_pos; auto.
Qed.

Lemma u_pos t : (0 < unit_roundoff t)%Q.
Proof. unfold unit_roundoff. apply two_pos. Qed.

Lemma u_half t : (unit_roundoff t <= 1 # 2)%Q.
Proof. destruct t; vm_compute; discriminate. Qed.
Lemma near_wide t p q : normal_range t p -> (Qabs (q - p) <= (1 # 2) * Qabs p)%Q -> wide_range t q.
Proof.
  intros [A B] H. change (2 # 1)%Q with two in *.
  assert (T1 : (Qabs q <= Qabs (q - p) + Qabs p)%Q) by (rewrite (Qabs_wd q ((q - p) + p)) at 1 by ring; apply Qabs_triangle).
  assert (T2 : (Qabs p <= Qabs (q - p) + Qabs q)%Q).
  { rewrite (Qabs_wd p ((p - q) + q)) at 1 by ring. rewrite <- (Qabs_opp (q - p)). rewrite (Qabs_wd (- (q - p)) (p - q)) by ring. apply Qabs_triangle. }
  assert (E1 : (two ^ (4 - emax t) == 2 * two ^ (3 - emax t))%Q).
  { replace (4 - emax t) with (3 - emax t + 1) by lia. rewrite two_plus. change (two ^ 1)%Q with 2%Q. ring. }
  assert (E2 : (two ^ (emax t - 2) == 2 * two ^ (emax t - 3))%Q).
  { replace (emax t - 2) with (emax t - 3 + 1) by lia. rewrite two_plus. change (two ^ 1)%Q with 2%Q. ring. }
  pose proof (two_pos (emax t - 3)). split; rewrite ?E2; rewrite ?E1 in *; lra.
Qed.

(** x times the rounded inverse of s. *)
Lemma scaled_within t x s : value t x -> value t s -> finite x -> finite s -> ~ (real s == 0)%Q ->
  normal_range t (1 / real s) ->
  normal_range t (real x / real s) \/ (real x == 0)%Q ->
  within2 t (real x / real s) (FTimes t (FMultiplicativeInverse t s) x) /\
  within2 t (real x / real s) (FTimes t x (FMultiplicativeInverse t s)).
Proof.
  intros Vx Vs Fx Fs NZ N1 N2. set (d := FMultiplicativeInverse t s) in *.
  assert (Rd : rounds_to t (1 / real s) d).
  { assert (O : value t (f1 t) /\ finite (f1 t) /\ (real (f1 t) == 1)%Q) by (destruct t; vm_compute; auto).
    destruct O as (V1 & F1 & E1). apply (rounds_eq _ (real (f1 t) / real s)); [rewrite E1; reflexivity|]. apply div_rounds; auto. }
  destruct (rounds_within t _ _ Rd (normal_wide _ _ N1)) as (Vd & Fd & Hd). clearbody d.
  assert (W : within2 t (real x / real s) (FTimes t x d)).
  { pose proof (times_rounds t x d Vx Vd Fx Fd) as R. destruct N2 as [N2|X0].
    - assert (N3 : wide_range t (real x * real d)).
      { apply (near_wide t (real x / real s)); auto.
        assert (E : (real x / real s == real x * (1 / real s))%Q) by (field; auto). rewrite E.
        rewrite (Qabs_wd (real x * real d - real x * (1 / real s)) (real x * (real d - 1 / real s))) by ring. rewrite !Qabs_Qmult.
        pose proof (Qabs_nonneg (real x)). pose proof (u_half t). pose proof (Qabs_nonneg (1 / real s)).
        assert (Qabs (real d - 1 / real s) <= (1 # 2) * Qabs (1 / real s))%Q by nra.
        rewrite (Qmult_assoc (1 # 2)), (Qmult_comm (1 # 2)), <- Qmult_assoc. rewrite (Qmult_comm (Qabs (real x))), (Qmult_comm (Qabs (real x))).
        apply Qmult_le_compat_r; auto. }
      destruct (rounds_within t _ _ R N3) as (Vr & Fr & Hr). split; auto. split; auto. set (r := FTimes t x d) in *. clearbody r.
      pose proof (u_pos t) as U. set (u := unit_roundoff t) in *. clearbody u.
      set (X := real x) in *. set (D := real d) in *. set (I := (1 / real s)%Q) in *.
      assert (E : (X / real s == X * I)%Q) by (unfold I; field; auto). rewrite E.
      assert (T1 : (Qabs (X * D - X * I) <= u * Qabs (X * I))%Q).
      { rewrite (Qabs_wd (X * D - X * I) (X * (D - I))) by ring. rewrite !Qabs_Qmult. pose proof (Qabs_nonneg X).
        rewrite (Qmult_assoc u), (Qmult_comm u), <- Qmult_assoc. rewrite (Qmult_comm (Qabs X)), (Qmult_comm (Qabs X)).
        apply Qmult_le_compat_r; auto. }
      assert (T2 : (Qabs (X * D) <= (1 + u) * Qabs (X * I))%Q).
      { assert (Qabs (X * D) <= Qabs (X * D - X * I) + Qabs (X * I))%Q.
        { rewrite (Qabs_wd (X * D) ((X * D - X * I) + X * I)) at 1 by ring. apply Qabs_triangle. } lra. }
      assert (T3 : (Qabs (real r - X * I) <= Qabs (real r - X * D) + Qabs (X * D - X * I))%Q).
      { rewrite (Qabs_wd (real r - X * I) ((real r - X * D) + (X * D - X * I))) by ring. apply Qabs_triangle. }
      assert (T4 : (u * Qabs (X * D) <= u * ((1 + u) * Qabs (X * I)))%Q) by (rewrite (Qmult_comm u), (Qmult_comm u); apply Qmult_le_compat_r; lra).
      set (aa := Qabs (X * D)) in *. set (bb := Qabs (X * I)) in *. lra.
    - assert (Z0 : (real x * real d == 0)%Q) by (rewrite X0; ring).
      assert (F0 : finite (FTimes t x d)). { apply (rounds_finite t _ _ R). rewrite (Qabs_wd _ _ Z0). change (Qabs 0) with 0%Q. pose proof (two_pos (emax t - 2)). lra. }
      split; [apply R|]. split; auto. destruct R as (_ & _ & H). specialize (H F0 f0).
      assert (V0 : value t f0) by reflexivity. specialize (H V0 I). rewrite Z0 in H.
      assert (Q0 : (real x / real s == 0)%Q) by (rewrite X0; field; auto). rewrite Q0. refine (Qle_trans _ _ _ H _). change (Qabs (real f0 - 0)) with 0%Q. change (Qabs 0) with 0%Q. lra. }
  split; auto. rewrite times_comm. auto.
Qed.
