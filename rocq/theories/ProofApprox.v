(** Relative error bounds for positive numbers, propagated through the operations. *)
From Coq Require Import ZArith QArith Qabs Lia Lqa Qpower Floats.SpecFloat.
From Verif Require Import Base ModelFloat ModelConv SpecFloats SpecConv SpecNormalize SpecRankTypes ProofFloat ProofConv ProofDiv ProofNormalize.
Local Open Scope Z_scope.

Lemma shrink_0 t : (shrink t 0 == 1)%Q.
Proof. reflexivity. Qed.
Lemma lam_nz t : ~ (1 - unit_roundoff t == 0)%Q.
Proof. pose proof (u_half t). lra. Qed.
Lemma shrink_S t K : (shrink t (S K) == shrink t K * (1 - unit_roundoff t))%Q.
Proof.
  unfold shrink. rewrite Nat2Z.inj_succ, <- Z.add_1_r, Qpower_plus by apply lam_nz. reflexivity.
Qed.
Lemma shrink_add t K L : (shrink t (K + L) == shrink t K * shrink t L)%Q.
Proof. unfold shrink. rewrite Nat2Z.inj_add, Qpower_plus by apply lam_nz. reflexivity. Qed.
Lemma shrink_pos t K : (0 < shrink t K)%Q.
Proof.
  induction K; [reflexivity|]. rewrite shrink_S. pose proof (u_half t). 
  apply (Qlt_le_trans _ (shrink t K * (1#2))); nra.
Qed.
Lemma shrink_le t K L : (K <= L)%nat -> (shrink t L <= shrink t K)%Q.
Proof.
  induction 1; [apply Qle_refl|]. rewrite shrink_S. pose proof (shrink_pos t m). pose proof (u_pos t). nra.
Qed.
Lemma shrink_le_1 t K : (shrink t K <= 1)%Q.
Proof. change 1%Q with (shrink t 0). apply shrink_le. lia. Qed.
(** Bernoulli's inequality. *)
Lemma shrink_ge t K : (1 - inject_Z (Z.of_nat K) * unit_roundoff t <= shrink t K)%Q.
Proof.
  induction K; [rewrite shrink_0; change (inject_Z (Z.of_nat 0)) with 0%Q; lra|]. rewrite shrink_S, Nat2Z.inj_succ, <- Z.add_1_r, inject_Z_plus.
  change (inject_Z 1) with 1%Q. set (n := inject_Z (Z.of_nat K)) in *. pose proof (u_pos t). pose proof (u_half t).
  assert (N0 : (0 <= n)%Q) by (change 0%Q with (inject_Z 0); unfold n; rewrite <- Zle_Qle; lia).
  set (u := unit_roundoff t) in *. set (s := shrink t K) in *. clearbody n u s.
  apply (Qle_trans _ ((1 - n * u) * (1 - u))); [|nra]. assert (0 <= n * u * u)%Q by (apply Qmult_le_0_compat; nra). nra.
Qed.
Lemma shrink_half t K : 2 * Z.of_nat K <= 2 ^ prec t -> (1 # 2 <= shrink t K)%Q.
Proof.
  intros H. pose proof (shrink_ge t K) as B. refine (Qle_trans _ _ _ _ B).
  assert (E : (two ^ (prec t) * unit_roundoff t == 1)%Q).
  { unfold unit_roundoff. change (2 # 1)%Q with two. rewrite <- two_plus. replace (prec t + - prec t) with 0 by lia. reflexivity. }
  assert (H' : (inject_Z (2 * Z.of_nat K) <= two ^ prec t)%Q).
  { apply (Qle_trans _ (inject_Z (2 ^ prec t))); [rewrite <- Zle_Qle; lia|]. apply Qle_lteq. right. apply two_Z. pose proof (prec_ok t). lia. }
  rewrite inject_Z_mult in H'. change (inject_Z 2) with 2%Q in H'. pose proof (u_pos t).
  set (n := inject_Z (Z.of_nat K)) in *. set (u := unit_roundoff t) in *. set (p := (two ^ prec t)%Q) in *. clearbody n u p.
  assert (2 * n * u <= p * u)%Q by (apply Qmult_le_compat_r; lra). lra.
Qed.

(** More roundings. *)
Lemma approx_le t K L q x : (K <= L)%nat -> (0 <= q)%Q -> approx t K q x -> approx t L q x.
Proof.
  intros KL Q (V & F & A & B). split; [exact V|]. split; [exact F|]. pose proof (shrink_le t K L KL). pose proof (shrink_pos t L). pose proof (shrink_pos t K).
  assert (X : (0 <= real x)%Q) by nra. split; nra.
Qed.
Lemma approx_eq t K p q x : (p == q)%Q -> approx t K p x -> approx t K q x.
Proof. intros E (V & F & A & B). split; [exact V|]. split; [exact F|]. split; rewrite <- E; auto. Qed.
Lemma approx_exact t x : value t x -> finite x -> approx t 0 (real x) x.
Proof. intros V F. split; [exact V|]. split; [exact F|]. rewrite shrink_0. split; lra. Qed.

(** One rounding of a positive number. *)
Lemma rounds_approx t q x : rounds_to t q x -> (0 < q)%Q -> wide_range t q -> 
  value t x /\ finite x /\ ((1 - unit_roundoff t) * q <= real x)%Q /\ ((1 - unit_roundoff t) * real x <= q)%Q.
Proof.
  intros R P W. destruct (rounds_within t q x R W) as (V & F & H). split; [exact V|]. split; [exact F|].
  rewrite (Qabs_pos q) in H by lra. apply Qabs_Qle_condition in H. destruct H as [H1 H2].
  pose proof (u_pos t). pose proof (u_half t). set (u := unit_roundoff t) in *. clearbody u. split; [lra|].
  apply (Qle_trans _ ((1 - u) * (q + u * q))); [apply Qmult_le_l; lra|]. nra.
Qed.
Lemma approx_round t K p q x : rounds_to t q x -> (0 < p)%Q -> (0 < q)%Q -> wide_range t q -> (shrink t K * p <= q)%Q -> (shrink t K * q <= p)%Q ->
  approx t (S K) p x.
Proof.
  intros R P Q W A B. destruct (rounds_approx t q x R Q W) as (V & F & C & D). split; [exact V|]. split; [exact F|].
  rewrite shrink_S. pose proof (shrink_pos t K) as SP. pose proof (u_pos t). pose proof (u_half t).
  set (s := shrink t K) in *. set (u := unit_roundoff t) in *. clearbody s u. split.
  - apply (Qle_trans _ ((1 - u) * q)); [|exact C]. setoid_replace (s * (1 - u) * p)%Q with ((1 - u) * (s * p))%Q by ring. apply Qmult_le_l; lra.
  - apply (Qle_trans _ (s * q)); [|exact B]. setoid_replace (s * (1 - u) * real x)%Q with (s * ((1 - u) * real x))%Q by ring. apply Qmult_le_l; lra.
Qed.

(** [q] lies between 2^a and 2^b. *)
Definition between (a b : Z) (q : Q) : Prop := (two ^ a <= q)%Q /\ (q <= two ^ b)%Q.
Lemma between_pos a b q : between a b q -> (0 < q)%Q.
Proof. intros [A _]. pose proof (two_pos a). lra. Qed.
Lemma between_le a b a' b' q : a' <= a -> b <= b' -> between a b q -> between a' b' q.
Proof. intros H1 H2 [A B]. apply two_le in H1, H2. split; lra. Qed.
Lemma between_eq a b p q : (p == q)%Q -> between a b p -> between a b q.
Proof. intros E [A B]. split; rewrite <- E; auto. Qed.
Lemma between_mult a b c d p q : between a b p -> between c d q -> between (a + c) (b + d) (p * q).
Proof.
  intros [A B] [C D]. pose proof (two_pos a). pose proof (two_pos b). pose proof (two_pos c). pose proof (two_pos d).
  unfold between. rewrite !two_plus. split; apply Qmult_le_compat_nonneg; split; lra.
Qed.
Lemma between_wide t a b q : 3 - emax t <= a -> b <= emax t - 2 -> between a b q -> wide_range t q.
Proof.
  intros A B H. pose proof (between_pos _ _ _ H). destruct (between_le _ _ _ _ _ A B H). split; rewrite Qabs_pos; lra.
Qed.
Lemma two_opp a : (two ^ (- a) == / two ^ a)%Q.
Proof. apply Qpower_opp. Qed.
Lemma inv_le p q : (0 < p)%Q -> (p <= q)%Q -> (/ q <= / p)%Q.
Proof.
  intros P L. apply (Qmult_le_l _ _ (p * q)); [nra|]. setoid_replace (p * q * / q)%Q with p by (field; lra).
  setoid_replace (p * q * / p)%Q with q by (field; lra). exact L.
Qed.
Lemma between_inv a b q : between a b q -> between (- b) (- a) (/ q).
Proof.
  intros H. pose proof (between_pos _ _ _ H) as P. destruct H as [A B]. split; rewrite two_opp.
  - apply inv_le; auto.
  - apply inv_le; auto. apply two_pos.
Qed.
Lemma two_one a : (two ^ (a + 1) == 2 * two ^ a)%Q.
Proof. rewrite two_plus. change (two ^ 1)%Q with 2%Q. ring. Qed.
Lemma approx_between t K a b q x : (1 # 2 <= shrink t K)%Q -> between a b q -> approx t K q x -> between (a - 1) (b + 1) (real x).
Proof.
  intros H P (V & F & A & B). pose proof (between_pos _ _ _ P) as Q0. destruct P as [P1 P2]. pose proof (two_one (a - 1)) as E. replace (a - 1 + 1) with a in E by lia.
  split; [|rewrite two_one]; nra.
Qed.

(** The operations. *)
Lemma approx_times t K L a b c d p q x y : (1 # 2 <= shrink t K)%Q -> (1 # 2 <= shrink t L)%Q -> between a b p -> between c d q ->
  3 - emax t <= a + c - 2 -> b + d + 2 <= emax t - 2 -> approx t K p x -> approx t L q y ->
  approx t (S (K + L)) (p * q) (FTimes t x y).
Proof.
  intros HK HL BP BQ R1 R2 X Y. pose proof (approx_between _ _ _ _ _ _ HK BP X) as BX. pose proof (approx_between _ _ _ _ _ _ HL BQ Y) as BY.
  pose proof (between_mult _ _ _ _ _ _ BX BY) as BXY. pose proof (between_pos _ _ _ BP). pose proof (between_pos _ _ _ BQ).
  pose proof (between_pos _ _ _ BX). pose proof (between_pos _ _ _ BY).
  destruct X as (Vx & Fx & X1 & X2), Y as (Vy & Fy & Y1 & Y2).
  pose proof (shrink_pos t K) as SK. pose proof (shrink_pos t L) as SL.
  apply (approx_round t (K + L) _ (real x * real y)); [apply times_rounds; auto|nra|nra| | |].
  - eapply between_wide; [| |exact BXY]; lia.
  - rewrite shrink_add. setoid_replace (shrink t K * shrink t L * (p * q))%Q with ((shrink t K * p) * (shrink t L * q))%Q by ring.
    apply Qmult_le_compat_nonneg; split; try apply Qmult_le_0_compat; lra.
  - rewrite shrink_add. setoid_replace (shrink t K * shrink t L * (real x * real y))%Q with ((shrink t K * real x) * (shrink t L * real y))%Q by ring.
    apply Qmult_le_compat_nonneg; split; try apply Qmult_le_0_compat; lra.
Qed.
Lemma approx_div t K L a b c d p q x y : (1 # 2 <= shrink t K)%Q -> (1 # 2 <= shrink t L)%Q -> between a b p -> between c d q ->
  3 - emax t <= a - d - 2 -> b - c + 2 <= emax t - 2 -> approx t K p x -> approx t L q y ->
  approx t (S (K + L)) (p / q) (FDiv t x y).
Proof.
  intros HK HL BP BQ R1 R2 X Y. pose proof (approx_between _ _ _ _ _ _ HK BP X) as BX. pose proof (approx_between _ _ _ _ _ _ HL BQ Y) as BY.
  pose proof (between_mult _ _ _ _ _ _ BX (between_inv _ _ _ BY)) as BXY. pose proof (between_pos _ _ _ BP). pose proof (between_pos _ _ _ BQ) as Q0.
  pose proof (between_pos _ _ _ BX). pose proof (between_pos _ _ _ BY) as Y0.
  destruct X as (Vx & Fx & X1 & X2), Y as (Vy & Fy & Y1 & Y2).
  pose proof (shrink_pos t K) as SK. pose proof (shrink_pos t L) as SL.
  pose proof (Qinv_lt_0_compat _ Q0) as IQ. pose proof (Qinv_lt_0_compat _ Y0) as IY.
  assert (I1 : (shrink t L * / q <= / real y)%Q).
  { apply (Qmult_le_l _ _ (q * real y)); [nra|]. setoid_replace (q * real y * (shrink t L * / q))%Q with (shrink t L * real y)%Q by (field; lra).
    setoid_replace (q * real y * / real y)%Q with q by (field; lra). exact Y2. }
  assert (I2 : (shrink t L * / real y <= / q)%Q).
  { apply (Qmult_le_l _ _ (q * real y)); [nra|]. setoid_replace (q * real y * (shrink t L * / real y))%Q with (shrink t L * q)%Q by (field; lra).
    setoid_replace (q * real y * / q)%Q with (real y) by (field; lra). exact Y1. }
  unfold Qdiv in *. apply (approx_round t (K + L) _ (real x * / real y)); [apply div_rounds; auto; lra|nra|nra| | |].
  - eapply between_wide; [| |exact BXY]; lia.
  - rewrite shrink_add. setoid_replace (shrink t K * shrink t L * (p * / q))%Q with ((shrink t K * p) * (shrink t L * / q))%Q by ring.
    apply Qmult_le_compat_nonneg; split; try apply Qmult_le_0_compat; lra.
  - rewrite shrink_add. setoid_replace (shrink t K * shrink t L * (real x * / real y))%Q with ((shrink t K * real x) * (shrink t L * / real y))%Q by ring.
    apply Qmult_le_compat_nonneg; split; try apply Qmult_le_0_compat; lra.
Qed.
Lemma approx_plus t K a b p q x y : (1 # 2 <= shrink t K)%Q -> between a b p -> between a b q ->
  3 - emax t <= a - 1 -> b + 2 <= emax t - 2 -> approx t K p x -> approx t K q y ->
  approx t (S K) (p + q) (FPlus t x y).
Proof.
  intros HK BP BQ R1 R2 X Y. pose proof (approx_between _ _ _ _ _ _ HK BP X) as BX. pose proof (approx_between _ _ _ _ _ _ HK BQ Y) as BY.
  pose proof (between_pos _ _ _ BP). pose proof (between_pos _ _ _ BQ). pose proof (between_pos _ _ _ BX). pose proof (between_pos _ _ _ BY).
  destruct X as (Vx & Fx & X1 & X2), Y as (Vy & Fy & Y1 & Y2). pose proof (shrink_pos t K) as SK.
  apply (approx_round t K _ (real x + real y)); [apply plus_rounds; auto|lra|lra| | |].
  - apply (between_wide t (a - 1) (b + 1 + 1)); try lia. destruct BX, BY. split; [lra|]. rewrite two_one. lra.
  - lra.
  - lra.
Qed.

(** The relative error. *)
Lemma approx_relative t K q x : 2 * Z.of_nat K <= 2 ^ prec t -> (0 <= q)%Q -> approx t K q x ->
  relative (2 * inject_Z (Z.of_nat K) * unit_roundoff t) q x.
Proof.
  intros HK Q (V & F & A & B). split; [exact F|]. pose proof (shrink_half t K HK) as H. pose proof (shrink_ge t K) as G. pose proof (shrink_le_1 t K) as L.
  set (s := shrink t K) in *. set (e := (inject_Z (Z.of_nat K) * unit_roundoff t)%Q) in *.
  setoid_replace (2 * inject_Z (Z.of_nat K) * unit_roundoff t)%Q with (2 * e)%Q by (unfold e; ring). clearbody s e.
  apply Qabs_Qle_condition. split; [nra|].
  assert (X : (real x <= 2 * q)%Q) by nra. assert ((1 - s) * real x <= e * (2 * q))%Q by (apply Qmult_le_compat_nonneg; split; nra). lra.
Qed.
