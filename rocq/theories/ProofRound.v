(** Rounding of IEEE 754 numbers (Coq.Floats.SpecFloat), in integer arithmetic: every finite
    number is an integer multiple of the smallest positive one. *)
From Coq Require Import ZArith Lia Bool Floats.SpecFloat.
Local Open Scope Z_scope.

Lemma digits_bounds : forall p,
  2 ^ (Zpos (digits2_pos p) - 1) <= Zpos p < 2 ^ Zpos (digits2_pos p).
Proof.
  induction p as [p IH|p IH|]; cbn [digits2_pos]; try (cbn; lia);
    rewrite Pos2Z.inj_succ;
    replace (Z.succ (Zpos (digits2_pos p)) - 1) with (Z.succ (Zpos (digits2_pos p) - 1)) by lia;
    rewrite !Z.pow_succ_r by lia; lia.
Qed.

Lemma digits_unique : forall p d, 0 <= d -> 2 ^ (d - 1) <= Zpos p < 2 ^ d ->
  Zpos (digits2_pos p) = d.
Proof.
  intros p d Hd H. pose proof (digits_bounds p) as B. set (D := Zpos (digits2_pos p)) in *.
  assert (0 < D) by (unfold D; lia). clearbody D.
  assert (D - 1 < d) by (apply (Z.pow_lt_mono_r_iff 2); lia).
  assert (d - 1 < D) by (apply (Z.pow_lt_mono_r_iff 2); lia). lia.
Qed.

Lemma digits_shift : forall p q k, 0 <= k -> Zpos q = Zpos p * 2 ^ k ->
  Zpos (digits2_pos q) = Zpos (digits2_pos p) + k.
Proof.
  intros p q k Hk E. apply digits_unique; [lia|]. rewrite E. pose proof (digits_bounds p) as B.
  replace (Zpos (digits2_pos p) + k - 1) with ((Zpos (digits2_pos p) - 1) + k) by lia.
  rewrite !Z.pow_add_r by lia. nia.
Qed.

(** ** Round to nearest even at bit [n] *)

Definition rne (m n : Z) : Z :=
  m / 2 ^ n + (if Z.testbit m (n - 1) && (negb (m mod 2 ^ (n - 1) =? 0) || Z.odd (m / 2 ^ n))
               then 1 else 0).

Lemma rne_0 : forall m, rne m 0 = m.
Proof. intros m. unfold rne. rewrite Z.testbit_neg_r by lia. cbn [andb]. rewrite Z.pow_0_r, Z.div_1_r. lia. Qed.

Lemma testbit_div : forall m n, 0 < n -> 0 <= m ->
  m = m / 2 ^ n * 2 ^ n + (if Z.testbit m (n - 1) then 2 ^ (n - 1) else 0) + m mod 2 ^ (n - 1).
Proof.
  intros m n Hn Hm.
  pose proof (Z.div_mod m (2 ^ (n - 1)) ltac:(apply Z.pow_nonzero; lia)) as D.
  assert (E : m / 2 ^ n = m / 2 ^ (n - 1) / 2).
  { replace n with ((n - 1) + 1) at 1 by lia. rewrite Z.pow_add_r, Z.pow_1_r by lia.
    rewrite Z.div_div; auto; try lia; apply Z.pow_nonzero; lia. }
  assert (T : (if Z.testbit m (n - 1) then 1 else 0) = (m / 2 ^ (n - 1)) mod 2).
  { rewrite <- Z.testbit_spec' by lia. destruct (Z.testbit m (n - 1)); reflexivity. }
  pose proof (Z.div_mod (m / 2 ^ (n - 1)) 2 ltac:(lia)) as D2.
  rewrite <- E, <- T in D2.
  replace (2 ^ n) with (2 * 2 ^ (n - 1)) at 2
    by (rewrite <- Z.pow_succ_r by lia; f_equal; lia).
  destruct (Z.testbit m (n - 1)); nia.
Qed.

Lemma rne_near : forall m n, 0 <= m -> 0 <= n ->
  2 * (rne m n * 2 ^ n - m) <= 2 ^ n /\ - 2 ^ n <= 2 * (rne m n * 2 ^ n - m).
Proof.
  intros m n Hm Hn. destruct (Z.eq_dec n 0) as [->|N].
  - rewrite rne_0, Z.pow_0_r. lia.
  - pose proof (testbit_div m n ltac:(lia) Hm) as D. unfold rne.
    pose proof (Z.mod_pos_bound m (2 ^ (n - 1)) ltac:(apply Z.pow_pos_nonneg; lia)) as M.
    replace (2 ^ n) with (2 * 2 ^ (n - 1)) in *
      by (rewrite <- Z.pow_succ_r by lia; f_equal; lia).
    set (q := m / (2 * 2 ^ (n - 1))) in *. set (l := m mod 2 ^ (n - 1)) in *.
    set (h := 2 ^ (n - 1)) in *. clearbody q l h.
    destruct (Z.testbit m (n - 1)); cbn [andb].
    + destruct (l =? 0) eqn:E; cbn [negb orb].
      * apply Z.eqb_eq in E. destruct (Z.odd q); nia.
      * nia.
    + nia.
Qed.

Lemma rne_mono : forall m1 m2 n, 0 <= n -> 0 <= m1 <= m2 -> rne m1 n <= rne m2 n.
Proof.
  intros m1 m2 n Hn H. destruct (Z.eq_dec m1 m2) as [->|N]; [lia|].
  pose proof (rne_near m1 n ltac:(lia) Hn). pose proof (rne_near m2 n ltac:(lia) Hn).
  assert (0 < 2 ^ n) by (apply Z.pow_pos_nonneg; lia).
  apply Z.nlt_ge. intros L. nia.
Qed.

Lemma rne_exact : forall k n, 0 <= n -> 0 <= k -> rne (k * 2 ^ n) n = k.
Proof.
  intros k n Hn Hk. assert (0 < 2 ^ n) by (apply Z.pow_pos_nonneg; lia).
  pose proof (rne_near (k * 2 ^ n) n ltac:(nia) Hn). nia.
Qed.

Lemma rne_nonneg : forall m n, 0 <= m -> 0 <= n -> 0 <= rne m n.
Proof.
  intros m n Hm Hn. unfold rne. assert (0 <= m / 2 ^ n) by (apply Z.div_pos; [lia|apply Z.pow_pos_nonneg; lia]).
  destruct (_ && _); lia.
Qed.

Lemma rne_scale : forall m n k, 0 <= m -> 0 <= n -> 0 <= k -> rne (m * 2 ^ k) (n + k) = rne m n.
Proof.
  intros m n k Hm Hn Hk. unfold rne.
  assert (P : 2 ^ k <> 0) by (apply Z.pow_nonzero; lia).
  assert (Q : m * 2 ^ k / 2 ^ (n + k) = m / 2 ^ n).
  { rewrite Z.pow_add_r by lia. apply Z.div_mul_cancel_r; auto. apply Z.pow_nonzero; lia. }
  rewrite Q. replace (n + k - 1) with ((n - 1) + k) by lia.
  assert (T : Z.testbit (m * 2 ^ k) (n - 1 + k) = Z.testbit m (n - 1)).
  { rewrite (Z.add_comm (n - 1)). destruct (Z.lt_ge_cases (n - 1) 0).
    - rewrite (Z.testbit_neg_r m) by auto. apply Z.mul_pow2_bits_low. lia.
    - rewrite Z.mul_pow2_bits by lia. f_equal. lia. }
  rewrite T. destruct (Z.eq_dec n 0) as [->|N].
  - rewrite !Z.testbit_neg_r by lia. reflexivity.
  - f_equal. rewrite Z.pow_add_r by lia.
    rewrite Z.mul_mod_distr_r by (auto; apply Z.pow_nonzero; lia).
    assert (E : (m mod 2 ^ (n - 1) * 2 ^ k =? 0) = (m mod 2 ^ (n - 1) =? 0)).
    { destruct (Z.eqb_spec (m mod 2 ^ (n - 1)) 0) as [->|X]; [reflexivity|].
      apply Z.eqb_neq. nia. }
    now rewrite E.
Qed.

(** ** The shift of SpecFloat *)

Lemma iter_pos_ind : forall {A} (f : A -> A) (P : Z -> A -> Prop),
  (forall k x, 0 <= k -> P k x -> P (k + 1) (f x)) ->
  forall n k x, 0 <= k -> P k x -> P (k + Zpos n) (iter_pos f n x).
Proof.
  intros A f P H. induction n as [n IH|n IH|]; intros k x Hk HP; cbn [iter_pos].
  - replace (k + Zpos (xI n)) with (((k + 1) + Zpos n) + Zpos n) by lia.
    apply IH; [lia|]. apply IH; [lia|]. auto.
  - replace (k + Zpos (xO n)) with ((k + Zpos n) + Zpos n) by lia.
    apply IH; [lia|]. apply IH; auto.
  - auto.
Qed.

Definition shifted (m0 k : Z) (x : shr_record) : Prop :=
  shr_m x = m0 / 2 ^ k /\ shr_r x = Z.testbit m0 (k - 1) /\
  shr_s x = if 0 <? k then negb (m0 mod 2 ^ (k - 1) =? 0) else false.

Lemma shr_1_shifted : forall m0 k x, 0 <= m0 -> 0 <= k ->
  shifted m0 k x -> shifted m0 (k + 1) (shr_1 x).
Proof.
  intros m0 k [m r s] Hm Hk (E1 & E2 & E3). cbn [shr_m shr_r shr_s] in *.
  assert (Q : m0 / 2 ^ (k + 1) = m / 2).
  { rewrite E1, Z.pow_add_r, Z.pow_1_r by lia. symmetry. apply Z.div_div; try lia;
    apply Z.pow_nonzero; lia. }
  assert (T : (if Z.testbit m0 k then 1 else 0) = m mod 2).
  { rewrite E1, <- Z.testbit_spec' by lia. destruct (Z.testbit m0 k); reflexivity. }
  assert (Sb : r || s = negb (m0 mod 2 ^ k =? 0)).
  { destruct (Z.ltb_spec 0 k) as [L|L].
    - pose proof (testbit_div m0 k L Hm) as D.
      pose proof (Z.div_mod m0 (2 ^ k) ltac:(apply Z.pow_nonzero; lia)) as D2.
      assert (X : m0 mod 2 ^ k = (if Z.testbit m0 (k - 1) then 2 ^ (k - 1) else 0) + m0 mod 2 ^ (k - 1))
        by nia.
      rewrite X, E3, E2.
      pose proof (Z.mod_pos_bound m0 (2 ^ (k - 1)) ltac:(apply Z.pow_pos_nonneg; lia)) as B.
      assert (0 < 2 ^ (k - 1)) by (apply Z.pow_pos_nonneg; lia).
      destruct (Z.testbit m0 (k - 1)); cbn [orb]; [|reflexivity].
      symmetry. apply negb_true_iff, Z.eqb_neq. lia.
    - assert (k = 0) by lia. subst k. rewrite E3, E2, Z.pow_0_r, Z.mod_1_r.
      rewrite Z.testbit_neg_r by lia. reflexivity. }
  assert (M : 0 <= m) by (rewrite E1; apply Z.div_pos; [lia|apply Z.pow_pos_nonneg; lia]).
  assert (K : (0 <? k + 1) = true) by (apply Z.ltb_lt; lia).
  unfold shifted. rewrite K, Q. replace (k + 1 - 1) with k by lia. rewrite <- Sb.
  assert (T' : Z.testbit m0 k = Z.odd m).
  { rewrite <- Z.bit0_odd. pose proof (Z.bit0_mod m) as O. rewrite <- T in O.
    destruct (Z.testbit m 0), (Z.testbit m0 k); cbn in O; auto; discriminate. }
  rewrite T'. unfold shr_1.
  destruct m as [|[p|p|]|]; cbn [shr_m shr_r shr_s Z.odd]; try lia; repeat split;
    try (apply Z.div_unique with (r := 1); lia);
    try (apply Z.div_unique with (r := 0); lia).
Qed.

Section Format.
Variables prec emax : Z.
Hypothesis Hprec : 1 < prec.
Hypothesis Hemax : prec < emax.
Notation emin := (emin prec emax).
Notation fexp := (fexp prec emax).

Lemma round_loc : forall m n x, 0 <= m -> 0 <= n -> shifted m n x ->
  round_nearest_even (shr_m x) (loc_of_shr_record x) = rne m n.
Proof.
  intros m n [q r s] Hm Hn (E1 & E2 & E3). cbn [shr_m shr_r shr_s] in *.
  unfold rne. rewrite <- E1, <- E2. unfold loc_of_shr_record. cbn [shr_m].
  destruct r; cbn [andb].
  - destruct (Z.ltb_spec 0 n).
    + rewrite <- E3. destruct s; cbn [round_nearest_even orb]; [reflexivity|].
      rewrite <- Z.negb_odd. destruct (Z.odd q); cbn [negb]; lia.
    + rewrite Z.testbit_neg_r in E2 by lia. discriminate.
  - destruct s; cbn [round_nearest_even]; lia.
Qed.

Lemma shr_fexp_spec : forall m e, 0 <= m -> e <= fexp (Zdigits2 m + e) ->
  shifted m (fexp (Zdigits2 m + e) - e) (fst (shr_fexp prec emax m e loc_Exact)) /\
  snd (shr_fexp prec emax m e loc_Exact) = fexp (Zdigits2 m + e).
Proof.
  intros m e Hm He. unfold shr_fexp, shr. cbn [shr_record_of_loc].
  assert (B : shifted m 0 {| shr_m := m; shr_r := false; shr_s := false |}).
  { split; [|split]; cbn; rewrite ?Z.pow_0_r, ?Z.div_1_r; auto. }
  destruct (fexp (Zdigits2 m + e) - e) as [|p|p] eqn:E; cbn [fst snd]; try lia.
  - split; [exact B|lia].
  - split; [|lia]. change (Zpos p) with (0 + Zpos p). apply iter_pos_ind; try lia; auto.
    intros k x Hk HS. apply shr_1_shifted; auto.
Qed.

(** The exponent of the last bit of the rounded value, and the rounded value as a multiple of
    2^emin. *)
Definition shift_of (m e : Z) : Z := fexp (Zdigits2 m + e) - e.
Definition rv (m e : Z) : Z := rne m (shift_of m e) * 2 ^ (e + shift_of m e - emin).

(** Values as multiples of 2^emin; infinities stand for +-2^emax. *)
Definition big : Z := 2 ^ (emax - emin).
Definition sg (s : bool) : Z := if s then -1 else 1.
Definition sval (x : spec_float) : Z :=
  match x with
  | S754_zero _ | S754_nan => 0
  | S754_infinity s => sg s * big
  | S754_finite s m e => sg s * (Zpos m * 2 ^ (e - emin))
  end.

Lemma Zdigits_le : forall m k, 0 < m < 2 ^ k -> 0 <= k -> Zdigits2 m <= k.
Proof.
  intros [|p|p] k H Hk; try lia. cbn [Zdigits2]. pose proof (digits_bounds p) as B.
  apply Z.nlt_ge. intros L.
  assert (2 ^ k <= 2 ^ (Zpos (digits2_pos p) - 1)) by (apply Z.pow_le_mono_r; lia). lia.
Qed.

Lemma round_aux_spec : forall s m e, 0 < m -> e <= fexp (Zdigits2 m + e) ->
  valid_binary prec emax (binary_round_aux prec emax s m e loc_Exact) = true /\
  binary_round_aux prec emax s m e loc_Exact <> S754_nan /\
  sval (binary_round_aux prec emax s m e loc_Exact) = sg s * Z.min big (rv m e) /\
  (forall s', binary_round_aux prec emax s m e loc_Exact = S754_zero s' -> s' = s).
Proof.
  intros s m e Hm He.
  destruct (shr_fexp_spec m e ltac:(lia) He) as [S1 S2].
  unfold binary_round_aux.
  destruct (shr_fexp prec emax m e loc_Exact) as [x e1] eqn:X. cbn [fst snd] in S1, S2.
  rewrite (round_loc m (fexp (Zdigits2 m + e) - e) x) by (auto; lia).
  fold (shift_of m e) in *. unfold rv.
  set (n := shift_of m e) in *.
  assert (Hn : 0 <= n) by (unfold n, shift_of; lia).
  assert (E1 : e1 = e + n) by (unfold n, shift_of; lia).
  set (M := rne m n) in *.
  assert (HM0 : 0 <= M) by (apply rne_nonneg; lia).
  (* the size of the rounded mantissa *)
  destruct m as [|p|p]; try lia. cbn [Zdigits2] in *.
  pose proof (digits_bounds p) as Bd. set (d := Zpos (digits2_pos p)) in *.
  assert (Hd : 0 < d) by (unfold d; lia). clearbody d.
  assert (En : e1 = Z.max (d + e - prec) emin) by (rewrite S2; unfold SpecFloat.fexp; reflexivity).
  assert (HM1 : M <= 2 ^ prec).
  { assert (C : d <= prec + n) by lia.
    rewrite <- (rne_exact (2 ^ prec) n) by (auto; apply Z.pow_nonneg; lia). apply rne_mono; [lia|].
    rewrite <- Z.pow_add_r by lia.
    assert (2 ^ d <= 2 ^ (prec + n)) by (apply Z.pow_le_mono_r; lia). lia. }
  assert (HM2 : emin < e1 -> 2 ^ (prec - 1) <= M).
  { intros L. assert (C : d = prec + n) by lia.
    rewrite <- (rne_exact (2 ^ (prec - 1)) n) by (auto; apply Z.pow_nonneg; lia). apply rne_mono; [lia|].
    rewrite <- Z.pow_add_r by lia. replace (prec - 1 + n) with (d - 1) by lia.
    assert (0 < 2 ^ (d - 1)) by (apply Z.pow_pos_nonneg; lia). lia. }
  assert (Hge : emin <= e1) by lia.
  rewrite <- E1. clearbody M. clear S1 X x.
  assert (Pp : 2 ^ prec = 2 * 2 ^ (prec - 1))
    by (rewrite <- Z.pow_succ_r by lia; f_equal; lia).
  assert (P1 : 0 < 2 ^ (prec - 1)) by (apply Z.pow_pos_nonneg; lia).
  assert (Hbig : big = 2 ^ (emax - prec - emin) * 2 ^ prec).
  { unfold big. rewrite <- Z.pow_add_r by (unfold SpecFloat.emin; lia). f_equal. lia. }
  destruct (Z.eq_dec M 0) as [->|NZ].
  { (* rounded to zero *)
    assert (e1 = emin) by (destruct (Z.eq_dec e1 emin); auto; specialize (HM2 ltac:(lia)); lia).
    unfold shr_fexp. cbn [Zdigits2 shr_record_of_loc].
    assert (N : exists k, fexp (0 + e1) - e1 = k /\ k <= 0)
      by (eexists; split; [reflexivity|]; unfold SpecFloat.fexp; lia).
    destruct N as (k & -> & Hk). unfold shr. destruct k; try lia; cbn [shr_m].
    - repeat split; try discriminate; [|now intros s' [= <-]].
      cbn [sval]. rewrite Z.min_r by (unfold big; assert (0 < 2 ^ (emax - emin)) by (apply Z.pow_pos_nonneg; unfold SpecFloat.emin; lia); lia). lia.
    - repeat split; try discriminate; [|now intros s' [= <-]].
      cbn [sval]. rewrite Z.min_r by (unfold big; assert (0 < 2 ^ (emax - emin)) by (apply Z.pow_pos_nonneg; unfold SpecFloat.emin; lia); lia). lia. }
  destruct (Z.eq_dec M (2 ^ prec)) as [EP|NP].
  { (* carry to the next power of 2 *)
    assert (D : Zdigits2 M = prec + 1).
    { destruct M as [|q|q]; try lia. cbn [Zdigits2]. apply digits_unique; [lia|].
      replace (prec + 1 - 1) with prec by lia. rewrite Z.pow_add_r, Z.pow_1_r by lia. lia. }
    assert (F : fexp (Zdigits2 M + e1) = e1 + 1) by (rewrite D; unfold SpecFloat.fexp; lia).
    destruct (shr_fexp_spec M e1 HM0 ltac:(lia)) as [(S1 & _) S3].
    destruct (shr_fexp prec emax M e1 loc_Exact) as [x e2]. cbn [fst snd] in S1, S3.
    rewrite F in S1, S3. replace (e1 + 1 - e1) with 1 in S1 by lia.
    rewrite EP, Z.pow_1_r, Pp, Z.mul_comm, Z.div_mul in S1 by lia.
    rewrite S1, S3. destruct (2 ^ (prec - 1)) as [|q|q] eqn:EQ; try lia.
    assert (DQ : Zpos (digits2_pos q) = prec) by (apply digits_unique; lia).
    assert (V : 2 ^ prec * 2 ^ (e1 - emin) = Zpos q * 2 ^ (e1 + 1 - emin)).
    { rewrite Pp, <- EQ. replace (e1 + 1 - emin) with (Z.succ (e1 - emin)) by lia.
      rewrite Z.pow_succ_r by lia. lia. }
    rewrite EP, V. destruct (Z.leb_spec (e1 + 1) (emax - prec)) as [L|L].
    - split; [|split; [discriminate|split; [|discriminate]]].
      + cbn [valid_binary]. unfold bounded, canonical_mantissa. rewrite DQ.
        apply andb_true_iff. split; [|now apply Z.leb_le].
        apply Zeq_is_eq_bool. unfold SpecFloat.fexp. lia.
      + cbn [sval]. rewrite Z.min_r; [reflexivity|]. rewrite Hbig.
        assert (2 ^ (e1 + 1 - emin) <= 2 ^ (emax - prec - emin)) by (apply Z.pow_le_mono_r; lia).
        nia.
    - split; [reflexivity|]. split; [discriminate|]. split; [|discriminate].
      cbn [sval]. rewrite Z.min_l; [reflexivity|]. rewrite <- V, Hbig.
      assert (2 ^ (emax - prec - emin) <= 2 ^ (e1 - emin)) by (apply Z.pow_le_mono_r; lia).
      assert (0 < 2 ^ prec) by lia. nia. }
  (* canonical already *)
  destruct M as [|q|q]; try lia.
  assert (F : fexp (Zpos (digits2_pos q) + e1) = e1).
  { pose proof (Zdigits_le (Zpos q) prec ltac:(lia) ltac:(lia)) as C. cbn [Zdigits2] in C.
    unfold SpecFloat.fexp. destruct (Z.eq_dec e1 emin) as [->|NE]; [lia|].
    specialize (HM2 ltac:(lia)).
    assert (Zpos (digits2_pos q) = prec) by (apply digits_unique; lia). lia. }
  unfold shr_fexp. cbn [Zdigits2 shr_record_of_loc]. rewrite F, Z.sub_diag. cbn [shr shr_m].
  destruct (Z.leb_spec e1 (emax - prec)) as [L|L].
  - split; [|split; [discriminate|split; [|discriminate]]].
    + cbn [valid_binary]. unfold bounded, canonical_mantissa. rewrite F.
      apply andb_true_iff. split; [now apply Zeq_is_eq_bool|now apply Z.leb_le].
    + cbn [sval]. rewrite Z.min_r; [reflexivity|]. rewrite Hbig.
      assert (2 ^ (e1 - emin) <= 2 ^ (emax - prec - emin)) by (apply Z.pow_le_mono_r; lia).
      assert (0 < 2 ^ (e1 - emin)) by (apply Z.pow_pos_nonneg; lia). nia.
  - split; [reflexivity|]. split; [discriminate|]. split; [|discriminate].
    cbn [sval]. rewrite Z.min_l; [reflexivity|].
    specialize (HM2 ltac:(unfold SpecFloat.emin in *; lia)).
    assert (2 ^ (emax - prec - emin) * 2 <= 2 ^ (e1 - emin)).
    { rewrite Z.mul_comm, <- Z.pow_succ_r by (unfold SpecFloat.emin; lia). apply Z.pow_le_mono_r; lia. }
    rewrite Hbig. nia.
Qed.

Lemma emin_neg : emin < 0.
Proof. unfold SpecFloat.emin. lia. Qed.
Lemma big_pos : 0 < big.
Proof. unfold big. apply Z.pow_pos_nonneg; unfold SpecFloat.emin; lia. Qed.

Lemma Zdigits_scale : forall m k, 0 < m -> 0 <= k -> Zdigits2 (m * 2 ^ k) = Zdigits2 m + k.
Proof.
  intros [|p|p] k Hm Hk; try lia.
  assert (0 < 2 ^ k) by (apply Z.pow_pos_nonneg; lia).
  destruct (Zpos p * 2 ^ k) as [|q|q] eqn:E; try lia. cbn [Zdigits2].
  apply digits_shift; auto.
Qed.

Lemma Zdigits_mono : forall m1 m2, 0 < m1 <= m2 -> Zdigits2 m1 <= Zdigits2 m2.
Proof.
  intros m1 [|q|q] H; try lia. apply Zdigits_le; [|cbn; lia]. cbn [Zdigits2].
  pose proof (digits_bounds q). lia.
Qed.

(** The rounded value does not depend on the representation of the exact one. *)
Lemma rv_scale : forall m e k, 0 < m -> 0 <= k -> e + k <= fexp (Zdigits2 m + (e + k)) ->
  rv (m * 2 ^ k) e = rv m (e + k).
Proof.
  intros m e k Hm Hk He. unfold rv, shift_of. rewrite Zdigits_scale by auto.
  replace (Zdigits2 m + k + e) with (Zdigits2 m + (e + k)) by lia.
  set (f := fexp (Zdigits2 m + (e + k))) in *.
  replace (f - e) with ((f - (e + k)) + k) by lia. rewrite rne_scale by lia.
  f_equal. f_equal. lia.
Qed.

Lemma rv_nonneg : forall m e, 0 <= m -> e <= fexp (Zdigits2 m + e) -> 0 <= rv m e.
Proof.
  intros m e Hm He. unfold rv. apply Z.mul_nonneg_nonneg; [|apply Z.pow_nonneg; lia].
  apply rne_nonneg; auto. unfold shift_of. lia.
Qed.

Lemma rv_mono : forall m1 m2 e, 0 < m1 <= m2 -> e <= fexp (Zdigits2 m1 + e) ->
  rv m1 e <= rv m2 e.
Proof.
  intros m1 m2 e H He. unfold rv.
  pose proof (Zdigits_mono m1 m2 H) as D.
  assert (N : shift_of m1 e <= shift_of m2 e) by (unfold shift_of, SpecFloat.fexp; lia).
  assert (N1 : 0 <= shift_of m1 e) by (unfold shift_of; lia).
  assert (G : emin <= e + shift_of m1 e) by (unfold shift_of, SpecFloat.fexp; lia).
  destruct (Z.eq_dec (shift_of m1 e) (shift_of m2 e)) as [E|NE].
  - rewrite <- E. apply Z.mul_le_mono_nonneg_r; [apply Z.pow_nonneg; lia|].
    apply rne_mono; lia.
  - assert (E2 : shift_of m2 e = Zdigits2 m2 - prec)
      by (unfold shift_of, SpecFloat.fexp in *; lia).
    set (n1 := shift_of m1 e) in *. set (n2 := shift_of m2 e) in *.
    assert (L1 : Zdigits2 m1 < Zdigits2 m2) by (unfold n1, n2, shift_of, SpecFloat.fexp in *; lia).
    destruct m1 as [|p|p]; try lia. destruct m2 as [|q|q]; try lia. cbn [Zdigits2] in *.
    pose proof (digits_bounds p) as B1. pose proof (digits_bounds q) as B2.
    set (d1 := Zpos (digits2_pos p)) in *. set (d2 := Zpos (digits2_pos q)) in *.
    assert (P12 : 2 ^ d1 <= 2 ^ (d2 - 1)) by (apply Z.pow_le_mono_r; lia).
    assert (M1 : rne (Zpos p) n1 <= 2 ^ (d2 - 1 - n1)).
    { rewrite <- (rne_exact (2 ^ (d2 - 1 - n1)) n1) by (auto; apply Z.pow_nonneg; lia).
      apply rne_mono; auto. rewrite <- Z.pow_add_r by lia.
      replace (d2 - 1 - n1 + n1) with (d2 - 1) by lia. lia. }
    assert (M2 : 2 ^ (d2 - 1 - n2) <= rne (Zpos q) n2).
    { rewrite <- (rne_exact (2 ^ (d2 - 1 - n2)) n2) by (try lia; apply Z.pow_nonneg; lia).
      apply rne_mono; [lia|]. rewrite <- Z.pow_add_r by lia.
      replace (d2 - 1 - n2 + n2) with (d2 - 1) by lia.
      assert (0 < 2 ^ (d2 - 1)) by (apply Z.pow_pos_nonneg; lia). lia. }
    transitivity (2 ^ (d2 - 1 - n1) * 2 ^ (e + n1 - emin)).
    { apply Z.mul_le_mono_nonneg_r; auto. apply Z.pow_nonneg; lia. }
    transitivity (2 ^ (d2 - 1 - n2) * 2 ^ (e + n2 - emin)).
    { rewrite <- !Z.pow_add_r by lia. apply Z.eq_le_incl. f_equal. lia. }
    apply Z.mul_le_mono_nonneg_r; auto. apply Z.pow_nonneg; lia.
Qed.

Lemma fexp_emin : forall d, emin <= fexp d.
Proof. intros d. unfold SpecFloat.fexp. lia. Qed.

(** Rounding of an exact result that is a multiple of 2^emin. *)
Definition Rz (z : Z) : Z := Z.sgn z * Z.min big (rv (Z.abs z) emin).

Lemma Rz_opp : forall z, Rz (- z) = - Rz z.
Proof. intros z. unfold Rz. rewrite Z.abs_opp, Z.sgn_opp. lia. Qed.
Lemma Rz_0 : Rz 0 = 0.
Proof. reflexivity. Qed.
Lemma Rz_pos : forall z, 0 < z -> Rz z = Z.min big (rv z emin).
Proof. intros z H. unfold Rz. rewrite Z.abs_eq, Z.sgn_pos by lia. lia. Qed.
Lemma Rz_nonneg : forall z, 0 <= z -> 0 <= Rz z.
Proof.
  intros z H. destruct (Z.eq_dec z 0) as [->|N]; [rewrite Rz_0; lia|].
  rewrite Rz_pos by lia. pose proof (rv_nonneg z emin H (fexp_emin _)). pose proof big_pos. lia.
Qed.

Lemma Rz_mono : forall x y, x <= y -> Rz x <= Rz y.
Proof.
  assert (P : forall x y, 0 < x -> x <= y -> Rz x <= Rz y).
  { intros x y Hx H. rewrite !Rz_pos by lia.
    pose proof (rv_mono x y emin ltac:(lia) (fexp_emin _)). lia. }
  intros x y H. destruct (Z.lt_ge_cases 0 x); [auto|].
  destruct (Z.lt_ge_cases y 0).
  - rewrite <- (Z.opp_involutive x), <- (Z.opp_involutive y), (Rz_opp (- x)), (Rz_opp (- y)).
    pose proof (P (- y) (- x) ltac:(lia) ltac:(lia)). lia.
  - pose proof (Rz_nonneg y ltac:(lia)). pose proof (Rz_nonneg (- x) ltac:(lia)).
    rewrite Rz_opp in *. lia.
Qed.

(** A value with at most [prec] significant bits is not changed. *)
Lemma rv_fix : forall k n, 0 < k -> 0 <= n -> shift_of (k * 2 ^ n) emin <= n ->
  rv (k * 2 ^ n) emin = k * 2 ^ n.
Proof.
  intros k n Hk Hn H. unfold rv.
  assert (N0 : 0 <= shift_of (k * 2 ^ n) emin)
    by (unfold shift_of; pose proof (fexp_emin (Zdigits2 (k * 2 ^ n) + emin)); lia).
  set (j := shift_of (k * 2 ^ n) emin) in *.
  replace (2 ^ n) with (2 ^ (n - j) * 2 ^ j) by (rewrite <- Z.pow_add_r by lia; f_equal; lia).
  rewrite Z.mul_assoc, rne_exact by (try lia; apply Z.mul_nonneg_nonneg; try apply Z.pow_nonneg; lia).
  f_equal. f_equal. lia.
Qed.

Definition vb (x : spec_float) : Prop := valid_binary prec emax x = true.

Lemma valid_finite : forall s m e, vb (S754_finite s m e) ->
  e = Z.max (Zpos (digits2_pos m) + e - prec) emin /\ e <= emax - prec.
Proof.
  intros s m e H. unfold vb in H. cbn [valid_binary] in H. unfold bounded, canonical_mantissa in H.
  apply andb_true_iff in H. destruct H as [H1 H2]. apply Zeq_is_eq_bool in H1.
  apply Z.leb_le in H2. unfold SpecFloat.fexp in H1. lia.
Qed.

Lemma finite_lt_big : forall s m e, vb (S754_finite s m e) ->
  0 < Zpos m * 2 ^ (e - emin) < big.
Proof.
  intros s m e H. apply valid_finite in H. pose proof (digits_bounds m) as B.
  assert (P : 0 < 2 ^ (e - emin)) by (apply Z.pow_pos_nonneg; lia).
  split; [lia|].
  assert (2 ^ Zpos (digits2_pos m) <= 2 ^ prec) by (apply Z.pow_le_mono_r; lia).
  assert (2 ^ (e - emin) <= 2 ^ (emax - prec - emin)) by (apply Z.pow_le_mono_r; lia).
  assert (Hbig : big = 2 ^ (emax - prec - emin) * 2 ^ prec).
  { unfold big. rewrite <- Z.pow_add_r by (unfold SpecFloat.emin; lia). f_equal. lia. }
  nia.
Qed.

Definition fin (x : spec_float) : bool :=
  match x with S754_zero _ | S754_finite _ _ _ => true | _ => false end.

Lemma fin_bounds : forall x, vb x -> fin x = true -> - big < sval x < big.
Proof.
  intros [s|s| |s m e] V F; try discriminate; cbn [sval].
  - pose proof big_pos. lia.
  - pose proof (finite_lt_big s m e V). destruct s; cbn [sg]; lia.
Qed.

Lemma Rz_fix : forall x, vb x -> fin x = true -> Rz (sval x) = sval x.
Proof.
  intros [s|s| |s m e] V F; try discriminate; cbn [sval]; [reflexivity|].
  pose proof (finite_lt_big s m e V) as B. pose proof (valid_finite s m e V) as E.
  assert (K : Rz (Zpos m * 2 ^ (e - emin)) = Zpos m * 2 ^ (e - emin)).
  { rewrite Rz_pos by lia. rewrite rv_fix; try lia.
    unfold shift_of. rewrite Zdigits_scale by lia. cbn [Zdigits2]. unfold SpecFloat.fexp. lia. }
  destruct s; cbn [sg].
  - replace (-1 * (Zpos m * 2 ^ (e - emin))) with (- (Zpos m * 2 ^ (e - emin))) by lia.
    rewrite Rz_opp, K. lia.
  - now rewrite Z.mul_1_l.
Qed.

(** ** Conversion from a mantissa and an exponent *)

Lemma binary_round_spec : forall s m e, emin <= e ->
  vb (binary_round prec emax s m e) /\ binary_round prec emax s m e <> S754_nan /\
  sval (binary_round prec emax s m e) = sg s * Rz (Zpos m * 2 ^ (e - emin)).
Proof.
  intros s m e He. unfold binary_round, shl_align.
  set (f := fexp (Zpos (digits2_pos m) + e)).
  assert (Hf : emin <= f) by apply fexp_emin.
  destruct (f - e) as [|q|q] eqn:E.
  - destruct (round_aux_spec s (Zpos m) e ltac:(lia) ltac:(cbn [Zdigits2]; lia)) as (A & B & C & _).
    split; [exact A|]. split; [exact B|]. rewrite C, Rz_pos by
      (assert (0 < 2 ^ (e - emin)) by (apply Z.pow_pos_nonneg; lia); lia).
    do 2 f_equal. rewrite rv_scale; try lia; cbn [Zdigits2];
      replace (emin + (e - emin)) with e by lia; [reflexivity|fold f; lia].
  - destruct (round_aux_spec s (Zpos m) e ltac:(lia) ltac:(cbn [Zdigits2]; lia)) as (A & B & C & _).
    split; [exact A|]. split; [exact B|]. rewrite C, Rz_pos by
      (assert (0 < 2 ^ (e - emin)) by (apply Z.pow_pos_nonneg; lia); lia).
    do 2 f_equal. rewrite rv_scale; try lia; cbn [Zdigits2];
      replace (emin + (e - emin)) with e by lia; [reflexivity|fold f; lia].
  - assert (Sh : Zpos (shift_pos q m) = Zpos m * 2 ^ (e - f)).
    { rewrite Zpower.shift_pos_correct. rewrite Z.mul_comm. f_equal.
      replace (e - f) with (Zpos q) by lia. reflexivity. }
    assert (D : Zpos (digits2_pos (shift_pos q m)) = Zpos (digits2_pos m) + (e - f))
      by (apply digits_shift; [lia|exact Sh]).
    assert (PreC : f <= fexp (Zdigits2 (Zpos (shift_pos q m)) + f)).
    { cbn [Zdigits2]. rewrite D. replace (Zpos (digits2_pos m) + (e - f) + f)
        with (Zpos (digits2_pos m) + e) by lia. fold f. lia. }
    destruct (round_aux_spec s (Zpos (shift_pos q m)) f ltac:(lia) PreC) as (A & B & C & _).
    split; [exact A|]. split; [exact B|]. rewrite C, Rz_pos by
      (assert (0 < 2 ^ (e - emin)) by (apply Z.pow_pos_nonneg; lia); lia).
    do 2 f_equal.
    replace (2 ^ (e - emin)) with (2 ^ (e - f) * 2 ^ (f - emin))
      by (rewrite <- Z.pow_add_r by lia; f_equal; lia).
    rewrite Z.mul_assoc, <- Sh. rewrite rv_scale; try lia;
      replace (emin + (f - emin)) with f by lia; [reflexivity|exact PreC].
Qed.

Lemma normalize_spec : forall z e s0, emin <= e ->
  vb (binary_normalize prec emax z e s0) /\ binary_normalize prec emax z e s0 <> S754_nan /\
  sval (binary_normalize prec emax z e s0) = Rz (z * 2 ^ (e - emin)).
Proof.
  intros [|p|p] e s0 He; cbn [binary_normalize].
  - split; [reflexivity|]. split; [discriminate|]. reflexivity.
  - destruct (binary_round_spec false p e He) as (A & B & C). split; auto. split; auto.
    rewrite C. cbn [sg]. lia.
  - destruct (binary_round_spec true p e He) as (A & B & C). split; auto. split; auto.
    rewrite C. cbn [sg].
    replace (Zneg p * 2 ^ (e - emin)) with (- (Zpos p * 2 ^ (e - emin))) by lia.
    rewrite Rz_opp. lia.
Qed.

(** ** Addition *)

Lemma align_val : forall m e ez, ez <= e -> emin <= ez ->
  Zpos (fst (shl_align m e ez)) * 2 ^ (ez - emin) = Zpos m * 2 ^ (e - emin).
Proof.
  intros m e ez H Hz. unfold shl_align. destruct (ez - e) as [|q|q] eqn:E; cbn [fst]; try lia.
  - replace e with ez by lia. reflexivity.
  - rewrite Zpower.shift_pos_correct.
    replace (2 ^ (e - emin)) with (2 ^ Zpos q * 2 ^ (ez - emin))
      by (rewrite <- Z.pow_add_r by lia; f_equal; lia).
    change (Zpower_pos 2 q) with (2 ^ Zpos q). lia.
Qed.

Lemma add_fin : forall x y, vb x -> vb y -> fin x = true -> fin y = true ->
  vb (SFadd prec emax x y) /\ SFadd prec emax x y <> S754_nan /\
  sval (SFadd prec emax x y) = Rz (sval x + sval y).
Proof.
  intros x y Vx Vy Fx Fy.
  destruct x as [sx|sx| |sx mx ex]; try discriminate;
    destruct y as [sy|sy| |sy my ey]; try discriminate.
  - cbn [SFadd]. destruct (Bool.eqb sx sy); (split; [reflexivity|]; split; [discriminate|reflexivity]).
  - cbn [SFadd]. split; [exact Vy|]. split; [discriminate|].
    rewrite <- (Rz_fix _ Vy eq_refl) at 1. reflexivity.
  - cbn [SFadd]. split; [exact Vx|]. split; [discriminate|].
    rewrite <- (Rz_fix _ Vx eq_refl) at 1. f_equal. cbn [sval]. lia.
  - cbn [SFadd]. cbv zeta.
    pose proof (valid_finite _ _ _ Vx) as Ex. pose proof (valid_finite _ _ _ Vy) as Ey.
    set (ez := Z.min ex ey).
    destruct (normalize_spec (cond_Zopp sx (Zpos (fst (shl_align mx ex ez))) +
       cond_Zopp sy (Zpos (fst (shl_align my ey ez)))) ez false ltac:(lia)) as (A & B & C).
    split; [exact A|]. split; [exact B|]. rewrite C. f_equal. cbn [sval].
    rewrite Z.mul_add_distr_r.
    rewrite <- (align_val mx ex ez), <- (align_val my ey ez) by lia.
    destruct sx, sy; cbn [cond_Zopp sg]; lia.
Qed.

(** ** Comparison *)

Lemma val_lt : forall m1 e1 m2 e2 s1 s2,
  vb (S754_finite s1 m1 e1) -> vb (S754_finite s2 m2 e2) -> e1 < e2 ->
  Zpos m1 * 2 ^ (e1 - emin) < Zpos m2 * 2 ^ (e2 - emin).
Proof.
  intros m1 e1 m2 e2 s1 s2 V1 V2 L. apply valid_finite in V1. apply valid_finite in V2.
  pose proof (digits_bounds m1) as B1. pose proof (digits_bounds m2) as B2.
  assert (D2 : Zpos (digits2_pos m2) = prec) by lia. rewrite D2 in B2.
  assert (2 ^ Zpos (digits2_pos m1) <= 2 ^ prec) by (apply Z.pow_le_mono_r; lia).
  assert (P : 2 ^ prec * 2 ^ (e1 - emin) <= 2 ^ (prec - 1) * 2 ^ (e2 - emin)).
  { rewrite <- !Z.pow_add_r by lia. apply Z.pow_le_mono_r; lia. }
  assert (0 < 2 ^ (e1 - emin)) by (apply Z.pow_pos_nonneg; lia).
  assert (0 < 2 ^ (e2 - emin)) by (apply Z.pow_pos_nonneg; lia). nia.
Qed.

Lemma compare_pos : forall m1 e1 m2 e2 s1 s2,
  vb (S754_finite s1 m1 e1) -> vb (S754_finite s2 m2 e2) ->
  (Zpos m1 * 2 ^ (e1 - emin) ?= Zpos m2 * 2 ^ (e2 - emin)) =
  match e1 ?= e2 with Lt => Lt | Gt => Gt | Eq => Pos.compare_cont Eq m1 m2 end.
Proof.
  intros m1 e1 m2 e2 s1 s2 V1 V2. destruct (Z.compare_spec e1 e2) as [E|L|G].
  - subst e2. change (Pos.compare_cont Eq m1 m2) with (Zpos m1 ?= Zpos m2).
    assert (P : 0 < 2 ^ (e1 - emin))
      by (apply valid_finite in V1; apply Z.pow_pos_nonneg; lia).
    symmetry. apply Zmult_compare_compat_r. lia.
  - apply Z.compare_lt_iff. eapply val_lt; eauto.
  - apply Z.compare_gt_iff. eapply val_lt; eauto.
Qed.

Lemma compare_sval : forall x y, vb x -> vb y -> x <> S754_nan -> y <> S754_nan ->
  SFcompare x y = Some (sval x ?= sval y).
Proof.
  intros x y Vx Vy Nx Ny. pose proof big_pos as BP.
  destruct x as [sx|sx| |sx mx ex]; try congruence;
    destruct y as [sy|sy| |sy my ey]; try congruence; cbn [SFcompare sval]; f_equal.
  - destruct sy; cbn [sg]; symmetry; [apply Z.compare_gt_iff|apply Z.compare_lt_iff]; lia.
  - pose proof (finite_lt_big _ _ _ Vy).
    destruct sy; cbn [sg]; symmetry; [apply Z.compare_gt_iff|apply Z.compare_lt_iff]; lia.
  - destruct sx; cbn [sg]; symmetry; [apply Z.compare_lt_iff|apply Z.compare_gt_iff]; lia.
  - destruct sx, sy; cbn [sg]; symmetry; try apply Z.compare_refl;
      [apply Z.compare_lt_iff|apply Z.compare_gt_iff]; lia.
  - pose proof (finite_lt_big _ _ _ Vy).
    destruct sx, sy; cbn [sg]; symmetry;
      first [apply Z.compare_lt_iff; lia|apply Z.compare_gt_iff; lia].
  - pose proof (finite_lt_big _ _ _ Vx).
    destruct sx; cbn [sg]; symmetry; [apply Z.compare_lt_iff|apply Z.compare_gt_iff]; lia.
  - pose proof (finite_lt_big _ _ _ Vx).
    destruct sx, sy; cbn [sg]; symmetry;
      first [apply Z.compare_lt_iff; lia|apply Z.compare_gt_iff; lia].
  - pose proof (finite_lt_big _ _ _ Vx). pose proof (finite_lt_big _ _ _ Vy).
    pose proof (compare_pos _ _ _ _ _ _ Vx Vy) as C.
    destruct sx, sy; cbn [sg]; rewrite ?Z.mul_1_l.
    + replace (-1 * (Zpos mx * 2 ^ (ex - emin))) with (- (Zpos mx * 2 ^ (ex - emin))) by lia.
      replace (-1 * (Zpos my * 2 ^ (ey - emin))) with (- (Zpos my * 2 ^ (ey - emin))) by lia.
      rewrite Z.compare_opp, (Z.compare_antisym (Zpos mx * 2 ^ (ex - emin))), C. destruct (ex ?= ey); reflexivity.
    + symmetry. apply Z.compare_lt_iff. lia.
    + symmetry. apply Z.compare_gt_iff. lia.
    + now rewrite C.
Qed.

(** ** Multiplication *)

Lemma mul_pre : forall s1 m1 e1 s2 m2 e2,
  vb (S754_finite s1 m1 e1) -> vb (S754_finite s2 m2 e2) ->
  e1 + e2 <= fexp (Zdigits2 (Zpos (m1 * m2)) + (e1 + e2)).
Proof.
  intros s1 m1 e1 s2 m2 e2 V1 V2. apply valid_finite in V1. apply valid_finite in V2.
  cbn [Zdigits2]. pose proof (digits_bounds m1) as B1. pose proof (digits_bounds m2) as B2.
  pose proof (digits_bounds (m1 * m2)) as B.
  set (d1 := Zpos (digits2_pos m1)) in *. set (d2 := Zpos (digits2_pos m2)) in *.
  set (d := Zpos (digits2_pos (m1 * m2))) in *.
  assert (0 < d1 /\ 0 < d2 /\ 0 < d) as (H1 & H2 & H3) by (unfold d1, d2, d; lia).
  clearbody d1 d2 d. rewrite Pos2Z.inj_mul in B.
  assert (D : d1 + d2 - 2 < d).
  { apply (Z.pow_lt_mono_r_iff 2); try lia.
    replace (d1 + d2 - 2) with ((d1 - 1) + (d2 - 1)) by lia. rewrite Z.pow_add_r by lia.
    assert (0 < 2 ^ (d1 - 1)) by (apply Z.pow_pos_nonneg; lia).
    assert (0 < 2 ^ (d2 - 1)) by (apply Z.pow_pos_nonneg; lia). nia. }
  pose proof emin_neg. unfold SpecFloat.fexp. lia.
Qed.

Lemma mul_fin : forall s1 m1 e1 s2 m2 e2,
  vb (S754_finite s1 m1 e1) -> vb (S754_finite s2 m2 e2) ->
  vb (SFmul prec emax (S754_finite s1 m1 e1) (S754_finite s2 m2 e2)) /\
  SFmul prec emax (S754_finite s1 m1 e1) (S754_finite s2 m2 e2) <> S754_nan /\
  sval (SFmul prec emax (S754_finite s1 m1 e1) (S754_finite s2 m2 e2)) =
  sg (xorb s1 s2) * Z.min big (rv (Zpos m1 * Zpos m2) (e1 + e2)).
Proof.
  intros s1 m1 e1 s2 m2 e2 V1 V2. cbn [SFmul].
  destruct (round_aux_spec (xorb s1 s2) (Zpos (m1 * m2)) (e1 + e2) ltac:(lia)
    (mul_pre _ _ _ _ _ _ V1 V2)) as (A & B & C & _). auto.
Qed.

(** The magnitude of the product with a fixed positive number, as a function of the other
    magnitude. *)
Lemma mul_mono : forall s m e s1 m1 e1 s2 m2 e2,
  vb (S754_finite s m e) -> vb (S754_finite s1 m1 e1) -> vb (S754_finite s2 m2 e2) ->
  Zpos m1 * 2 ^ (e1 - emin) <= Zpos m2 * 2 ^ (e2 - emin) ->
  rv (Zpos m * Zpos m1) (e + e1) <= rv (Zpos m * Zpos m2) (e + e2).
Proof.
  intros s m e s1 m1 e1 s2 m2 e2 V V1 V2 H.
  pose proof (mul_pre _ _ _ _ _ _ V V1) as P1. pose proof (mul_pre _ _ _ _ _ _ V V2) as P2.
  rewrite Pos2Z.inj_mul in P1, P2.
  pose proof (valid_finite _ _ _ V1). pose proof (valid_finite _ _ _ V2).
  replace (e + e1) with ((e + emin) + (e1 - emin)) in * by lia.
  replace (e + e2) with ((e + emin) + (e2 - emin)) in * by lia.
  rewrite <- (rv_scale (Zpos m * Zpos m1) (e + emin) (e1 - emin)) by (try lia; assumption).
  rewrite <- (rv_scale (Zpos m * Zpos m2) (e + emin) (e2 - emin)) by (try lia; assumption).
  assert (0 < 2 ^ (e1 - emin)) by (apply Z.pow_pos_nonneg; lia).
  apply rv_mono; [nia|]. rewrite Zdigits_scale by lia.
  replace (Zdigits2 (Zpos m * Zpos m1) + (e1 - emin) + (e + emin))
    with (Zdigits2 (Zpos m * Zpos m1) + (e + emin + (e1 - emin))) by lia. lia.
Qed.
End Format.
