(** Division of floating point numbers is correctly rounded. *)
From Coq Require Import ZArith QArith Qabs Qpower Lia Lqa Bool Floats.SpecFloat.
From Verif Require Import Base ModelAlgebra ModelOps ModelFloat ModelConv SpecFloats ProofRound ProofFloat SpecConv ProofConv.
Local Open Scope Z_scope.

(** ** A location is what is left of a finer mantissa *)
Lemma shifted_low m q n low : 0 <= n -> 0 <= q -> m = q * 2 ^ (n + 1) + low -> 0 <= low < 2 ^ (n + 1) ->
  shifted m (n + 1) {| shr_m := q; shr_r := 2 ^ n <=? low; shr_s := negb (low mod 2 ^ n =? 0) |}.
Proof.
  intros Hn Hq E L. assert (P : 0 < 2 ^ n) by (apply Z.pow_pos_nonneg; lia).
  assert (P1 : 2 ^ (n + 1) = 2 * 2 ^ n) by (rewrite Z.pow_add_r by lia; lia).
  unfold shifted. cbn [shr_m shr_r shr_s]. replace (n + 1 - 1) with n by lia. split; [|split].
  - rewrite E, Z.add_comm, Z.div_add by lia. rewrite Z.div_small by lia. lia.
  - apply Z.b2z_inj. rewrite Z.testbit_spec' by lia. rewrite E, P1, Z.mul_assoc, Z.add_comm, Z.div_add by lia.
    rewrite Z.mul_comm, Z.add_comm, Z.mul_comm, Z.add_comm.
    destruct (Z.leb_spec (2 ^ n) low) as [G|G].
    + replace (low / 2 ^ n) with 1. { cbn [Z.b2z]. rewrite Z.mod_add by lia. reflexivity. }
      apply (Z.div_unique _ _ _ (low - 2 ^ n)); lia.
    + rewrite Z.div_small by lia. rewrite Z.mod_add by lia. reflexivity.
  - replace (0 <? n + 1) with true by (symmetry; apply Z.ltb_lt; lia). do 2 f_equal.
    rewrite E, P1, Z.mul_assoc, Z.add_comm, Z.mod_add by lia. reflexivity.
Qed.
Lemma shifted_unique m k x y : shifted m k x -> shifted m k y -> x = y.
Proof. destruct x, y. unfold shifted. cbn. intros (-> & -> & ->) (-> & -> & ->). reflexivity. Qed.

Section Aux.
Variables prec emax : Z.
Notation fexp := (fexp prec emax).
Lemma shr_fexp_fine m k q e l : 0 <= m -> 0 <= k -> shifted m k (shr_record_of_loc q l) ->
  e <= fexp (Zdigits2 q + e) -> fexp (Zdigits2 m + (e - k)) = fexp (Zdigits2 q + e) ->
  shr_fexp prec emax q e l = shr_fexp prec emax m (e - k) loc_Exact.
Proof.
  intros Hm Hk S He Ef. destruct (shr_fexp_spec prec emax m (e - k) Hm ltac:(lia)) as [S' E'].
  rewrite (surjective_pairing (shr_fexp prec emax m (e - k) loc_Exact)), E'. rewrite Ef in *.
  unfold shr_fexp at 1, shr. set (f := fexp (Zdigits2 q + e)) in *.
  destruct (f - e) as [|p|p] eqn:D; [| |exfalso; lia].
  - replace (f - (e - k)) with k in S' by lia. rewrite (shifted_unique _ _ _ _ S S'). f_equal. lia.
  - replace (f - (e - k)) with (k + Zpos p) in S' by lia.
    pose proof (iter_pos_ind shr_1 (shifted m) (fun k0 x Hk0 => shr_1_shifted m k0 x Hm Hk0) p k _ Hk S) as U.
    rewrite (shifted_unique _ _ _ _ U S'). f_equal. lia.
Qed.
Lemma round_aux_fine s m k q e l : 0 <= m -> 0 <= k -> shifted m k (shr_record_of_loc q l) ->
  e <= fexp (Zdigits2 q + e) -> fexp (Zdigits2 m + (e - k)) = fexp (Zdigits2 q + e) ->
  binary_round_aux prec emax s q e l = binary_round_aux prec emax s m (e - k) loc_Exact.
Proof. intros. unfold binary_round_aux. rewrite (shr_fexp_fine m k q e l) by auto. reflexivity. Qed.
End Aux.
Lemma round_aux_opp t s m e l :
  binary_round_aux (prec t) (emax t) s m e l =
    (if s then FAdditiveInverse t (binary_round_aux (prec t) (emax t) false m e l) else binary_round_aux (prec t) (emax t) false m e l).
Proof.
  destruct s; [|reflexivity]. unfold binary_round_aux. destruct (shr_fexp _ _ _ _ _) as [mrs' e'].
  destruct (shr_fexp _ _ _ _ _) as [mrs'' e'']. destruct (shr_m mrs''); try reflexivity.
  destruct (Zle_bool _ _); reflexivity.
Qed.

(** ** The same side of every number of the type and of every midpoint *)
Lemma rounds_transfer t D Q x :
  (forall k, (inject_Z k * two ^ (em t - 1) <= D <-> inject_Z k * two ^ (em t - 1) <= Q)%Q) ->
  (forall k, (D <= inject_Z k * two ^ (em t - 1) <-> Q <= inject_Z k * two ^ (em t - 1))%Q) ->
  rounds_to t D x -> rounds_to t Q x.
Proof.
  intros H1 H2 (N & O & K). split; [exact N|].
  assert (R : forall y, value t y -> finite y -> (real y == inject_Z (2 * sv t y) * two ^ (em t - 1))%Q).
  { intros y V F. rewrite (real_sv t y V F), (pow_split _ (em t) (em t - 1)) by lia.
    replace (em t - (em t - 1)) with 1 by lia. rewrite Z.pow_1_r, (Z.mul_comm 2). reflexivity. }
  split.
  - intros y V F. destruct (O y V F) as [A B]. rewrite (R y V F) in *. split; intros L; [apply A|apply B]; [apply H1|apply H2]; exact L.
  - intros F y V Fy. specialize (K F y V Fy). destruct N as [Vx Nx]. rewrite (R x Vx F), (R y V Fy) in *.
    set (a := sv t x) in *. set (b := sv t y) in *. set (u := (two ^ (em t - 1))%Q) in *.
    assert (M : (inject_Z (2 * a) * u + inject_Z (2 * b) * u == 2 * (inject_Z (a + b) * u))%Q).
    { rewrite !inject_Z_mult, inject_Z_plus. change (inject_Z 2) with 2%Q. ring. }
    specialize (H1 (a + b)). specialize (H2 (a + b)). revert K M H1 H2.
    generalize (inject_Z (2 * a) * u)%Q (inject_Z (2 * b) * u)%Q (inject_Z (a + b) * u)%Q. intros p q m K M H1 H2.
    destruct (Qlt_le_dec p q) as [L|L]; [|destruct (Qlt_le_dec q p) as [L'|L']].
    + assert (D <= m)%Q.
      { apply Qnot_lt_le. intros G. revert K. apply Qlt_not_le. apply Qabs_case; intros; apply Qabs_case; intros; lra. }
      assert (Q <= m)%Q by tauto. apply Qabs_case; intros; apply Qabs_case; intros; lra.
    + assert (m <= D)%Q.
      { apply Qnot_lt_le. intros G. revert K. apply Qlt_not_le. apply Qabs_case; intros; apply Qabs_case; intros; lra. }
      assert (m <= Q)%Q by tauto. apply Qabs_case; intros; apply Qabs_case; intros; lra.
    + apply Qabs_case; intros; apply Qabs_case; intros; lra.
Qed.

(** ** The quotient *)
Lemma new_location_record q Y r : 0 < Y -> 0 <= r < Y ->
  shr_record_of_loc q (new_location Y r) =
    {| shr_m := q; shr_r := Y <=? 2 * r; shr_s := negb (r =? 0) && negb (2 * r =? Y) |}.
Proof.
  intros HY Hr. unfold new_location, new_location_even, new_location_odd.
  destruct (Zeq_bool r 0) eqn:Z0.
  - destruct (Z.even Y); rewrite Z0; apply Zeq_bool_eq in Z0; subst r;
      replace (Y <=? 2 * 0) with false by (symmetry; apply Z.leb_gt; lia); reflexivity.
  - pose proof (Zeq_bool_neq _ _ Z0). replace (r =? 0) with false by (symmetry; apply Z.eqb_neq; auto).
    destruct (Z.even Y) eqn:EY.
    + rewrite Z0. cbn [negb andb]. destruct (Z.leb_spec Y (2 * r)), (Z.eqb_spec (2 * r) Y), (Z.compare_spec (2 * r) Y); try lia; reflexivity.
    + assert (NE : 2 * r <> Y) by (intros <-; rewrite Z.even_mul in EY; discriminate).
      rewrite Z0. cbn [negb andb]. destruct (Z.leb_spec Y (2 * r)), (Z.eqb_spec (2 * r) Y), (Z.compare_spec (2 * r + 1) Y); try lia; reflexivity.
Qed.

Lemma fine_low Y r n : 0 < Y -> 0 <= r < Y -> 1 <= n ->
  let low := 2 * (r * 2 ^ n / Y) + (if r * 2 ^ n mod Y =? 0 then 0 else 1) in
  0 <= low < 2 ^ (n + 1) /\ (2 ^ n <=? low) = (Y <=? 2 * r) /\
  negb (low mod 2 ^ n =? 0) = negb (r =? 0) && negb (2 * r =? Y).
Proof.
  intros HY Hr Hn low. assert (P : 0 < 2 ^ (n - 1)) by (apply Z.pow_pos_nonneg; lia).
  assert (P0 : 2 ^ n = 2 * 2 ^ (n - 1)) by (replace n with (1 + (n - 1)) at 1 by lia; rewrite Z.pow_add_r by lia; lia).
  assert (P1 : 2 ^ (n + 1) = 2 * 2 ^ n) by (rewrite Z.pow_add_r by lia; lia).
  pose proof (Z.div_mod (r * 2 ^ n) Y ltac:(lia)) as D. pose proof (Z.mod_pos_bound (r * 2 ^ n) Y HY) as B.
  assert (S : 0 <= (if r * 2 ^ n mod Y =? 0 then 0 else 1) <= 1) by (destruct (_ =? 0); lia).
  assert (S0 : (if r * 2 ^ n mod Y =? 0 then 0 else 1) = 0 <-> r * 2 ^ n mod Y = 0) by (destruct (Z.eqb_spec (r * 2 ^ n mod Y) 0); lia).
  unfold low. clear low. set (st := if r * 2 ^ n mod Y =? 0 then 0 else 1) in *. clearbody st.
  set (F := r * 2 ^ n / Y) in *. set (R := r * 2 ^ n mod Y) in *. clearbody F R.
  set (h := 2 ^ (n - 1)) in *. clearbody h. rewrite P1, P0 in *. clear P0 P1.
  assert (F0 : 0 <= F) by nia.
  assert (F1 : F < 2 * h) by nia.
  split; [lia|]. split.
  { destruct (Z.leb_spec Y (2 * r)).
    - apply Z.leb_le. assert (h <= F); [|lia]. assert (Y * h <= 2 * r * h) by nia. assert (Y * h < Y * (F + 1)) by nia. nia.
    - apply Z.leb_gt. assert (F < h); [|lia]. assert (2 * r * h < Y * h) by nia. nia. }
  destruct (Z.eqb_spec r 0) as [->|Nr].
  { assert (F = 0) by nia. assert (R = 0) by nia. replace (2 * F + st) with 0 by lia. rewrite Z.mod_0_l by lia. reflexivity. }
  cbn [negb andb].
  destruct (Z.lt_ge_cases (2 * r) Y) as [C|C].
  - assert (F < h) by nia. rewrite Z.mod_small by lia. f_equal.
    transitivity false; [apply Z.eqb_neq|symmetry; apply Z.eqb_neq; lia]. intros E.
    assert (F = 0) by lia. assert (R = 0) by lia. nia.
  - assert (h <= F) by (assert (Y * h < Y * (F + 1)) by nia; nia).
    replace (2 * F + st) with (2 * (F - h) + st + 1 * (2 * h)) by lia. rewrite Z.mod_add by lia.
    rewrite Z.mod_small by lia. f_equal.
    destruct (Z.eqb_spec (2 * r) Y) as [E|E].
    + apply Z.eqb_eq. assert (Y * h = Y * F + R) by nia. assert (F = h) by nia. assert (R = 0) by nia. lia.
    + apply Z.eqb_neq. intros Z0. assert (F = h) by lia. assert (R = 0) by lia. nia.
Qed.

(** The exponent the quotient is computed at is small enough. *)
Lemma div_exponent t X ex Y ey q r e : let k := Zpos (digits2_pos X) + ex - (Zpos (digits2_pos Y) + ey) in
  e = Z.min (fexp (prec t) (emax t) k) (ex - ey) -> Zpos X * 2 ^ (ex - ey - e) = Zpos Y * q + r -> 0 <= r < Zpos Y ->
  0 <= q /\ e <= fexp (prec t) (emax t) (Zdigits2 q + e) /\ (q = 0 -> e <= em t).
Proof.
  intros k Ek DM Hr. pose proof (digits_bounds X) as BX. pose proof (digits_bounds Y) as BY. pose proof (prec_ok t) as P1.
  set (d1 := Zpos (digits2_pos X)) in *. set (d2 := Zpos (digits2_pos Y)) in *.
  assert (Ha : 0 <= ex - ey - e) by (clear - Ek; lia).
  assert (Ee : e <= fexp (prec t) (emax t) k) by (clear - Ek; lia).
  set (a := ex - ey - e) in *.
  assert (Ka : k - 1 - e + d2 = d1 - 1 + a) by (clear; unfold k, a; lia).
  assert (Pa : 0 < 2 ^ a) by (apply Z.pow_pos_nonneg; clear - Ha; lia).
  assert (Hd : 0 <= d1 - 1 /\ 0 <= d2) by (unfold d1, d2; clear; lia).
  assert (XP : 0 < Zpos X * 2 ^ a) by (apply Z.mul_pos_pos; [reflexivity|exact Pa]).
  assert (Hq : 0 <= q). { clear - XP DM Hr. apply Z.nlt_ge. intros G. assert (Zpos Y * q <= - Zpos Y) by nia. lia. }
  assert (Hk : 0 <= k - 1 - e -> 2 ^ (k - 1 - e) <= q).
  { intros G. assert (H : 2 ^ (k - 1 - e) * Zpos Y <= Zpos X * 2 ^ a).
    { transitivity (2 ^ (k - 1 - e) * 2 ^ d2).
      - apply Z.mul_le_mono_nonneg_l; [apply Z.pow_nonneg; clear; lia|]. apply Z.lt_le_incl, BY.
      - rewrite <- Z.pow_add_r, Ka, Z.pow_add_r by (clear - G Hd Ha; lia).
        apply Z.mul_le_mono_nonneg_r; [apply Z.lt_le_incl, Pa|apply BX]. }
    rewrite DM in H. clear - H Hr. nia. }
  assert (Sub : k <= e -> e <= em t).
  { clear - Ee P1. unfold fexp in Ee. fold (em t) in Ee. lia. }
  split; [exact Hq|]. split.
  - destruct (Z.le_gt_cases k e) as [G|G].
    + pose proof (fexp_emin (prec t) (emax t) (Zdigits2 q + e)) as F. fold (em t) in F. specialize (Sub G). clear - F Sub. lia.
    + assert (G0 : 0 <= k - 1 - e) by (clear - G; lia). specialize (Hk G0).
      assert (P : 0 < 2 ^ (k - 1 - e)) by (apply Z.pow_pos_nonneg; [reflexivity|exact G0]).
      assert (K : k <= Zdigits2 q + e).
      { destruct q as [|p|p]; [clear - P Hk; lia| |clear - Hq; lia]. cbn [Zdigits2]. pose proof (digits_bounds p) as [_ Bp].
        assert (L : k - 1 - e < Zpos (digits2_pos p)).
        { apply (Z.pow_lt_mono_r_iff 2); [reflexivity|clear; lia|]. clear - Hk Bp. lia. }
        clear - L. lia. }
      clear - K Ee. unfold fexp in *. lia.
  - intros ->. apply Sub. destruct (Z.le_gt_cases k e) as [G|G]; auto. exfalso.
    assert (G0 : 0 <= k - 1 - e) by (clear - G; lia). specialize (Hk G0).
    assert (P : 0 < 2 ^ (k - 1 - e)) by (apply Z.pow_pos_nonneg; [reflexivity|exact G0]). clear - P Hk. lia.
Qed.

(** The finer mantissa has the exponent of the coarser one. *)
Lemma fine_exponent t q e n m low : 0 <= q -> 0 <= n -> m = q * 2 ^ (n + 1) + low -> 0 <= low < 2 ^ (n + 1) -> 0 < m ->
  (q = 0 -> e <= em t) ->
  fexp (prec t) (emax t) (Zdigits2 m + (e - (n + 1))) = fexp (prec t) (emax t) (Zdigits2 q + e).
Proof.
  intros Hq Hn E L Hm Sub. pose proof (prec_ok t) as P1. destruct q as [|p|p]; [| |lia].
  - specialize (Sub eq_refl). assert (D : Zdigits2 m <= n + 1) by (apply Zdigits_le; lia).
    cbn [Zdigits2]. unfold fexp. fold (em t). lia.
  - f_equal. destruct m as [|pm|pm]; try lia. cbn [Zdigits2]. pose proof (digits_bounds p) as Bp.
    assert (D : Zpos (digits2_pos pm) = Zpos (digits2_pos p) + (n + 1)); [|lia].
    apply digits_unique; [lia|]. rewrite E.
    replace (Zpos (digits2_pos p) + (n + 1) - 1) with ((Zpos (digits2_pos p) - 1) + (n + 1)) by lia.
    rewrite (Z.pow_add_r 2 _ (n + 1)), (Z.pow_add_r 2 (Zpos (digits2_pos p)) (n + 1)) by lia.
    set (w := 2 ^ (n + 1)) in *. set (u := 2 ^ (Zpos (digits2_pos p) - 1)) in *. set (v := 2 ^ Zpos (digits2_pos p)) in *.
    clearbody u v w. clear - L Bp. split.
    + assert (u * w <= Zpos p * w) by (apply Z.mul_le_mono_nonneg_r; lia). lia.
    + assert (Zpos p * w + w <= v * w) by (replace (Zpos p * w + w) with ((Zpos p + 1) * w) by ring; apply Z.mul_le_mono_nonneg_r; lia). lia.
Qed.

(** The fraction N / Y and its finer mantissa lie on the same side of every integer. *)
Lemma fine_side N Y J : 0 < Y ->
  let m := 2 * (N / Y) + (if N mod Y =? 0 then 0 else 1) in
  (2 * J <= m <-> J * Y <= N) /\ (m <= 2 * J <-> N <= J * Y).
Proof.
  intros HY m. pose proof (Z.div_mod N Y ltac:(lia)) as D. pose proof (Z.mod_pos_bound N Y HY) as B. unfold m. clear m.
  set (F := N / Y) in *. set (R := N mod Y) in *. clearbody F R. subst N.
  destruct (Z.eqb_spec R 0) as [->|NR]; repeat split; intros; nia.
Qed.

Lemma half_le J m :
  ((inject_Z J <= inject_Z m / 2)%Q <-> 2 * J <= m) /\ ((inject_Z m / 2 <= inject_Z J)%Q <-> m <= 2 * J).
Proof.
  rewrite (Zle_Qle (2 * J) m), (Zle_Qle m (2 * J)), !inject_Z_mult. change (inject_Z 2) with 2%Q.
  generalize (inject_Z J) (inject_Z m). intros p q. assert (q / 2 == q * (1 # 2))%Q as -> by field.
  repeat split; intros; lra.
Qed.

Lemma div_pos t X ex Y ey :
  let '(q, e, l) := SFdiv_core_binary (prec t) (emax t) (Zpos X) ex (Zpos Y) ey in
  rounds_to t (inject_Z (Zpos X) / inject_Z (Zpos Y) * two ^ (ex - ey)) (binary_round_aux (prec t) (emax t) false q e l).
Proof.
  unfold SFdiv_core_binary. cbn [Zdigits2].
  set (e := Z.min (fexp (prec t) (emax t) (Zpos (digits2_pos X) + ex - (Zpos (digits2_pos Y) + ey))) (ex - ey)).
  assert (Ha : 0 <= ex - ey - e) by (unfold e; clear; lia).
  replace (match ex - ey - e with Z0 => Zpos X | Zpos _ => Z.shiftl (Zpos X) (ex - ey - e) | Zneg _ => 0 end) with (Zpos X * 2 ^ (ex - ey - e)).
  2: { rewrite <- Z.shiftl_mul_pow2 by exact Ha. clear - Ha. destruct (ex - ey - e); [reflexivity|reflexivity|lia]. }
  pose proof (Z_div_mod (Zpos X * 2 ^ (ex - ey - e)) (Zpos Y) eq_refl) as DM.
  destruct (Z.div_eucl (Zpos X * 2 ^ (ex - ey - e)) (Zpos Y)) as [q r]. destruct DM as [DM Hr].
  destruct (div_exponent t X ex Y ey q r e eq_refl DM Hr) as (Hq & Hfe & Sub). clearbody e.
  set (a := ex - ey - e) in *.
  set (g := Z.min (em t) e - 1). set (n := e - g). assert (Hn : 1 <= n) by (unfold n, g; clear; lia).
  assert (HY : 0 < Zpos Y) by reflexivity.
  pose proof (fine_low (Zpos Y) r n HY Hr Hn) as L. cbv zeta in L.
  set (low := 2 * (r * 2 ^ n / Zpos Y) + (if r * 2 ^ n mod Zpos Y =? 0 then 0 else 1)) in *.
  destruct L as (L1 & L2 & L3). set (m := q * 2 ^ (n + 1) + low).
  assert (Hn0 : 0 <= n) by (clear - Hn; lia).
  pose proof (shifted_low m q n low Hn0 Hq eq_refl L1) as S.
  rewrite L2, L3, <- (new_location_record q (Zpos Y) r HY Hr) in S. clear L2 L3.
  set (N := Zpos X * 2 ^ (a + n)).
  assert (EF : N = r * 2 ^ n + q * 2 ^ n * Zpos Y).
  { unfold N. rewrite Z.pow_add_r by assumption. rewrite Z.mul_assoc, DM. clear. ring. }
  assert (Em0 : m = 2 * (N / Zpos Y) + (if N mod Zpos Y =? 0 then 0 else 1)).
  { unfold m, low. rewrite EF, Z.div_add, Z.mod_add by discriminate. rewrite Z.pow_add_r by (assumption || discriminate).
    rewrite Z.pow_1_r. clear. generalize (r * 2 ^ n / Zpos Y) (2 ^ n). intros u v. lia. }
  assert (NP : 0 < N).
  { apply Z.mul_pos_pos; [reflexivity|]. apply Z.pow_pos_nonneg; [reflexivity|]. clear - Ha Hn0. lia. }
  assert (Side : forall J, (2 * J <= m <-> J * Zpos Y <= N) /\ (m <= 2 * J <-> N <= J * Zpos Y)).
  { intros J. rewrite Em0. apply fine_side. reflexivity. }
  assert (Hm : 0 < m). { destruct (Side 0) as [_ H]. clear - H NP. lia. }
  pose proof (fine_exponent t q e n m low Hq Hn0 eq_refl L1 Hm Sub) as Ef.
  rewrite (round_aux_fine (prec t) (emax t) false m (n + 1) q e _ (Z.lt_le_incl _ _ Hm) ltac:(clear - Hn0; lia) S Hfe Ef).
  assert (He : e - (n + 1) = g - 1) by (unfold n; clear; lia). rewrite He in *.
  assert (Pre : g - 1 <= fexp (prec t) (emax t) (Zdigits2 m + (g - 1))) by (rewrite Ef; unfold g; clear - Hfe; lia).
  destruct (round_aux_spec (prec t) (emax t) (prec_ok t) (emax_ok t) false m (g - 1) Hm Pre) as (A & B & C & _).
  assert (RD : rounds_to t (inject_Z m * two ^ (g - 1)) (binary_round_aux (prec t) (emax t) false m (g - 1) loc_Exact)).
  { apply rounds_pos; auto; [split; assumption|]. unfold sv. rewrite C. cbn [sg]. apply Z.mul_1_l. }
  assert (YP : (0 < inject_Z (Zpos Y))%Q) by reflexivity.
  assert (EQ : (inject_Z (Zpos X) / inject_Z (Zpos Y) * two ^ (ex - ey) == inject_Z N / inject_Z (Zpos Y) * two ^ g)%Q).
  { assert (HX : ex - ey = a + n + g) by (unfold a, n; clear; lia).
    assert (AN : 0 <= a + n) by (clear - Ha Hn0; lia).
    unfold N. rewrite inject_Z_mult, (Zpower_Qpower 2 (a + n)) by exact AN. change (inject_Z 2) with two.
    rewrite HX, (Qpower_plus two (a + n) g) by discriminate. field. discriminate. }
  assert (GE : g <= em t - 1) by (unfold g; clear; lia).
  assert (DF : (inject_Z m * two ^ (g - 1) == inject_Z m / 2 * two ^ g)%Q).
  { assert (G1 : g = 1 + (g - 1)) by (clear; lia). rewrite G1 at 2. rewrite (Qpower_plus two 1 (g - 1)) by discriminate.
    change (two ^ 1)%Q with two. unfold two. field. }
  apply (rounds_transfer t (inject_Z m * two ^ (g - 1))); [| |exact RD]; intros j;
    rewrite (pow_split j (em t - 1) g GE), DF, EQ; generalize (j * 2 ^ (em t - 1 - g)); intros J;
    rewrite !Qmult_le_r by apply two_pos; destruct (Side J) as [S1 S2]; clear - S1 S2 YP.
  - transitivity (2 * J <= m).
    { apply (half_le J m). }
    rewrite S1, Zle_Qle, inject_Z_mult. split; intros H.
    + apply Qle_shift_div_l; auto.
    + apply Qmult_le_compat_r with (z := inject_Z (Zpos Y)) in H; [|lra].
      setoid_replace (inject_Z N / inject_Z (Zpos Y) * inject_Z (Zpos Y))%Q with (inject_Z N) in H; auto. field. lra.
  - transitivity (m <= 2 * J).
    { apply (half_le J m). }
    rewrite S2, Zle_Qle, inject_Z_mult. split; intros H.
    + apply Qle_shift_div_r; auto.
    + apply Qmult_le_compat_r with (z := inject_Z (Zpos Y)) in H; [|lra].
      setoid_replace (inject_Z N / inject_Z (Zpos Y) * inject_Z (Zpos Y))%Q with (inject_Z N) in H; auto. field. lra.
Qed.

Lemma rounds_sign t (s : bool) q m e l :
  rounds_to t q (binary_round_aux (prec t) (emax t) false m e l) ->
  rounds_to t (inject_Z (sg s) * q) (binary_round_aux (prec t) (emax t) s m e l).
Proof.
  intros H. rewrite round_aux_opp. destruct s; cbn [sg].
  - apply (rounds_eq _ (- q)); [change (inject_Z (-1)) with (-(1))%Q; ring|]. apply rounds_opp; auto.
  - apply (rounds_eq _ q); [change (inject_Z 1) with 1%Q; ring|]. auto.
Qed.

Lemma div_rounds : forall t x y, value t x -> value t y -> finite x -> finite y -> ~ (real y == 0)%Q ->
  rounds_to t (real x / real y) (FDiv t x y).
Proof.
  intros t x y Vx Vy Fx Fy NZ.
  destruct y as [sy|sy| |sy my ey]; try contradiction; [exfalso; apply NZ; reflexivity|].
  destruct x as [sx|sx| |sx mx ex]; try contradiction.
  { cbn [FDiv SFdiv real]. apply (rounds_eq _ 0); [unfold Qdiv; ring|]. apply rounds_zero; [split; [reflexivity|discriminate]|reflexivity]. }
  pose proof (div_pos t mx ex my ey) as D. destruct (SFdiv_core_binary (prec t) (emax t) (Zpos mx) ex (Zpos my) ey) as [[q e] l] eqn:E.
  apply (rounds_sign t (xorb sx sy)) in D. unfold FDiv, SFdiv. rewrite E. revert D. cbn [real]. apply rounds_eq.
  assert (E2 : (two ^ (ex - ey) == two ^ ex / two ^ ey)%Q).
  { unfold Z.sub. rewrite Qpower_plus, Qpower_opp by discriminate. reflexivity. }
  pose proof (two_pos ey) as Pe.
  rewrite E2, !cond_sg, !inject_Z_mult. change (2 # 1)%Q with two.
  destruct sx, sy; cbn [xorb sg]; change (inject_Z (-1)) with (-(1))%Q; change (inject_Z 1) with 1%Q;
    field; (split; [lra|discriminate]) || idtac.
Qed.
