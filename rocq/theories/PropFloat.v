(** Properties of the predefined operators, monoids and semirings over [float] and [double]:
    C105-C109. *)
From Coq Require Import ZArith Lia Floats.SpecFloat.
From Verif Require Import Base ModelFloat SpecFloats ProofRound ProofFloat.
Local Open Scope Z_scope.

(** ** C105: [Min] and [Max] *)

Theorem C105_min_max_monoids : forall t, fmonoid_laws FMinMonoid t /\ fmonoid_laws FMaxMonoid t.
Proof. exact (fun t => conj (min_monoid t) (max_monoid t)). Qed.
Print Assumptions C105_min_max_monoids.

(** The result is one of the operands, and bounds both. *)
Theorem C105_min_max_values : forall t a b, number t a -> number t b ->
  (FMin t a b = a \/ FMin t a b = b) /\ fle (FMin t a b) a /\ fle (FMin t a b) b /\
  (FMax t a b = a \/ FMax t a b = b) /\ fle a (FMax t a b) /\ fle b (FMax t a b).
Proof.
  intros t a b Ha Hb.
  split; [apply min_cases|]. split; [apply (fle_sv t); auto using min_number; rewrite min_sv by auto; lia|].
  split; [apply (fle_sv t); auto using min_number; rewrite min_sv by auto; lia|].
  split; [apply max_cases|].
  split; apply (fle_sv t); auto using max_number; rewrite max_sv by auto; lia.
Qed.
Print Assumptions C105_min_max_values.

Example C105_example :
  let x := of_int CDouble 3 in let y := of_int CDouble (-7) in
  number CDouble x /\ number CDouble y /\ number CDouble fninf /\
  FMin CDouble x y = y /\ FMax CDouble x y = x /\ FMin CDouble fninf x = fninf /\
  FMin CDouble finf y = y /\
  (* the sign of a zero depends on the order of the operands *)
  FMin CDouble (S754_zero false) (S754_zero true) = S754_zero true /\
  FMin CDouble (S754_zero true) (S754_zero false) = S754_zero false /\
  feq (S754_zero true) (S754_zero false).
Proof. repeat split; try discriminate. Qed.

(** ** C106: [Plus], [Minus], [Times] and the unary operators *)

Theorem C106_plus_times_commute : forall t a b,
  FPlus t a b = FPlus t b a /\ FTimes t a b = FTimes t b a.
Proof. exact (fun t a b => conj (plus_comm t a b) (times_comm t a b)). Qed.
Print Assumptions C106_plus_times_commute.

Theorem C106_closed : forall t a b, value t a -> value t b ->
  value t (FPlus t a b) /\ value t (FTimes t a b).
Proof. exact (fun t a b Va Vb => conj (plus_value t a b Va Vb) (times_value t a b Va Vb)). Qed.
Print Assumptions C106_closed.

(** Sums of finite numbers are not NaN. *)
Theorem C106_plus_finite : forall t a b,
  value t a -> value t b -> finite a -> finite b -> number t (FPlus t a b).
Proof. exact (fun t a b Va Vb Fa Fb => proj1 (plus_fin t a b Va Vb Fa Fb)). Qed.
Print Assumptions C106_plus_finite.

(** The identities of [PlusMonoid] and [TimesMonoid]; 0 is one up to the sign of zero. *)
Theorem C106_identities : forall t a, number t a ->
  feq (FPlus t a (fm_id FPlusMonoid t)) a /\ feq (FPlus t (fm_id FPlusMonoid t) a) a /\
  (a <> S754_zero true ->
     FPlus t a (fm_id FPlusMonoid t) = a /\ FPlus t (fm_id FPlusMonoid t) a = a) /\
  FTimes t a (fm_id FTimesMonoid t) = a /\ FTimes t (fm_id FTimesMonoid t) a = a.
Proof.
  intros t a Ha. destruct (plus_zero t a Ha) as (A & B & C). destruct (times_one t a Ha). auto.
Qed.
Print Assumptions C106_identities.

Theorem C106_additive_inverse : forall t a, number t a -> finite a ->
  feq (FPlus t a (FAdditiveInverse t a)) f0 /\ number t (FAdditiveInverse t a) /\
  FAdditiveInverse t (FAdditiveInverse t a) = a /\ (forall b, FMinus t b a = FPlus t b (FAdditiveInverse t a)).
Proof.
  intros t a Ha Fa. split; [exact (plus_opp t a (proj1 Ha) Fa)|].
  split; [now apply opp_number|]. split; [|intros b; apply minus_plus].
  destruct a as [s|s| |s m e]; cbn; now rewrite ?Bool.negb_involutive.
Qed.
Print Assumptions C106_additive_inverse.

Theorem C106_abs : forall t a, number t a ->
  number t (FAbs t a) /\ fle f0 (FAbs t a) /\
  (fle f0 a -> feq (FAbs t a) a) /\ (fle a f0 -> feq (FAbs t a) (FAdditiveInverse t a)).
Proof.
  intros t a Ha. pose proof (abs_number t a Ha) as N. pose proof (f0_number t) as F.
  assert (Z0 : sv t f0 = 0) by reflexivity.
  split; [exact N|]. rewrite !(fle_sv t), !(feq_sv t), Z0, abs_sv, opp_sv by auto using opp_number.
  lia.
Qed.
Print Assumptions C106_abs.

Example C106_example :
  let x := of_int CFloat 16777215 in
  number CFloat x /\ finite x /\ x <> S754_zero true /\
  FPlus CFloat x (of_int CFloat 1) = of_int CFloat 16777216 /\
  FTimes CFloat x (f1 CFloat) = x /\
  FPlus CFloat (S754_zero true) f0 = f0 /\
  FPlus CFloat x (FAdditiveInverse CFloat x) = f0.
Proof. repeat split; try discriminate. Qed.

(** ** C107: integers of at most 2^24 ([float]) or 2^53 ([double]) are computed exactly *)

Theorem C107_exact_integers : forall t a b,
  Z.abs a <= 2 ^ prec t -> Z.abs b <= 2 ^ prec t ->
  number t (of_int t a) /\ finite (of_int t a) /\
  (Z.abs (a + b) <= 2 ^ prec t -> feq (FPlus t (of_int t a) (of_int t b)) (of_int t (a + b))) /\
  (Z.abs (a - b) <= 2 ^ prec t -> feq (FMinus t (of_int t a) (of_int t b)) (of_int t (a - b))) /\
  (Z.abs (a * b) <= 2 ^ prec t -> feq (FTimes t (of_int t a) (of_int t b)) (of_int t (a * b))) /\
  FMin t (of_int t a) (of_int t b) = of_int t (Z.min a b) /\
  FMax t (of_int t a) (of_int t b) = of_int t (Z.max a b).
Proof.
  intros t a b Ha Hb. destruct (int_ok t a Ha) as (N & F & _). destruct (int_minmax t a b Ha Hb).
  repeat split; auto using int_plus, int_minus, int_times; apply N.
Qed.
Print Assumptions C107_exact_integers.

(** Comparisons of such integers; different ones are different numbers. *)
Theorem C107_exact_comparisons : forall t a b,
  Z.abs a <= 2 ^ prec t -> Z.abs b <= 2 ^ prec t ->
  FLessThan (of_int t a) (of_int t b) = (a <? b) /\
  FLessEqual (of_int t a) (of_int t b) = (a <=? b) /\
  FEqual (of_int t a) (of_int t b) = (a =? b).
Proof. exact int_compare. Qed.
Print Assumptions C107_exact_comparisons.

Example C107_example :
  2 ^ prec CDouble = 9007199254740992 /\
  FPlus CDouble (of_int CDouble 9007199254740991) (of_int CDouble 1) =
    of_int CDouble 9007199254740992 /\
  FTimes CDouble (of_int CDouble (-3000000)) (of_int CDouble 2000000) =
    of_int CDouble (-6000000000000) /\
  FLessThan (of_int CDouble (-3)) (of_int CDouble 2) = true.
Proof. repeat split. Qed.

(** ** C108: the laws that fail *)

(** Sums and products depend on the grouping, also of finite numbers. *)
Theorem C108_associativity_refuted :
  (exists a b c, number CDouble a /\ number CDouble b /\ number CDouble c /\
     ~ feq (FPlus CDouble (FPlus CDouble a b) c) (FPlus CDouble a (FPlus CDouble b c))) /\
  (exists a b c, number CDouble a /\ number CDouble b /\ number CDouble c /\
     ~ feq (FTimes CDouble (FTimes CDouble a b) c) (FTimes CDouble a (FTimes CDouble b c))).
Proof.
  split.
  - exists (of_int CDouble (2 ^ 53)), (of_int CDouble 1), (of_int CDouble 1).
    repeat split; discriminate.
  - exists (of_int CDouble (2 ^ 1000)), (of_int CDouble (2 ^ 1000)),
      (S754_finite false (2 ^ 52) (-1052)).
    repeat split; discriminate.
Qed.
Print Assumptions C108_associativity_refuted.

(** [Times] does not distribute over [Plus], nor over [Min] for negative multipliers; and 0
    does not annihilate. *)
Theorem C108_semiring_refuted :
  (exists a b c, number CDouble a /\ number CDouble b /\ number CDouble c /\
     ~ feq (FTimes CDouble a (FPlus CDouble b c))
           (FPlus CDouble (FTimes CDouble a b) (FTimes CDouble a c))) /\
  (exists a b c, number CDouble a /\ number CDouble b /\ number CDouble c /\
     ~ feq (FTimes CDouble a (FMin CDouble b c))
           (FMin CDouble (FTimes CDouble a b) (FTimes CDouble a c))) /\
  (exists a, number CDouble a /\ ~ feq (FTimes CDouble (fs_zero FArithmeticSemiring CDouble) a) f0) /\
  (exists a, number CDouble a /\
     fs_mult FMinPlusSemiring CDouble (fs_zero FMinPlusSemiring CDouble) a = S754_nan) /\
  (exists a, number CDouble a /\
     fs_mult FMinTimesSemiring CDouble (fs_zero FMinTimesSemiring CDouble) a <>
     fs_zero FMinTimesSemiring CDouble).
Proof.
  split.
  { exists (of_int CDouble 3), (of_int CDouble (2 ^ 53)), (of_int CDouble 1).
    repeat split; discriminate. }
  split.
  { exists (of_int CDouble (-1)), (of_int CDouble 1), (of_int CDouble 2).
    repeat split; discriminate. }
  split; [exists finf; repeat split; discriminate|].
  split; [exists fninf; repeat split; discriminate|].
  exists (of_int CDouble (-1)). repeat split; discriminate.
Qed.
Print Assumptions C108_semiring_refuted.

(** With NaN the minimum depends on the order of the operands, and the identity of the monoid
    hides it. *)
Theorem C108_nan_refuted :
  exists a, number CDouble a /\
    FMin CDouble S754_nan a = a /\ FMin CDouble a S754_nan = S754_nan /\
    FMin CDouble S754_nan (fm_id FMinMonoid CDouble) = finf /\
    FMax CDouble S754_nan a = S754_nan /\ FMax CDouble a S754_nan = a.
Proof. exists (of_int CDouble 1). repeat split; discriminate. Qed.
Print Assumptions C108_nan_refuted.

(** The multiplicative inverse of 49 is no inverse. *)
Theorem C108_inverse_refuted :
  exists a, number CDouble a /\ finite a /\ ~ feq a f0 /\
    ~ feq (FTimes CDouble a (FMultiplicativeInverse CDouble a)) (f1 CDouble).
Proof.
  exists (of_int CDouble 49). repeat split; discriminate.
Qed.
Print Assumptions C108_inverse_refuted.

(** ** C109: the semirings that keep their laws *)

Theorem C109_min_max_semirings : forall t,
  fsemiring_laws FMinMaxSemiring t /\ fsemiring_laws FMaxMinSemiring t.
Proof. exact (fun t => conj (minmax_semiring t) (maxmin_semiring t)). Qed.
Print Assumptions C109_min_max_semirings.

(** Rounded addition distributes over [Min] and [Max]. *)
Theorem C109_plus_distributes : forall t,
  (f_left_distributive anything FMinPlusSemiring t /\
   f_right_distributive anything FMinPlusSemiring t) /\
  (f_left_distributive anything FMaxPlusSemiring t /\
   f_right_distributive anything FMaxPlusSemiring t).
Proof. exact (fun t => conj (minplus_dist t) (maxplus_dist t)). Qed.
Print Assumptions C109_plus_distributes.

(** Rounded multiplication by numbers that are not negative does, too. *)
Theorem C109_times_distributes : forall t,
  (f_left_distributive nonnegative FMinTimesSemiring t /\
   f_right_distributive nonnegative FMinTimesSemiring t) /\
  (f_left_distributive nonnegative FMaxTimesSemiring t /\
   f_right_distributive nonnegative FMaxTimesSemiring t).
Proof. exact (fun t => conj (mintimes_dist t) (maxtimes_dist t)). Qed.
Print Assumptions C109_times_distributes.

(** The zero of MinPlus and MaxPlus annihilates all but the opposite infinity. *)
Theorem C109_infinity_annihilates : forall t a, number t a ->
  (a <> fninf -> FPlus t (fs_zero FMinPlusSemiring t) a = fs_zero FMinPlusSemiring t /\
                 FPlus t a (fs_zero FMinPlusSemiring t) = fs_zero FMinPlusSemiring t) /\
  (a <> finf -> FPlus t (fs_zero FMaxPlusSemiring t) a = fs_zero FMaxPlusSemiring t /\
                FPlus t a (fs_zero FMaxPlusSemiring t) = fs_zero FMaxPlusSemiring t).
Proof.
  exact (fun t a Ha => conj (inf_annihilates t false a Ha) (inf_annihilates t true a Ha)).
Qed.
Print Assumptions C109_infinity_annihilates.

Example C109_example :
  let a := of_int CDouble (2 ^ 53) in let b := of_int CDouble 1 in let c := of_int CDouble 3 in
  number CDouble a /\ number CDouble b /\ number CDouble c /\ nonnegative a /\
  FPlus CDouble a b <> S754_nan /\ FPlus CDouble a c <> S754_nan /\
  FPlus CDouble a (FMin CDouble b c) = a /\
  FMin CDouble (FPlus CDouble a b) (FPlus CDouble a c) = a /\
  FTimes CDouble a (FMax CDouble b c) = FMax CDouble (FTimes CDouble a b) (FTimes CDouble a c) /\
  FPlus CDouble finf a = finf.
Proof. repeat split; vm_compute; discriminate. Qed.
