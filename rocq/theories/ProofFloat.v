(** Proofs of the laws of the operators over floating point numbers. *)
From Coq Require Import ZArith Lia Bool Floats.SpecFloat.
From Verif Require Import Base ModelFloat SpecFloats ProofRound.
Local Open Scope Z_scope.

Lemma prec_ok : forall t, 1 < prec t.
Proof. destruct t; cbn; lia. Qed.
Lemma emax_ok : forall t, prec t < emax t.
Proof. destruct t; cbn; lia. Qed.

Definition sv (t : ftype) (x : fval) : Z := sval (prec t) (emax t) x.

Lemma cmp_sv : forall t x y, number t x -> number t y -> SFcompare x y = Some (sv t x ?= sv t y).
Proof.
  intros t x y [Vx Nx] [Vy Ny].
  exact (compare_sval (prec t) (emax t) (prec_ok t) (emax_ok t) x y Vx Vy Nx Ny).
Qed.

Lemma feq_sv : forall t x y, number t x -> number t y -> (feq x y <-> sv t x = sv t y).
Proof.
  intros t x y Hx Hy. unfold feq, SFeqb. rewrite (cmp_sv t) by auto.
  rewrite <- Z.compare_eq_iff. destruct (sv t x ?= sv t y); split; congruence.
Qed.
Lemma fle_sv : forall t x y, number t x -> number t y -> (fle x y <-> sv t x <= sv t y).
Proof.
  intros t x y Hx Hy. unfold fle, SFleb. rewrite (cmp_sv t) by auto.
  unfold Z.le. destruct (sv t x ?= sv t y); split; congruence.
Qed.
Lemma ltb_sv : forall t x y, number t x -> number t y -> SFltb x y = (sv t x <? sv t y).
Proof.
  intros t x y Hx Hy. unfold SFltb, Z.ltb. rewrite (cmp_sv t) by auto.
  destruct (sv t x ?= sv t y); reflexivity.
Qed.
Lemma leb_sv : forall t x y, number t x -> number t y -> SFleb x y = (sv t x <=? sv t y).
Proof.
  intros t x y Hx Hy. unfold SFleb, Z.leb. rewrite (cmp_sv t) by auto.
  destruct (sv t x ?= sv t y); reflexivity.
Qed.
Lemma eqb_sv : forall t x y, number t x -> number t y -> SFeqb x y = (sv t x =? sv t y).
Proof.
  intros t x y Hx Hy. unfold SFeqb. rewrite (cmp_sv t), Z.eqb_compare by auto.
  destruct (sv t x ?= sv t y); reflexivity.
Qed.

(** Equal values are the same number, or two zeros. *)
Lemma sv_inj : forall t x y, number t x -> number t y -> sv t x = sv t y ->
  x = y \/ exists s s', x = S754_zero s /\ y = S754_zero s'.
Proof.
  intros t x y Hx Hy E. pose proof (cmp_sv t x y Hx Hy) as C. rewrite E, Z.compare_refl in C.
  destruct x as [sx|sx| |sx mx ex], y as [sy|sy| |sy my ey]; cbn [SFcompare] in C;
    try discriminate; try (destruct sx; discriminate); try (destruct sy; discriminate).
  - right. eauto.
  - left. destruct sx, sy; try discriminate; reflexivity.
  - left. destruct sx, sy; try discriminate.
    + destruct (Z.compare_spec ex ey); try discriminate.
      destruct (Pcompare mx my Eq) eqn:P; try discriminate. apply Pcompare_Eq_eq in P.
      subst. reflexivity.
    + destruct (Z.compare_spec ex ey); try discriminate.
      destruct (Pcompare mx my Eq) eqn:P; try discriminate. apply Pcompare_Eq_eq in P.
      subst. reflexivity.
Qed.

(** ** [Min] and [Max] *)

Lemma min_cases : forall t a b, FMin t a b = a \/ FMin t a b = b.
Proof. intros t a b. unfold FMin. destruct (SFltb a b); auto. Qed.
Lemma max_cases : forall t a b, FMax t a b = a \/ FMax t a b = b.
Proof. intros t a b. unfold FMax. destruct (SFltb a b); auto. Qed.
Lemma min_number : forall t a b, number t a -> number t b -> number t (FMin t a b).
Proof. intros t a b Ha Hb. destruct (min_cases t a b) as [-> | ->]; auto. Qed.
Lemma max_number : forall t a b, number t a -> number t b -> number t (FMax t a b).
Proof. intros t a b Ha Hb. destruct (max_cases t a b) as [-> | ->]; auto. Qed.
Lemma min_sv : forall t a b, number t a -> number t b -> sv t (FMin t a b) = Z.min (sv t a) (sv t b).
Proof.
  intros t a b Ha Hb. unfold FMin. rewrite (ltb_sv t) by auto.
  destruct (Z.ltb_spec (sv t a) (sv t b)); lia.
Qed.
Lemma max_sv : forall t a b, number t a -> number t b -> sv t (FMax t a b) = Z.max (sv t a) (sv t b).
Proof.
  intros t a b Ha Hb. unfold FMax. rewrite (ltb_sv t) by auto.
  destruct (Z.ltb_spec (sv t a) (sv t b)); lia.
Qed.

Lemma min_comm : forall t, f_commutative FMin t.
Proof.
  intros t a b Ha Hb. apply (feq_sv t); auto using min_number. rewrite !min_sv by auto. lia.
Qed.
Lemma max_comm : forall t, f_commutative FMax t.
Proof.
  intros t a b Ha Hb. apply (feq_sv t); auto using max_number. rewrite !max_sv by auto. lia.
Qed.

Lemma min_assoc : forall t, f_associative FMin t.
Proof.
  intros t a b c Ha Hb Hc. unfold FMin. rewrite (ltb_sv t a b), (ltb_sv t b c) by auto.
  destruct (Z.ltb_spec (sv t a) (sv t b)), (Z.ltb_spec (sv t b) (sv t c));
    rewrite !(ltb_sv t) by auto;
    repeat match goal with |- context [?x <? ?y] => destruct (Z.ltb_spec x y) end; auto; lia.
Qed.
Lemma max_assoc : forall t, f_associative FMax t.
Proof.
  intros t a b c Ha Hb Hc. unfold FMax. rewrite (ltb_sv t a b), (ltb_sv t b c) by auto.
  destruct (Z.ltb_spec (sv t a) (sv t b)), (Z.ltb_spec (sv t b) (sv t c));
    rewrite !(ltb_sv t) by auto;
    repeat match goal with |- context [?x <? ?y] => destruct (Z.ltb_spec x y) end; auto; lia.
Qed.

Lemma inf_number : forall t s, number t (S754_infinity s).
Proof. intros t s. split; [reflexivity|discriminate]. Qed.

Lemma number_bounds : forall t x, number t x ->
  - big (prec t) (emax t) <= sv t x <= big (prec t) (emax t).
Proof.
  intros t x [V N]. pose proof (big_pos (prec t) (emax t) (prec_ok t) (emax_ok t)) as B.
  pose proof (fin_bounds (prec t) (emax t) (prec_ok t) (emax_ok t) x V) as F.
  destruct x as [s|s| |s m e]; try congruence; unfold sv; cbn [sval fin] in *; try lia;
    try (specialize (F eq_refl); lia). destruct s; cbn [sg]; lia.
Qed.

Lemma min_identity : forall t, f_identity FMin finf t.
Proof.
  intros t. split; [apply inf_number|]. intros a Ha.
  pose proof (number_bounds t a Ha) as B. pose proof (inf_number t false) as I.
  unfold FMin. rewrite !(ltb_sv t) by auto. unfold finf.
  assert (E : sv t (S754_infinity false) = big (prec t) (emax t)) by (unfold sv; cbn [sval sg]; lia).
  rewrite E. split.
  - destruct (Z.ltb_spec (big (prec t) (emax t)) (sv t a)); auto; lia.
  - destruct (Z.ltb_spec (sv t a) (big (prec t) (emax t))); auto.
    destruct (sv_inj t a (S754_infinity false) Ha I) as [->|(s & s' & _ & X)]; auto; try discriminate.
    lia.
Qed.
Lemma max_identity : forall t, f_identity FMax fninf t.
Proof.
  intros t. split; [apply inf_number|]. intros a Ha.
  pose proof (number_bounds t a Ha) as B. pose proof (inf_number t true) as I.
  unfold FMax. rewrite !(ltb_sv t) by auto. unfold fninf.
  assert (E : sv t (S754_infinity true) = - big (prec t) (emax t)) by (unfold sv; cbn [sval sg]; lia).
  rewrite E. split.
  - destruct (Z.ltb_spec (- big (prec t) (emax t)) (sv t a)); auto.
    destruct (sv_inj t a (S754_infinity true) Ha I) as [->|(s & s' & _ & X)]; auto; try discriminate.
    lia.
  - destruct (Z.ltb_spec (sv t a) (- big (prec t) (emax t))); auto; lia.
Qed.

Lemma min_monoid : forall t, fmonoid_laws FMinMonoid t.
Proof.
  intros t. split; [|split; [|split]].
  - intros a b. apply min_number.
  - apply min_comm.
  - apply min_assoc.
  - apply min_identity.
Qed.
Lemma max_monoid : forall t, fmonoid_laws FMaxMonoid t.
Proof.
  intros t. split; [|split; [|split]].
  - intros a b. apply max_number.
  - apply max_comm.
  - apply max_assoc.
  - apply max_identity.
Qed.

(** Distributivity of a monotone multiplication over [Min] and [Max]. *)
Lemma min_dist : forall t (f : fval -> fval),
  (forall b c, number t b -> number t c -> f b <> S754_nan -> f c <> S754_nan -> sv t b <= sv t c ->
     sv t (f b) <= sv t (f c)) ->
  (forall b, number t b -> value t (f b)) ->
  forall b c, number t b -> number t c -> f b <> S754_nan -> f c <> S754_nan ->
    feq (f (FMin t b c)) (FMin t (f b) (f c)).
Proof.
  intros t f Mono Val b c Hb Hc Nb Nc.
  assert (Fb : number t (f b)) by (split; auto). assert (Fc : number t (f c)) by (split; auto).
  assert (E : number t (f (FMin t b c))) by (destruct (min_cases t b c) as [-> | ->]; auto).
  apply (feq_sv t); auto using min_number. rewrite min_sv by auto.
  unfold FMin. rewrite (ltb_sv t) by auto. destruct (Z.ltb_spec (sv t b) (sv t c)).
  - pose proof (Mono b c Hb Hc Nb Nc). lia.
  - pose proof (Mono c b Hc Hb Nc Nb). lia.
Qed.
Lemma max_dist : forall t (f : fval -> fval),
  (forall b c, number t b -> number t c -> f b <> S754_nan -> f c <> S754_nan -> sv t b <= sv t c ->
     sv t (f b) <= sv t (f c)) ->
  (forall b, number t b -> value t (f b)) ->
  forall b c, number t b -> number t c -> f b <> S754_nan -> f c <> S754_nan ->
    feq (f (FMax t b c)) (FMax t (f b) (f c)).
Proof.
  intros t f Mono Val b c Hb Hc Nb Nc.
  assert (Fb : number t (f b)) by (split; auto). assert (Fc : number t (f c)) by (split; auto).
  assert (E : number t (f (FMax t b c))) by (destruct (max_cases t b c) as [-> | ->]; auto).
  apply (feq_sv t); auto using max_number. rewrite max_sv by auto.
  unfold FMax. rewrite (ltb_sv t) by auto. destruct (Z.ltb_spec (sv t b) (sv t c)).
  - pose proof (Mono b c Hb Hc Nb Nc). lia.
  - pose proof (Mono c b Hc Hb Nc Nb). lia.
Qed.

(** ** Addition *)

Lemma plus_comm : forall t a b, FPlus t a b = FPlus t b a.
Proof.
  intros t a b. unfold FPlus.
  destruct a as [sx|sx| |sx mx ex], b as [sy|sy| |sy my ey]; cbn [SFadd]; auto.
  - destruct sx, sy; reflexivity.
  - destruct sx, sy; reflexivity.
  - cbv zeta. rewrite (Z.min_comm ey ex). now rewrite Z.add_comm.
Qed.

Lemma plus_value : forall t a b, value t a -> value t b -> value t (FPlus t a b).
Proof.
  intros t a b Va Vb. unfold FPlus.
  destruct a as [sx|sx| |sx mx ex], b as [sy|sy| |sy my ey];
    try (exact (proj1 (add_fin (prec t) (emax t) (prec_ok t) (emax_ok t) _ _ Va Vb eq_refl eq_refl)));
    cbn [SFadd]; auto; try reflexivity.
  destruct (Bool.eqb sx sy); reflexivity.
Qed.

Lemma plus_fin : forall t a b, value t a -> value t b -> finite a -> finite b ->
  number t (FPlus t a b) /\ sv t (FPlus t a b) = Rz (prec t) (emax t) (sv t a + sv t b).
Proof.
  intros t a b Va Vb Fa Fb.
  assert (A : fin a = true) by (destruct a; try contradiction; reflexivity).
  assert (B : fin b = true) by (destruct b; try contradiction; reflexivity).
  destruct (add_fin (prec t) (emax t) (prec_ok t) (emax_ok t) a b Va Vb A B) as (V & N & E).
  split; [split; assumption|exact E].
Qed.

Lemma finite_dec : forall x, finite x \/ x = S754_nan \/ exists s, x = S754_infinity s.
Proof. intros [s|s| |s m e]; cbn; eauto. Qed.

Lemma plus_mono : forall t a b c, number t a -> number t b -> number t c ->
  FPlus t a b <> S754_nan -> FPlus t a c <> S754_nan -> sv t b <= sv t c ->
  sv t (FPlus t a b) <= sv t (FPlus t a c).
Proof.
  intros t a b c Ha Hb Hc Nb Nc H.
  assert (Hab : number t (FPlus t a b)) by (split; auto; apply plus_value; [apply Ha|apply Hb]).
  assert (Hac : number t (FPlus t a c)) by (split; auto; apply plus_value; [apply Ha|apply Hc]).
  pose proof (big_pos (prec t) (emax t) (prec_ok t) (emax_ok t)) as BP.
  pose proof (number_bounds t _ Hab) as B1. pose proof (number_bounds t _ Hac) as B2.
  destruct (finite_dec a) as [Fa|[->|(s & ->)]]; [|destruct Ha; congruence|].
  - destruct (finite_dec b) as [Fb|[->|(s & ->)]]; [|destruct Hb; congruence|];
      (destruct (finite_dec c) as [Fc|[->|(s' & ->)]]; [|destruct Hc; congruence|]).
    + destruct (plus_fin t a b (proj1 Ha) (proj1 Hb) Fa Fb) as [_ ->].
      destruct (plus_fin t a c (proj1 Ha) (proj1 Hc) Fa Fc) as [_ ->].
      apply (Rz_mono (prec t) (emax t) (prec_ok t) (emax_ok t)). lia.
    + assert (E : FPlus t a (S754_infinity s') = S754_infinity s')
        by (destruct a; try contradiction; reflexivity).
      rewrite E in *. destruct s'; [|unfold sv in *; cbn [sval sg] in *; lia].
      pose proof (fin_bounds (prec t) (emax t) (prec_ok t) (emax_ok t) b (proj1 Hb)) as FB.
      assert (fin b = true) by (destruct b; try contradiction; reflexivity).
      specialize (FB ltac:(assumption)). unfold sv in *. cbn [sval sg] in *. lia.
    + assert (E : FPlus t a (S754_infinity s) = S754_infinity s)
        by (destruct a; try contradiction; reflexivity).
      rewrite E in *. destruct s; [unfold sv in *; cbn [sval sg] in *; lia|].
      pose proof (fin_bounds (prec t) (emax t) (prec_ok t) (emax_ok t) c (proj1 Hc)) as FC.
      assert (fin c = true) by (destruct c; try contradiction; reflexivity).
      specialize (FC ltac:(assumption)). unfold sv in *. cbn [sval sg] in *. lia.
    + assert (E : forall s, FPlus t a (S754_infinity s) = S754_infinity s)
        by (intros; destruct a; try contradiction; reflexivity).
      rewrite !E. exact H.
  - assert (X : forall x, FPlus t (S754_infinity s) x <> S754_nan ->
        FPlus t (S754_infinity s) x = S754_infinity s).
    { intros x. unfold FPlus. destruct x as [sx|sx| |sx mx ex]; cbn [SFadd]; try congruence.
      destruct (Bool.eqb s sx) eqn:E; congruence. }
    rewrite !X by auto. lia.
Qed.

(** ** Multiplication *)

Lemma times_comm : forall t a b, FTimes t a b = FTimes t b a.
Proof.
  intros t a b. unfold FTimes.
  destruct a as [sx|sx| |sx mx ex], b as [sy|sy| |sy my ey]; cbn [SFmul]; auto;
    try (rewrite xorb_comm; reflexivity).
  now rewrite xorb_comm, Pos.mul_comm, Z.add_comm.
Qed.

Lemma times_value : forall t a b, value t a -> value t b -> value t (FTimes t a b).
Proof.
  intros t a b Va Vb. unfold FTimes.
  destruct a as [sx|sx| |sx mx ex], b as [sy|sy| |sy my ey]; try reflexivity.
  exact (proj1 (mul_fin (prec t) (emax t) (prec_ok t) (emax_ok t) _ _ _ _ _ _ Va Vb)).
Qed.

Lemma one_eq : forall t, exists m, f1 t = S754_finite false m (1 - prec t) /\
  Zpos m = 2 ^ (prec t - 1).
Proof. intros [|]; eexists; split; vm_compute; reflexivity. Qed.

Lemma one_number : forall t, number t (f1 t).
Proof. intros [|]; split; vm_compute; try reflexivity; discriminate. Qed.

Lemma times_one : forall t a, number t a -> FTimes t a (f1 t) = a /\ FTimes t (f1 t) a = a.
Proof.
  intros t a Ha. rewrite (times_comm t (f1 t) a). split; [|]; 
  (destruct (one_eq t) as (o & Eo & Po); pose proof (one_number t) as [V1 _]; rewrite Eo in *;
   destruct a as [s|s| |s m e];
   [unfold FTimes; cbn [SFmul]; now rewrite xorb_false_r
   |unfold FTimes; cbn [SFmul]; now rewrite xorb_false_r
   |reflexivity
   |]; 
   destruct (mul_fin (prec t) (emax t) (prec_ok t) (emax_ok t) s m e false o (1 - prec t)
     (proj1 Ha) V1) as (V & N & E);
   pose proof (valid_finite (prec t) (emax t) _ _ _ (proj1 Ha)) as Ve;
   pose proof (finite_lt_big (prec t) (emax t) (prec_ok t) (emax_ok t) s m e (proj1 Ha)) as BB;
   assert (K : sv t (FTimes t (S754_finite s m e) (S754_finite false o (1 - prec t))) =
               sv t (S754_finite s m e));
   [|destruct (sv_inj t _ _ (conj V N) Ha K) as [X|(s1 & s2 & _ & X)]; [exact X|discriminate]];
   unfold sv, FTimes; rewrite E; cbn [sval]; rewrite xorb_false_r; f_equal;
   assert (R : rv (prec t) (emax t) (Zpos m * Zpos o) (e + (1 - prec t)) =
               Zpos m * 2 ^ (e - emin (prec t) (emax t)));
   [|rewrite R; lia];
   pose proof (prec_ok t);
   rewrite Po; rewrite rv_scale by (try lia; replace (e + (1 - prec t) + (prec t - 1)) with e by lia;
     cbn [Zdigits2]; unfold fexp; lia);
   replace (e + (1 - prec t) + (prec t - 1)) with e by lia;
   unfold rv; assert (Sh : shift_of (prec t) (emax t) (Zpos m) e = 0)
     by (unfold shift_of; cbn [Zdigits2]; unfold fexp; lia);
   rewrite Sh, rne_0, Z.add_0_r; reflexivity).
Qed.

(** The sign of a number. *)
Lemma times_mono : forall t a b c, number t a -> number t b -> number t c -> nonnegative a ->
  FTimes t a b <> S754_nan -> FTimes t a c <> S754_nan -> sv t b <= sv t c ->
  sv t (FTimes t a b) <= sv t (FTimes t a c).
Proof.
  intros t a b c Ha Hb Hc Pa Nb Nc H.
  pose proof (big_pos (prec t) (emax t) (prec_ok t) (emax_ok t)) as BP.
  assert (F0 : number t f0) by (split; [reflexivity|discriminate]).
  apply (fle_sv t) in Pa; auto. unfold f0 in Pa.
  assert (Z0 : sv t (S754_zero false) = 0) by reflexivity. rewrite Z0 in Pa.
  destruct a as [sa|sa| |sa ma ea]; [| |destruct Ha; congruence|].
  - (* zero times a finite number *)
    assert (X : forall x, FTimes t (S754_zero sa) x <> S754_nan ->
      sv t (FTimes t (S754_zero sa) x) = 0).
    { intros x. unfold FTimes. destruct x; cbn [SFmul]; try congruence; reflexivity. }
    rewrite !X by auto. lia.
  - destruct sa; [unfold sv in Pa; cbn [sval sg] in Pa; lia|].
    unfold FTimes in *.
    destruct b as [sb|sb| |sb mb eb]; cbn [SFmul] in *; try congruence;
      destruct c as [sc|sc| |sc mc ec]; cbn [SFmul] in *; try congruence;
      try pose proof (finite_lt_big (prec t) (emax t) (prec_ok t) (emax_ok t) _ _ _ (proj1 Hb));
      try pose proof (finite_lt_big (prec t) (emax t) (prec_ok t) (emax_ok t) _ _ _ (proj1 Hc));
      unfold sv in *; cbn [sval] in *; destruct sb, sc; cbn [sg xorb] in *; lia.
  - destruct sa.
    { pose proof (finite_lt_big (prec t) (emax t) (prec_ok t) (emax_ok t) _ _ _ (proj1 Ha)).
      unfold sv in Pa. cbn [sval sg] in Pa. lia. }
    assert (RN : forall s m e, number t (S754_finite s m e) ->
       0 <= rv (prec t) (emax t) (Zpos ma * Zpos m) (ea + e)).
    { intros s m e Hm. apply rv_nonneg; try apply prec_ok; try apply emax_ok; try lia.
      exact (mul_pre (prec t) (emax t) (prec_ok t) (emax_ok t) _ _ _ _ _ _ (proj1 Ha) (proj1 Hm)). }
    assert (ME : forall s m e, number t (S754_finite s m e) ->
       sv t (FTimes t (S754_finite false ma ea) (S754_finite s m e)) =
       sg s * Z.min (big (prec t) (emax t)) (rv (prec t) (emax t) (Zpos ma * Zpos m) (ea + e))).
    { intros s m e Hm.
      destruct (mul_fin (prec t) (emax t) (prec_ok t) (emax_ok t) false ma ea s m e
        (proj1 Ha) (proj1 Hm)) as (_ & _ & E). unfold sv, FTimes. rewrite E.
      destruct s; reflexivity. }
    assert (IE : forall s, sv t (FTimes t (S754_finite false ma ea) (S754_infinity s)) =
       sg s * big (prec t) (emax t)) by (intros []; reflexivity).
    assert (ZE : forall s, sv t (FTimes t (S754_finite false ma ea) (S754_zero s)) = 0)
      by (intros []; reflexivity).
    destruct b as [sb|sb| |sb mb eb]; [| |destruct Hb; congruence|];
      (destruct c as [sc|sc| |sc mc ec]; [| |destruct Hc; congruence|]);
      rewrite ?ZE, ?IE;
      try pose proof (finite_lt_big (prec t) (emax t) (prec_ok t) (emax_ok t) _ _ _ (proj1 Hb));
      try pose proof (finite_lt_big (prec t) (emax t) (prec_ok t) (emax_ok t) _ _ _ (proj1 Hc));
      try (rewrite (ME _ _ _ Hb); pose proof (RN _ _ _ Hb));
      try (rewrite (ME _ _ _ Hc); pose proof (RN _ _ _ Hc));
      unfold sv in H; cbn [sval] in H;
      try (destruct sb, sc; cbn [sg] in *; lia);
      try (destruct sb; cbn [sg] in *; lia);
      try (destruct sc; cbn [sg] in *; lia).
    destruct sb, sc; cbn [sg] in *; try lia.
    + pose proof (mul_mono (prec t) (emax t) (prec_ok t) (emax_ok t) _ _ _ _ _ _ _ _ _
        (proj1 Ha) (proj1 Hc) (proj1 Hb) ltac:(lia)). lia.
    + pose proof (mul_mono (prec t) (emax t) (prec_ok t) (emax_ok t) _ _ _ _ _ _ _ _ _
        (proj1 Ha) (proj1 Hb) (proj1 Hc) ltac:(lia)). lia.
Qed.

(** ** Zero, signs *)

Lemma f0_number : forall t, number t f0.
Proof. intros t. split; [reflexivity|discriminate]. Qed.

Lemma plus_zero : forall t a, number t a -> feq (FPlus t a f0) a /\ feq (FPlus t f0 a) a /\
  (a <> S754_zero true -> FPlus t a f0 = a /\ FPlus t f0 a = a).
Proof.
  intros t a Ha. rewrite (plus_comm t f0 a).
  assert (R : feq a a) by (apply (feq_sv t); auto).
  destruct a as [s|s| |s m e]; unfold FPlus, f0; cbn [SFadd]; auto.
  destruct s; cbn [Bool.eqb]; repeat split; auto; congruence.
Qed.

Lemma opp_number : forall t a, number t a -> number t (FAdditiveInverse t a).
Proof.
  intros t a [V N]. unfold FAdditiveInverse.
  destruct a; cbn [SFopp]; try congruence; split; try discriminate; auto.
Qed.
Lemma opp_sv : forall t a, sv t (FAdditiveInverse t a) = - sv t a.
Proof. intros t [s|s| |s m e]; unfold sv, FAdditiveInverse; cbn [SFopp sval]; auto; destruct s; cbn [sg negb]; lia. Qed.
Lemma abs_number : forall t a, number t a -> number t (FAbs t a).
Proof.
  intros t a [V N]. unfold FAbs. destruct a; cbn [SFabs]; try congruence; split; try discriminate; auto.
Qed.
Lemma abs_sv : forall t a, number t a -> sv t (FAbs t a) = Z.abs (sv t a).
Proof.
  intros t a Ha. pose proof (big_pos (prec t) (emax t) (prec_ok t) (emax_ok t)) as BP.
  destruct a as [s|s| |s m e]; unfold sv, FAbs; cbn [SFabs sval]; auto.
  - destruct s; cbn [sg]; lia.
  - pose proof (finite_lt_big (prec t) (emax t) (prec_ok t) (emax_ok t) _ _ _ (proj1 Ha)).
    destruct s; cbn [sg]; lia.
Qed.

Lemma plus_opp : forall t a, value t a -> finite a ->
  feq (FPlus t a (FAdditiveInverse t a)) f0.
Proof.
  intros t a V F.
  assert (Na : number t a) by (split; [exact V|destruct a; try contradiction; discriminate]).
  pose proof (opp_number t a Na) as No.
  assert (Fo : finite (FAdditiveInverse t a)) by (destruct a; try contradiction; exact I).
  destruct (plus_fin t a _ V (proj1 No) F Fo) as [Np E].
  apply (feq_sv t); auto using f0_number. rewrite E, opp_sv, Z.add_opp_diag_r. reflexivity.
Qed.

Lemma minus_plus : forall t a b, FMinus t a b = FPlus t a (FAdditiveInverse t b).
Proof.
  intros t a b. unfold FMinus, FPlus, FAdditiveInverse.
  destruct a as [sx|sx| |sx mx ex], b as [sy|sy| |sy my ey]; cbn [SFsub SFadd SFopp]; auto.
  cbv zeta. f_equal. destruct sy; cbn [cond_Zopp negb]; lia.
Qed.

(** ** Integers *)

Definition unit_of (t : ftype) : Z := 2 ^ (- emin (prec t) (emax t)).

Lemma unit_pos : forall t, 0 < unit_of t.
Proof.
  intros t. apply Z.pow_pos_nonneg; [lia|].
  pose proof (emin_neg (prec t) (emax t) (prec_ok t) (emax_ok t)). lia.
Qed.

Lemma unit_big : forall t, 2 ^ prec t * unit_of t < big (prec t) (emax t).
Proof.
  intros t. unfold unit_of, big. pose proof (emin_neg (prec t) (emax t) (prec_ok t) (emax_ok t)).
  pose proof (prec_ok t). pose proof (emax_ok t).
  rewrite <- Z.pow_add_r by lia. apply Z.pow_lt_mono_r; lia.
Qed.

Lemma rv_int : forall t z, 0 < z <= 2 ^ prec t ->
  rv (prec t) (emax t) (z * unit_of t) (emin (prec t) (emax t)) = z * unit_of t.
Proof.
  intros t z H. unfold unit_of.
  pose proof (emin_neg (prec t) (emax t) (prec_ok t) (emax_ok t)) as EN.
  pose proof (prec_ok t) as PP.
  destruct (Z.eq_dec z (2 ^ prec t)) as [->|NE].
  - replace (2 ^ prec t * 2 ^ (- emin (prec t) (emax t)))
      with (1 * 2 ^ (prec t - emin (prec t) (emax t)))
      by (rewrite Z.mul_1_l, <- Z.pow_add_r by lia; f_equal; lia).
    apply rv_fix; try apply prec_ok; try apply emax_ok; try lia.
    unfold shift_of. rewrite Zdigits_scale by (try apply prec_ok; try apply emax_ok; lia).
    cbn [Zdigits2 digits2_pos]. unfold fexp. lia.
  - apply rv_fix; try apply prec_ok; try apply emax_ok; try lia.
    unfold shift_of. rewrite Zdigits_scale by (try apply prec_ok; try apply emax_ok; lia).
    pose proof (Zdigits_le z (prec t) ltac:(lia) ltac:(lia)). unfold fexp. lia.
Qed.

Lemma Rz_int : forall t z, Z.abs z <= 2 ^ prec t ->
  Rz (prec t) (emax t) (z * unit_of t) = z * unit_of t.
Proof.
  intros t z H. pose proof (unit_pos t) as U. pose proof (unit_big t) as B.
  assert (P : forall y, 0 < y <= 2 ^ prec t ->
    Rz (prec t) (emax t) (y * unit_of t) = y * unit_of t).
  { intros y Hy. rewrite Rz_pos by (try apply prec_ok; try apply emax_ok; nia).
    rewrite rv_int by auto. apply Z.min_r. nia. }
  destruct (Z.lt_trichotomy z 0) as [L|[->|L]].
  - replace (z * unit_of t) with (- (- z * unit_of t)) by lia. rewrite Rz_opp, P by lia. lia.
  - reflexivity.
  - apply P. lia.
Qed.

Lemma int_ok : forall t z, Z.abs z <= 2 ^ prec t ->
  number t (of_int t z) /\ finite (of_int t z) /\ sv t (of_int t z) = z * unit_of t.
Proof.
  intros t z H. pose proof (unit_pos t) as U. pose proof (unit_big t) as B.
  pose proof (emin_neg (prec t) (emax t) (prec_ok t) (emax_ok t)) as EN.
  destruct (normalize_spec (prec t) (emax t) (prec_ok t) (emax_ok t) z 0 false ltac:(lia)) as (V & N & E).
  rewrite Z.sub_0_l in E. fold (unit_of t) in E. rewrite Rz_int in E by auto.
  fold (of_int t z) in *. split; [split; assumption|]. split; [|exact E].
  destruct (of_int t z) as [s|s| |s m e]; try exact I; try congruence.
  cbn [sval] in E. destruct s; cbn [sg] in E; nia.
Qed.

Lemma int_plus : forall t a b, Z.abs a <= 2 ^ prec t -> Z.abs b <= 2 ^ prec t ->
  Z.abs (a + b) <= 2 ^ prec t -> feq (FPlus t (of_int t a) (of_int t b)) (of_int t (a + b)).
Proof.
  intros t a b Ha Hb Hab.
  destruct (int_ok t a Ha) as ([Va Na] & Fa & Ea). destruct (int_ok t b Hb) as ([Vb Nb] & Fb & Eb).
  destruct (int_ok t (a + b) Hab) as (Nab & Fab & Eab).
  destruct (plus_fin t _ _ Va Vb Fa Fb) as [Np Ep].
  apply (feq_sv t); auto. rewrite Ep, Ea, Eb, Eab, <- Z.mul_add_distr_r. now apply Rz_int.
Qed.

Lemma opp_int : forall t z, Z.abs z <= 2 ^ prec t ->
  feq (FAdditiveInverse t (of_int t z)) (of_int t (- z)).
Proof.
  intros t z H. destruct (int_ok t z H) as (N & F & E).
  destruct (int_ok t (- z) ltac:(lia)) as (N' & F' & E').
  apply (feq_sv t); auto using opp_number. rewrite opp_sv, E, E'. lia.
Qed.

Lemma int_minus : forall t a b, Z.abs a <= 2 ^ prec t -> Z.abs b <= 2 ^ prec t ->
  Z.abs (a - b) <= 2 ^ prec t -> feq (FMinus t (of_int t a) (of_int t b)) (of_int t (a - b)).
Proof.
  intros t a b Ha Hb Hab. rewrite minus_plus.
  destruct (int_ok t a Ha) as ([Va Na] & Fa & Ea). destruct (int_ok t b Hb) as (Nb & Fb & Eb).
  pose proof (opp_number t _ Nb) as No. destruct (int_ok t (a - b) Hab) as (Nab & Fab & Eab).
  assert (Fo : finite (FAdditiveInverse t (of_int t b)))
    by (destruct (of_int t b); try contradiction; exact I).
  destruct (plus_fin t _ _ Va (proj1 No) Fa Fo) as [Np Ep].
  apply (feq_sv t); auto. rewrite Ep, Ea, opp_sv, Eb, Eab.
  replace (a * unit_of t + - (b * unit_of t)) with ((a - b) * unit_of t) by lia.
  now apply Rz_int.
Qed.

Lemma pos_factor : forall x u, 0 < u -> 0 < x * u -> 0 < x.
Proof. intros x u Hu H. nia. Qed.
Lemma abs_factor : forall s v a u, 0 < u -> 0 < v -> sg s * v = a * u -> v = Z.abs a * u.
Proof. intros [|] v a u Hu Hv H; cbn [sg] in H; nia. Qed.

Lemma int_times : forall t a b, Z.abs a <= 2 ^ prec t -> Z.abs b <= 2 ^ prec t ->
  Z.abs (a * b) <= 2 ^ prec t -> feq (FTimes t (of_int t a) (of_int t b)) (of_int t (a * b)).
Proof.
  intros t a b Ha Hb Hab. pose proof (unit_pos t) as U. pose proof (unit_big t) as B.
  destruct (int_ok t a Ha) as ([Va Na] & Fa & Ea). destruct (int_ok t b Hb) as ([Vb Nb] & Fb & Eb).
  destruct (int_ok t (a * b) Hab) as (Nab & Fab & Eab).
  assert (K : number t (FTimes t (of_int t a) (of_int t b)) /\
    sv t (FTimes t (of_int t a) (of_int t b)) = a * b * unit_of t).
  2: { destruct K as [Np Ep]. apply (feq_sv t); auto. rewrite Ep, Eab. reflexivity. }
  destruct (of_int t a) as [sa|sa| |sa ma ea]; try contradiction.
  { assert (a = 0) by (unfold sv in Ea; cbn [sval] in Ea; nia). subst a.
    unfold FTimes. destruct (of_int t b); try contradiction; cbn [SFmul];
      (split; [split; [reflexivity|discriminate]|reflexivity]). }
  destruct (of_int t b) as [sb|sb| |sb mb eb]; try contradiction.
  { assert (b = 0) by (unfold sv in Eb; cbn [sval] in Eb; nia). subst b.
    unfold FTimes; cbn [SFmul]. split; [split; [reflexivity|discriminate]|].
    rewrite Z.mul_0_r. reflexivity. }
  destruct (mul_fin (prec t) (emax t) (prec_ok t) (emax_ok t) _ _ _ _ _ _ Va Vb) as (V & N & E).
  split; [split; assumption|]. unfold sv, FTimes. rewrite E.
  pose proof (valid_finite (prec t) (emax t) _ _ _ Va) as Ca.
  pose proof (valid_finite (prec t) (emax t) _ _ _ Vb) as Cb.
  pose proof (mul_pre (prec t) (emax t) (prec_ok t) (emax_ok t) _ _ _ _ _ _ Va Vb) as Pm.
  rewrite Pos2Z.inj_mul in Pm.
  unfold sv in Ea, Eb. cbn [sval] in Ea, Eb.
  set (em := emin (prec t) (emax t)) in *.
  assert (Hem : em < 0) by (apply emin_neg; try apply prec_ok; try apply emax_ok).
  assert (Pa : 0 < 2 ^ (ea - em)) by (apply Z.pow_pos_nonneg; lia).
  assert (Pb : 0 < 2 ^ (eb - em)) by (apply Z.pow_pos_nonneg; lia).
  assert (Aa : Zpos ma * 2 ^ (ea - em) = Z.abs a * unit_of t)
    by (apply (abs_factor sa); [exact U| |exact Ea]; now apply Z.mul_pos_pos).
  assert (Ab : Zpos mb * 2 ^ (eb - em) = Z.abs b * unit_of t)
    by (apply (abs_factor sb); [exact U| |exact Eb]; now apply Z.mul_pos_pos).
  assert (PA : 0 < Z.abs a) by (apply (pos_factor _ (unit_of t)); [exact U|]; rewrite <- Aa; now apply Z.mul_pos_pos).
  assert (PB : 0 < Z.abs b) by (apply (pos_factor _ (unit_of t)); [exact U|]; rewrite <- Ab; now apply Z.mul_pos_pos).
  assert (Pab : 0 < Z.abs (a * b)) by (rewrite Z.abs_mul; now apply Z.mul_pos_pos).
  assert (R : rv (prec t) (emax t) (Zpos ma * Zpos mb) (ea + eb) = Z.abs (a * b) * unit_of t).
  { clear E V N Ea Eb B. pose proof (proj1 Ca) as Ca1. pose proof (proj1 Cb) as Cb1.
    assert (La : 0 <= ea - em) by lia. assert (Lb : 0 <= eb - em) by lia. clear Ca Cb Ca1 Cb1.
    assert (Ee : ea + eb = (em + em) + ((ea - em) + (eb - em))) by lia. rewrite Ee in *.
    rewrite <- rv_scale; [|reflexivity|lia|exact Pm].
    rewrite Z.pow_add_r by assumption.
    assert (Er : Zpos ma * Zpos mb * (2 ^ (ea - em) * 2 ^ (eb - em)) =
                 Z.abs (a * b) * unit_of t * 2 ^ (- em)).
    { transitivity ((Zpos ma * 2 ^ (ea - em)) * (Zpos mb * 2 ^ (eb - em))); [ring|].
      rewrite Aa, Ab, Z.abs_mul. change (2 ^ (- em)) with (unit_of t). ring. }
    rewrite Er. rewrite rv_scale;
      [|now apply Z.mul_pos_pos|lia|].
    - replace (em + em + - em) with em by lia. apply rv_int. split; assumption.
    - replace (em + em + - em) with em by lia. apply fexp_emin. }
  rewrite R. rewrite Z.min_r by (clear - B Hab U; nia).
  clear - Ea Eb U PA PB Aa Ab. rewrite Z.abs_mul.
  assert (Sa : sg sa * Z.abs a = a).
  { rewrite Aa in Ea. rewrite Z.mul_assoc in Ea. apply Z.mul_reg_r in Ea; lia. }
  assert (Sb : sg sb * Z.abs b = b).
  { rewrite Ab in Eb. rewrite Z.mul_assoc in Eb. apply Z.mul_reg_r in Eb; lia. }
  assert (Sx : sg (xorb sa sb) = sg sa * sg sb) by (destruct sa, sb; reflexivity).
  rewrite Sx, Z.mul_assoc. f_equal. rewrite <- Sa, <- Sb at 2. ring.
Qed.

Lemma int_compare : forall t a b, Z.abs a <= 2 ^ prec t -> Z.abs b <= 2 ^ prec t ->
  FLessThan (of_int t a) (of_int t b) = (a <? b) /\
  FLessEqual (of_int t a) (of_int t b) = (a <=? b) /\
  FEqual (of_int t a) (of_int t b) = (a =? b).
Proof.
  intros t a b Ha Hb. pose proof (unit_pos t) as U.
  destruct (int_ok t a Ha) as (Na & _ & Ea). destruct (int_ok t b Hb) as (Nb & _ & Eb).
  unfold FLessThan, FLessEqual, FEqual.
  rewrite (ltb_sv t), (leb_sv t), (eqb_sv t), Ea, Eb by auto.
  repeat split.
  - destruct (Z.ltb_spec a b); [apply Z.ltb_lt|apply Z.ltb_ge]; nia.
  - destruct (Z.leb_spec a b); [apply Z.leb_le|apply Z.leb_gt]; nia.
  - destruct (Z.eqb_spec a b); [apply Z.eqb_eq|apply Z.eqb_neq]; nia.
Qed.

Lemma int_minmax : forall t a b, Z.abs a <= 2 ^ prec t -> Z.abs b <= 2 ^ prec t ->
  FMin t (of_int t a) (of_int t b) = of_int t (Z.min a b) /\
  FMax t (of_int t a) (of_int t b) = of_int t (Z.max a b).
Proof.
  intros t a b Ha Hb. destruct (int_compare t a b Ha Hb) as (L & _). unfold FLessThan in L.
  unfold FMin, FMax. rewrite L. destruct (Z.ltb_spec a b); split; f_equal; lia.
Qed.

(** ** Semirings *)

Lemma minmax_semiring : forall t, fsemiring_laws FMinMaxSemiring t.
Proof.
  intros t. split; [apply min_monoid|]. split; [intros a b; apply max_number|].
  split; [apply max_assoc|]. cbn [fs_mult fs_add FMinMaxSemiring fs_zero fm_op fm_id FMinMonoid].
  assert (D : forall a b c, number t a -> number t b -> number t c ->
    feq (FMax t a (FMin t b c)) (FMin t (FMax t a b) (FMax t a c)) /\
    feq (FMax t (FMin t b c) a) (FMin t (FMax t b a) (FMax t c a))).
  { intros a b c Ha Hb Hc.
    split; apply (feq_sv t); auto using min_number, max_number;
      rewrite ?max_sv, ?min_sv, ?max_sv by auto using min_number, max_number;
      rewrite ?max_sv, ?min_sv by auto using min_number, max_number; lia. }
  split; [|split].
  - intros a b c Ha Hb Hc _ _ _. now apply D.
  - intros a b c Ha Hb Hc _ _ _. now apply D.
  - intros a Ha. pose proof (min_identity t) as [I M]. destruct (M a Ha) as [M1 M2].
    pose proof (number_bounds t a Ha) as B. pose proof (inf_number t false) as In.
    assert (E : sv t finf = big (prec t) (emax t)) by (unfold sv, finf; cbn [sval sg]; lia).
    change (fs_zero FMinMaxSemiring t) with finf. unfold FMax.
    rewrite !(ltb_sv t), E by auto. split.
    + destruct (Z.ltb_spec (big (prec t) (emax t)) (sv t a)); auto; lia.
    + destruct (Z.ltb_spec (sv t a) (big (prec t) (emax t))); auto.
      destruct (sv_inj t a finf Ha I) as [->|(s & s' & _ & X)]; auto; try discriminate. lia.
Qed.

Lemma maxmin_semiring : forall t, fsemiring_laws FMaxMinSemiring t.
Proof.
  intros t. split; [apply max_monoid|]. split; [intros a b; apply min_number|].
  split; [apply min_assoc|]. cbn [fs_mult fs_add FMaxMinSemiring fs_zero fm_op fm_id FMaxMonoid].
  assert (D : forall a b c, number t a -> number t b -> number t c ->
    feq (FMin t a (FMax t b c)) (FMax t (FMin t a b) (FMin t a c)) /\
    feq (FMin t (FMax t b c) a) (FMax t (FMin t b a) (FMin t c a))).
  { intros a b c Ha Hb Hc.
    split; apply (feq_sv t); auto using min_number, max_number;
      rewrite ?min_sv, ?max_sv, ?min_sv by auto using min_number, max_number;
      rewrite ?min_sv, ?max_sv by auto using min_number, max_number; lia. }
  split; [|split].
  - intros a b c Ha Hb Hc _ _ _. now apply D.
  - intros a b c Ha Hb Hc _ _ _. now apply D.
  - intros a Ha. pose proof (max_identity t) as [I M]. destruct (M a Ha) as [M1 M2].
    pose proof (number_bounds t a Ha) as B. pose proof (inf_number t true) as In.
    assert (E : sv t fninf = - big (prec t) (emax t)) by (unfold sv, fninf; cbn [sval sg]; lia).
    change (fs_zero FMaxMinSemiring t) with fninf. unfold FMin.
    rewrite !(ltb_sv t), E by auto. split.
    + destruct (Z.ltb_spec (- big (prec t) (emax t)) (sv t a)); auto.
      destruct (sv_inj t a fninf Ha I) as [->|(s & s' & _ & X)]; auto; try discriminate. lia.
    + destruct (Z.ltb_spec (sv t a) (- big (prec t) (emax t))); auto; lia.
Qed.

Lemma minplus_dist : forall t,
  f_left_distributive anything FMinPlusSemiring t /\ f_right_distributive anything FMinPlusSemiring t.
Proof.
  intros t. assert (D : f_left_distributive anything FMinPlusSemiring t).
  { intros a b c Ha Hb Hc _ N1 N2. cbn [fs_mult fs_add FMinPlusSemiring fm_op FMinMonoid] in *.
    apply (min_dist t (FPlus t a)); auto.
    - intros; apply plus_mono; auto.
    - intros x Hx. apply plus_value; [apply Ha|apply Hx]. }
  split; [exact D|]. intros a b c Ha Hb Hc P N1 N2.
  pose proof (D a b c Ha Hb Hc P) as X. cbn [fs_mult fs_add FMinPlusSemiring fm_op FMinMonoid] in *.
  rewrite (plus_comm t b a), (plus_comm t c a), (plus_comm t _ a) in *. auto.
Qed.
Lemma maxplus_dist : forall t,
  f_left_distributive anything FMaxPlusSemiring t /\ f_right_distributive anything FMaxPlusSemiring t.
Proof.
  intros t. assert (D : f_left_distributive anything FMaxPlusSemiring t).
  { intros a b c Ha Hb Hc _ N1 N2. cbn [fs_mult fs_add FMaxPlusSemiring fm_op FMaxMonoid] in *.
    apply (max_dist t (FPlus t a)); auto.
    - intros; apply plus_mono; auto.
    - intros x Hx. apply plus_value; [apply Ha|apply Hx]. }
  split; [exact D|]. intros a b c Ha Hb Hc P N1 N2.
  pose proof (D a b c Ha Hb Hc P) as X. cbn [fs_mult fs_add FMaxPlusSemiring fm_op FMaxMonoid] in *.
  rewrite (plus_comm t b a), (plus_comm t c a), (plus_comm t _ a) in *. auto.
Qed.
Lemma mintimes_dist : forall t,
  f_left_distributive nonnegative FMinTimesSemiring t /\
  f_right_distributive nonnegative FMinTimesSemiring t.
Proof.
  intros t. assert (D : f_left_distributive nonnegative FMinTimesSemiring t).
  { intros a b c Ha Hb Hc P N1 N2. cbn [fs_mult fs_add FMinTimesSemiring fm_op FMinMonoid] in *.
    apply (min_dist t (FTimes t a)); auto.
    - intros; apply times_mono; auto.
    - intros x Hx. apply times_value; [apply Ha|apply Hx]. }
  split; [exact D|]. intros a b c Ha Hb Hc P N1 N2.
  pose proof (D a b c Ha Hb Hc P) as X. cbn [fs_mult fs_add FMinTimesSemiring fm_op FMinMonoid] in *.
  rewrite (times_comm t b a), (times_comm t c a), (times_comm t _ a) in *. auto.
Qed.
Lemma maxtimes_dist : forall t,
  f_left_distributive nonnegative FMaxTimesSemiring t /\
  f_right_distributive nonnegative FMaxTimesSemiring t.
Proof.
  intros t. assert (D : f_left_distributive nonnegative FMaxTimesSemiring t).
  { intros a b c Ha Hb Hc P N1 N2. cbn [fs_mult fs_add FMaxTimesSemiring fm_op FMaxMonoid] in *.
    apply (max_dist t (FTimes t a)); auto.
    - intros; apply times_mono; auto.
    - intros x Hx. apply times_value; [apply Ha|apply Hx]. }
  split; [exact D|]. intros a b c Ha Hb Hc P N1 N2.
  pose proof (D a b c Ha Hb Hc P) as X. cbn [fs_mult fs_add FMaxTimesSemiring fm_op FMaxMonoid] in *.
  rewrite (times_comm t b a), (times_comm t c a), (times_comm t _ a) in *. auto.
Qed.

Lemma inf_annihilates : forall t s a, number t a -> a <> S754_infinity (negb s) ->
  FPlus t (S754_infinity s) a = S754_infinity s /\ FPlus t a (S754_infinity s) = S754_infinity s.
Proof.
  intros t s a Ha N. rewrite (plus_comm t a). unfold FPlus.
  destruct a as [sa|sa| |sa m e]; cbn [SFadd]; auto; [|destruct Ha; congruence].
  destruct s, sa; cbn [Bool.eqb]; auto; exfalso; apply N; reflexivity.
Qed.
