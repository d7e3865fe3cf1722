(** Proofs about the operators of ModelOps.v. *)
From Coq Require Import Lia ZArith Bool.
From Verif Require Import Base ModelAlgebra SpecAlgebra ProofLaws ModelOps SpecOps2.
Local Open Scope Z_scope.

Lemma arith_ok : forall t z, inty t z -> arith (promote t) z = Ok z \/
  (exists w, promote t = CInt false w /\ arith (promote t) z = Ok (wrapu w z)).
Proof.
  intros t z H.
  assert (C : inty (promote t) z).
  { destruct t as [|[|] []]; unfold inty in *; cbn in *; lia. }
  destruct (promote t) as [|[|] w]; unfold arith.
  - destruct C as [H1 H2]. apply Z.leb_le in H1; apply Z.leb_le in H2. rewrite H1, H2. auto.
  - destruct C as [H1 H2]. apply Z.leb_le in H1; apply Z.leb_le in H2. rewrite H1, H2. auto.
  - right. eauto.
Qed.

(** Arithmetic whose exact result is a value of the type. *)
Lemma arith_exact : forall t z, inty t z -> arith t z = Ok z.
Proof.
  intros [|[|] w] z H; unfold arith.
  - destruct H as [H1 H2]. apply Z.leb_le in H1; apply Z.leb_le in H2. rewrite H1, H2. auto.
  - destruct H as [H1 H2]. apply Z.leb_le in H1; apply Z.leb_le in H2. rewrite H1, H2. auto.
  - f_equal. exact (convert_id (CInt false w) z H).
Qed.

Lemma inty_promote : forall t z, inty t z -> inty (promote t) z.
Proof. intros [|[|] []] z H; unfold inty in *; cbn in *; lia. Qed.

Lemma common_same : forall t, common t t = promote t.
Proof. intros [|[|] []]; reflexivity. Qed.

Lemma inty_common : forall t1 t2 a b,
  inty t1 a -> inty t2 b -> compatible t1 t2 a b ->
  inty (common t1 t2) a /\ inty (common t1 t2) b.
Proof.
  intros t1 t2 a b Ha Hb [[Pa Pb]|[N1 N2]].
  - destruct t1 as [|[|] []], t2 as [|[|] []]; unfold inty in *; cbn in *; lia.
  - assert (S1 : forall w w', t1 = CInt false w -> t2 = CInt true w' -> 32 <= bits w ->
        bits w' <= bits w -> False) by (intros w w' -> -> ? ?; apply N1; exists w, w'; auto).
    assert (S2 : forall w w', t2 = CInt false w -> t1 = CInt true w' -> 32 <= bits w ->
        bits w' <= bits w -> False) by (intros w w' -> -> ? ?; apply N2; exists w, w'; auto).
    clear N1 N2.
    destruct t1 as [|[|] []], t2 as [|[|] []];
      try (exfalso; eapply S1; try reflexivity; cbn; lia);
      try (exfalso; eapply S2; try reflexivity; cbn; lia);
      unfold inty in *; cbn in *; lia.
Qed.

Lemma same_compatible : forall t a b, inty t a -> inty t b -> compatible t t a b.
Proof.
  intros t a b _ _. right. split; intros (w & w' & E & F & _); congruence.
Qed.

(** What the converted operators compute on compatible values. *)
Lemma pure3_ok : forall f t1 t2 t3 a b,
  inty t1 a -> inty t2 b -> compatible t1 t2 a b ->
  pure3 f t1 t2 t3 a b = Ok (convert t3 (f (common t1 t2) a b)).
Proof.
  intros f t1 t2 t3 a b Ha Hb C. unfold pure3. cbv zeta.
  destruct (inty_common _ _ _ _ Ha Hb C) as [A B].
  now rewrite (convert_id _ a A), (convert_id _ b B).
Qed.

Lemma pure3_same : forall f t a b, inty t a -> inty t b ->
  pure3 f t t t a b = Ok (convert t (f (promote t) a b)).
Proof.
  intros f t a b Ha Hb. rewrite pure3_ok by auto using same_compatible. now rewrite common_same.
Qed.

Lemma convert_ofbool : forall t b, convert t (ofbool b) = ofbool b.
Proof. intros t b. apply convert_id. apply ofbool_inty. Qed.

(** An exact result that fits. *)
Lemma fits_common : forall t1 t2 a b z,
  inty t1 a -> inty t2 b -> compatible t1 t2 a b -> (0 <= a -> 0 <= b -> 0 <= z) ->
  inty t1 z \/ inty t2 z -> inty (common t1 t2) z.
Proof.
  intros t1 t2 a b z Ha Hb [[Pa Pb]|[N1 N2]] Pz Hz.
  - specialize (Pz Pa Pb).
    destruct t1 as [|[|] []], t2 as [|[|] []]; unfold inty in *; cbn in *; lia.
  - destruct Hz as [Hz|Hz].
    + exact (proj1 (inty_common t1 t2 z b Hz Hb (or_intror (conj N1 N2)))).
    + exact (proj2 (inty_common t1 t2 a z Ha Hz (or_intror (conj N1 N2)))).
Qed.

Lemma arith3_ok : forall f t1 t2 t3 a b,
  inty t1 a -> inty t2 b -> compatible t1 t2 a b ->
  inty (common t1 t2) (f a b) -> inty t3 (f a b) -> arith3 f t1 t2 t3 a b = Ok (f a b).
Proof.
  intros f t1 t2 t3 a b Ha Hb C Hc H3. unfold arith3. cbv zeta.
  destruct (inty_common _ _ _ _ Ha Hb C) as [A B].
  rewrite (convert_id _ a A), (convert_id _ b B).
  rewrite arith_exact by auto. cbn [bind]. now rewrite convert_id by auto.
Qed.

(** ** Unary operators *)

Lemma inverse_ok : forall s w x, inty (CInt s w) x ->
  (exact_type (CInt s w) -> x <> tmin (CInt s w)) ->
  exists y, AdditiveInverse (CInt s w) (CInt s w) x = Ok y /\ inty (CInt s w) y /\
    Plus (CInt s w) x y = Ok 0 /\ Plus (CInt s w) y x = Ok 0 /\
    AdditiveInverse (CInt s w) (CInt s w) y = Ok x.
Proof.
  intros s w x Hx Hm. set (t := CInt s w) in *.
  assert (D : forall z r, arith (promote t) z = Ok r -> convert t r = convert t z)
    by (intros; now apply arith_convert).
  assert (E1 : exists r, arith (promote t) (- x) = Ok r).
  { destruct s.
    - destruct w; try (eexists; apply arith_exact; unfold inty in *; cbn in *; lia);
        (eexists; apply arith_exact; specialize (Hm ltac:(unfold exact_type; auto));
         unfold inty in *; cbn in *; lia).
    - destruct w; try (eexists; apply arith_exact; unfold inty in *; cbn in *; lia);
        cbn; eauto. }
  destruct E1 as (r & E1). exists (convert t r). unfold AdditiveInverse. rewrite E1. cbn [bind].
  pose proof (D _ _ E1) as C.
  assert (I : inty t (convert t r)) by apply convert_inty.
  assert (Y : convert t r = - x \/ (~ exact_type t /\ convert t r = convert t (- x))).
  { destruct s; [|right; split; auto; intros [e|e]; discriminate].
    destruct w; try (right; split; auto; intros [e|e]; discriminate);
      (left; rewrite C; apply convert_id;
       specialize (Hm ltac:(unfold exact_type; auto)); unfold inty in *; cbn in *; lia). }
  assert (P : exists q, arith (promote t) (x + convert t r) = Ok q).
  { destruct Y as [->|[N _]].
    - replace (x + - x) with 0 by lia. eexists. apply arith_exact. apply inty_promote.
      apply convert_range_0.
    - destruct (Plus_total t N x (convert t r) Hx I) as (c & K).
      unfold Plus in K. destruct (arith (promote t) (x + convert t r)); try discriminate. eauto. }
  destruct P as (q & P).
  assert (Q : convert t q = 0).
  { rewrite (D _ _ P), C. rewrite Z.add_comm.
    unfold t. rewrite conv_plus. replace (- x + x) with 0 by lia.
    apply convert_id. apply convert_range_0. }
  assert (J : exists q', arith (promote t) (- convert t r) = Ok q').
  { destruct Y as [->|[N _]].
    - rewrite Z.opp_involutive. eexists. apply arith_exact. now apply inty_promote.
    - revert I. generalize (convert t r). intros v I.
      destruct s, w; try (exfalso; apply N; unfold exact_type; subst t; auto; fail);
        try (eexists; apply arith_exact; unfold inty in *; cbn in *; lia); cbn; eauto. }
  destruct J as (q' & J). split; [reflexivity|]. split; [exact I|].
  unfold Plus. rewrite P. cbn [bind]. rewrite Q.
  rewrite (Z.add_comm (convert t r) x), P. cbn [bind]. rewrite Q.
  rewrite J. cbn [bind]. repeat split; auto. f_equal.
  rewrite (D _ _ J), C. rewrite <- (convert_id t x Hx) at 2. unfold t. apply convert_eq_iff.
  rewrite <- !Z.sub_0_l, Zminus_mod, convert_mod, <- Zminus_mod. f_equal. lia.
Qed.

Lemma abs_ok : forall t x, inty t x -> (tmin t < 0 -> x <> tmin t) -> Abs t t x = Ok (Z.abs x).
Proof.
  intros t x Hx Hm. unfold Abs, my_abs.
  assert (I : inty t (Z.abs x)).
  { destruct t as [|[|] w]; unfold inty, tmin, tmax in *; try lia. }
  destruct t as [|[|] w].
  - cbn [bind]. unfold inty in Hx. cbn in Hx. rewrite Z.abs_eq by lia. f_equal. now apply convert_id.
  - rewrite arith_exact by now apply inty_promote. cbn [bind]. f_equal. now apply convert_id.
  - cbn [bind]. destruct Hx as [L H]. unfold tmin in L. rewrite Z.abs_eq by lia. f_equal.
    apply convert_id. split; assumption.
Qed.

Lemma conv_lnot : forall s w z,
  convert (CInt s w) (Z.lnot (convert (CInt s w) z)) = convert (CInt s w) (Z.lnot z).
Proof.
  intros s w z. apply convert_eq_iff. unfold Z.lnot. rewrite <- !Z.sub_1_r.
  rewrite <- !Z.sub_0_l, Zminus_mod. rewrite (Zminus_mod 0 (convert _ z)), convert_mod.
  rewrite <- (Zminus_mod 0 z). now rewrite <- Zminus_mod.
Qed.

Lemma complement_promote : forall s w x,
  convert (CInt s w) (complement (promote (CInt s w)) x) = convert (CInt s w) (Z.lnot x).
Proof.
  intros s w x. unfold complement. apply convert_eq_iff.
  assert (E : exists s' w', promote (CInt s w) = CInt s' w' /\ bits w <= bits w').
  { destruct s, w; cbn; do 2 eexists; split; try reflexivity; cbn; lia. }
  destruct E as (s' & w' & -> & L).
  assert (M : forall z, z mod 2 ^ bits w = (z mod 2 ^ bits w') mod 2 ^ bits w).
  { intros z. pose proof (bits_pos w).
    apply Znumtheory.Zmod_div_mod; try (apply Z.pow_pos_nonneg; lia).
    exists (2 ^ (bits w' - bits w)). rewrite <- Z.pow_add_r by lia. f_equal. lia. }
  rewrite (M (convert _ _)), convert_mod, <- M. reflexivity.
Qed.

Lemma not_ok : forall s w x, inty (CInt s w) x ->
  exists y, BitwiseNot (CInt s w) (CInt s w) x = Ok y /\ inty (CInt s w) y /\
    (x + y + 1) mod 2 ^ bits w = 0 /\ BitwiseNot (CInt s w) (CInt s w) y = Ok x.
Proof.
  intros s w x Hx. unfold BitwiseNot. rewrite complement_promote.
  exists (convert (CInt s w) (Z.lnot x)). split; [reflexivity|]. split; [apply convert_inty|].
  split.
  - rewrite <- Z.add_assoc, (Z.add_comm _ 1), Z.add_assoc. rewrite Zplus_mod, convert_mod, <- Zplus_mod.
    unfold Z.lnot. replace (x + 1 + Z.pred (- x)) with 0 by lia. apply Z.mod_0_l.
    pose proof (modulus_pos (CInt s w)) as P. cbn in P. lia.
  - f_equal. rewrite complement_promote, conv_lnot, Z.lnot_involutive. now apply convert_id.
Qed.

Lemma reciprocal_ok : forall t x, inty t x ->
  MultiplicativeInverse t t x =
  if x =? 0 then UB else Ok (if Z.abs x =? 1 then x else 0).
Proof.
  intros t x Hx. unfold MultiplicativeInverse, quotient. rewrite common_same.
  rewrite (convert_id t 1) by apply convert_range_1.
  rewrite (convert_id (promote t) 1) by apply convert_range_1.
  rewrite (convert_id (promote t) x) by now apply inty_promote.
  destruct (x =? 0) eqn:E0; [reflexivity|]. apply Z.eqb_neq in E0.
  assert (Q : Z.quot 1 x = if Z.abs x =? 1 then x else 0).
  { destruct (Z.abs x =? 1) eqn:E1.
    - apply Z.eqb_eq in E1. assert (x = 1 \/ x = -1) as [-> | ->] by lia; reflexivity.
    - apply Z.eqb_neq in E1. apply Z.quot_small_iff; [lia|].  lia. }
  rewrite Q.
  assert (I : inty t (if Z.abs x =? 1 then x else 0)).
  { destruct (Z.abs x =? 1); auto. apply convert_range_0. }
  rewrite arith_exact by now apply inty_promote. cbn [bind]. f_equal. now apply convert_id.
Qed.

(** ** Bitwise operators *)

(** A value of a type: all bits above its width are equal to the sign. *)
Lemma inty_shiftr : forall s w z,
  inty (CInt s w) z <->
  Z.shiftr z (bits w - (if s then 1 else 0)) = 0 \/
  (s = true /\ Z.shiftr z (bits w - (if s then 1 else 0)) = -1).
Proof.
  intros s w z. pose proof (bits_pos w) as B. pose proof (half_pos w) as H.
  rewrite Z.shiftr_div_pow2 by (destruct s; lia).
  destruct s; unfold inty, tmin, tmax.
  - set (h := 2 ^ (bits w - 1)) in *. clearbody h.
    pose proof (Z.div_mod z h ltac:(lia)) as D. pose proof (Z.mod_pos_bound z h H) as M.
    set (q := z / h) in *. clearbody q.
    split; [intros I|intros [E|[_ E]]; rewrite E in D; lia].
    assert (-1 <= q <= 0) by nia. lia.
  - rewrite Z.sub_0_r. set (h := 2 ^ bits w) in *.
    assert (0 < h) by (unfold h; apply Z.pow_pos_nonneg; lia). clearbody h.
    split.
    + intros I. left. apply Z.div_small. lia.
    + intros [E|[E _]]; [|discriminate]. apply Z.div_small_iff in E; lia.
Qed.

Lemma bitop_inty : forall (f : Z -> Z -> Z),
  (forall a b n, Z.shiftr (f a b) n = f (Z.shiftr a n) (Z.shiftr b n)) ->
  f 0 0 = 0 -> (forall a b, (a = 0 \/ a = -1) -> (b = 0 \/ b = -1) -> f a b = 0 \/ f a b = -1) ->
  forall t a b, inty t a -> inty t b ->
    (forall x y, (x = 0 \/ x = 1) -> (y = 0 \/ y = 1) -> f x y = 0 \/ f x y = 1) -> inty t (f a b).
Proof.
  intros f F F0 F1 [|s w] a b Ha Hb Fb.
  - apply inty_bool in Ha. apply inty_bool in Hb. destruct (Fb a b Ha Hb) as [-> | ->];
      unfold inty; cbn; lia.
  - apply inty_shiftr in Ha. apply inty_shiftr in Hb. apply inty_shiftr. rewrite F.
    destruct s.
    + destruct (F1 (Z.shiftr a (bits w - 1)) (Z.shiftr b (bits w - 1))); try tauto.
    + left. destruct Ha as [-> |[? _]]; [|discriminate]. destruct Hb as [-> |[? _]]; [auto|discriminate].
Qed.

Lemma lor_inty : forall t a b, inty t a -> inty t b -> inty t (Z.lor a b).
Proof.
  intros t a b Ha Hb. apply bitop_inty; auto.
  - intros; apply Z.shiftr_lor.
  - intros x y [-> | ->] [-> | ->]; cbn; auto.
  - intros x y [-> | ->] [-> | ->]; cbn; auto.
Qed.
Lemma land_inty : forall t a b, inty t a -> inty t b -> inty t (Z.land a b).
Proof.
  intros t a b Ha Hb. apply bitop_inty; auto.
  - intros; apply Z.shiftr_land.
  - intros x y [-> | ->] [-> | ->]; cbn; auto.
  - intros x y [-> | ->] [-> | ->]; cbn; auto.
Qed.
Lemma lxor_inty : forall t a b, inty t a -> inty t b -> inty t (Z.lxor a b).
Proof.
  intros t a b Ha Hb. apply bitop_inty; auto.
  - intros; apply Z.shiftr_lxor.
  - intros x y [-> | ->] [-> | ->]; cbn; auto.
  - intros x y [-> | ->] [-> | ->]; cbn; auto.
Qed.

Lemma bor_eq : forall t a b, inty t a -> inty t b -> BitwiseOr t t t a b = Ok (Z.lor a b).
Proof.
  intros t a b Ha Hb. unfold BitwiseOr. rewrite pure3_same by auto. f_equal.
  apply convert_id. now apply lor_inty.
Qed.
Lemma band_eq : forall t a b, inty t a -> inty t b -> BitwiseAnd t t t a b = Ok (Z.land a b).
Proof.
  intros t a b Ha Hb. unfold BitwiseAnd. rewrite pure3_same by auto. f_equal.
  apply convert_id. now apply land_inty.
Qed.
Lemma bxor_eq : forall t a b, inty t a -> inty t b -> BitwiseXor t t t a b = Ok (Z.lxor a b).
Proof.
  intros t a b Ha Hb. unfold BitwiseXor. rewrite pure3_same by auto. f_equal.
  apply convert_id. now apply lxor_inty.
Qed.
Lemma bxnor_eq : forall s w a b, inty (CInt s w) a -> inty (CInt s w) b ->
  BitwiseXnor (CInt s w) (CInt s w) (CInt s w) a b = Ok (convert (CInt s w) (Z.lnot (Z.lxor a b))).
Proof.
  intros s w a b Ha Hb. unfold BitwiseXnor. rewrite pure3_same by auto. f_equal.
  apply complement_promote.
Qed.

Lemma testbit_mod : forall x y n i, 0 <= i < n -> x mod 2 ^ n = y mod 2 ^ n ->
  Z.testbit x i = Z.testbit y i.
Proof.
  intros x y n i H E.
  rewrite <- (Z.mod_pow2_bits_low x n i), <- (Z.mod_pow2_bits_low y n i) by lia. now rewrite E.
Qed.

Lemma bitwise_bits : forall t a b, inty t a -> inty t b ->
  exists o n x, BitwiseOr t t t a b = Ok o /\ BitwiseAnd t t t a b = Ok n /\
    BitwiseXor t t t a b = Ok x /\ inty t o /\ inty t n /\ inty t x /\
    forall i, 0 <= i ->
      Z.testbit o i = Z.testbit a i || Z.testbit b i /\
      Z.testbit n i = Z.testbit a i && Z.testbit b i /\
      Z.testbit x i = xorb (Z.testbit a i) (Z.testbit b i).
Proof.
  intros t a b Ha Hb. exists (Z.lor a b), (Z.land a b), (Z.lxor a b).
  rewrite bor_eq, band_eq, bxor_eq by auto.
  repeat split; auto using lor_inty, land_inty, lxor_inty;
    try apply lor_inty; try apply land_inty; try apply lxor_inty; auto.
  - apply Z.lor_spec.
  - apply Z.land_spec.
  - apply Z.lxor_spec.
Qed.

Lemma not_bits : forall s w x, inty (CInt s w) x ->
  exists y, BitwiseNot (CInt s w) (CInt s w) x = Ok y /\ inty (CInt s w) y /\
    forall i, 0 <= i < bits w -> Z.testbit y i = negb (Z.testbit x i).
Proof.
  intros s w x Hx. unfold BitwiseNot. rewrite complement_promote. eexists.
  split; [reflexivity|]. split; [apply convert_inty|]. intros i Hi.
  rewrite <- Z.lnot_spec by lia. eapply testbit_mod; [exact Hi|]. apply convert_mod.
Qed.

Lemma xnor_bits : forall s w a b, inty (CInt s w) a -> inty (CInt s w) b ->
  exists y, BitwiseXnor (CInt s w) (CInt s w) (CInt s w) a b = Ok y /\ inty (CInt s w) y /\
    forall i, 0 <= i < bits w -> Z.testbit y i = Bool.eqb (Z.testbit a i) (Z.testbit b i).
Proof.
  intros s w a b Ha Hb. rewrite bxnor_eq by auto. eexists.
  split; [reflexivity|]. split; [apply convert_inty|]. intros i Hi.
  rewrite (testbit_mod _ (Z.lnot (Z.lxor a b)) (bits w) i Hi) by apply convert_mod.
  rewrite Z.lnot_spec, Z.lxor_spec by lia. now destruct (Z.testbit a i), (Z.testbit b i).
Qed.

Lemma all_ones_inty : forall t, inty t (all_ones t).
Proof. intros [|[|] []]; unfold inty; cbn; lia. Qed.

Lemma land_ones : forall t a, inty t a -> Z.land (all_ones t) a = a.
Proof.
  intros [|[|] w] a H.
  - apply inty_bool in H. destruct H as [-> | ->]; reflexivity.
  - apply Z.land_m1_l.
  - cbn [all_ones]. rewrite Z.land_comm, Z.sub_1_r, <- Z.ones_equiv, Z.land_ones
      by (pose proof (bits_pos w); lia). exact (convert_id (CInt false w) a H).
Qed.

(** ** The laws of the bitwise operators *)

Lemma bitwise_laws : forall t,
  monoid_laws (mkMonoid (fun t => BitwiseOr t t t) (fun _ => 0)) t /\
  monoid_laws (mkMonoid (fun t => BitwiseAnd t t t) all_ones) t /\
  monoid_laws (mkMonoid (fun t => BitwiseXor t t t) (fun _ => 0)) t.
Proof.
  intros t. unfold monoid_laws, closed, commutative, associative, is_identity. cbn [m_op m_id].
  repeat match goal with |- _ /\ _ => split end; try apply convert_range_0; try apply all_ones_inty.
  - intros a b c Ha Hb. rewrite bor_eq by auto. intros [= <-]. now apply lor_inty.
  - intros a b Ha Hb. rewrite !bor_eq by auto. now rewrite Z.lor_comm.
  - intros a b c ab bc x y Ha Hb Hc E1 E2 E3 E4. rewrite bor_eq in E1, E3 by auto.
    injection E1 as <-. injection E3 as <-. rewrite bor_eq in E2, E4 by auto using lor_inty.
    injection E2 as <-. injection E4 as <-. symmetry. apply Z.lor_assoc.
  - intros a Ha. rewrite !bor_eq by auto using convert_range_0. now rewrite Z.lor_0_r.
  - intros a b c Ha Hb. rewrite band_eq by auto. intros [= <-]. now apply land_inty.
  - intros a b Ha Hb. rewrite !band_eq by auto. now rewrite Z.land_comm.
  - intros a b c ab bc x y Ha Hb Hc E1 E2 E3 E4. rewrite band_eq in E1, E3 by auto.
    injection E1 as <-. injection E3 as <-. rewrite band_eq in E2, E4 by auto using land_inty.
    injection E2 as <-. injection E4 as <-. symmetry. apply Z.land_assoc.
  - intros a Ha. rewrite !band_eq by auto using all_ones_inty.
    rewrite (Z.land_comm a), land_ones by auto. auto.
  - intros a b c Ha Hb. rewrite bxor_eq by auto. intros [= <-]. now apply lxor_inty.
  - intros a b Ha Hb. rewrite !bxor_eq by auto. now rewrite Z.lxor_comm.
  - intros a b c ab bc x y Ha Hb Hc E1 E2 E3 E4. rewrite bxor_eq in E1, E3 by auto.
    injection E1 as <-. injection E3 as <-. rewrite bxor_eq in E2, E4 by auto using lxor_inty.
    injection E2 as <-. injection E4 as <-. apply Z.lxor_assoc.
  - intros a Ha. rewrite !bxor_eq by auto using convert_range_0. now rewrite Z.lxor_0_r.
Qed.

(** ** Comparisons *)

Lemma compare_ok : forall t1 t2 t3 a b,
  inty t1 a -> inty t2 b -> compatible t1 t2 a b ->
  Equal t1 t2 t3 a b = Ok (if a =? b then 1 else 0) /\
  NotEqual t1 t2 t3 a b = Ok (if a =? b then 0 else 1) /\
  LessThan t1 t2 t3 a b = Ok (if a <? b then 1 else 0) /\
  GreaterThan t1 t2 t3 a b = Ok (if b <? a then 1 else 0) /\
  LessEqual t1 t2 t3 a b = Ok (if a <=? b then 1 else 0) /\
  GreaterEqual t1 t2 t3 a b = Ok (if b <=? a then 1 else 0).
Proof.
  intros t1 t2 t3 a b Ha Hb C.
  unfold Equal, NotEqual, LessThan, GreaterThan, LessEqual, GreaterEqual.
  rewrite !pure3_ok by auto. rewrite !convert_ofbool.
  repeat split; auto. destruct (a =? b); reflexivity.
Qed.

(** ** Division *)

Lemma quot_inty : forall t a b, inty t a -> b <> 0 -> (tmin t < 0 -> a <> tmin t \/ b <> -1) ->
  (inty t b) -> inty t (Z.quot a b).
Proof.
  intros t a b Ha Hb Hm Ib.
  pose proof (Z.quot_rem' a b) as D. pose proof (Z.rem_bound_abs a b Hb) as M.
  pose proof (Z.quot_abs a b Hb) as Q.
  assert (K : b = -1 \/ b = 1 \/ 2 <= Z.abs b) by lia.
  assert (R : Z.abs (Z.quot a b) <= Z.abs a).
  { rewrite <- Q. apply Z.quot_le_upper_bound; nia. }
  destruct t as [|[|] w]; unfold inty, tmin, tmax in *.
  - assert (0 <= Z.quot a b) by (apply Z.quot_pos; lia). lia.
  - pose proof (half_pos w) as P. set (h := 2 ^ (bits w - 1)) in *. clearbody h.
    destruct K as [-> |[-> |K]].
    + rewrite Z.quot_opp_r with (b := 1), Z.quot_1_r by lia. specialize (Hm ltac:(lia)). lia.
    + rewrite Z.quot_1_r. lia.
    + assert (Z.abs (Z.quot a b) * 2 <= Z.abs a).
      { rewrite <- Q. pose proof (Z.mul_quot_le (Z.abs a) (Z.abs b) ltac:(lia) ltac:(lia)). 
        assert (0 <= Z.quot (Z.abs a) (Z.abs b)) by (apply Z.quot_pos; lia). nia. }
      lia.
  - assert (0 <= Z.quot a b) by (apply Z.quot_pos; lia). lia.
Qed.

Lemma div_eq : forall t a b, inty t a -> inty t b -> b <> 0 ->
  (tmin t < 0 -> a <> tmin t \/ b <> -1) -> Div t t t a b = Ok (Z.quot a b).
Proof.
  intros t a b Ha Hb Nb Hm. unfold Div, quotient. cbv zeta. rewrite common_same.
  rewrite (convert_id _ a), (convert_id _ b) by now apply inty_promote.
  apply Z.eqb_neq in Nb. rewrite Nb. apply Z.eqb_neq in Nb.
  pose proof (quot_inty t a b Ha Nb Hm Hb) as I.
  rewrite arith_exact by now apply inty_promote. cbn [bind]. f_equal. now apply convert_id.
Qed.

Lemma quot_truncated : forall a b, b <> 0 -> truncated_division a b (Z.quot a b).
Proof.
  intros a b Hb. exists (Z.rem a b). split; [apply Z.quot_rem'|].
  split; [now apply Z.rem_bound_abs|]. destruct (Z.eq_dec (Z.rem a b) 0); auto.
  right. now apply Z.rem_sign_nz.
Qed.

(** ** Three domains *)

Lemma mixed_ok : forall t1 t2 t3 a b,
  inty t1 a -> inty t2 b -> compatible t1 t2 a b ->
  (inty t3 (a + b) -> inty t1 (a + b) \/ inty t2 (a + b) -> Plus3 t1 t2 t3 a b = Ok (a + b)) /\
  (inty t3 (a * b) -> inty t1 (a * b) \/ inty t2 (a * b) -> Times3 t1 t2 t3 a b = Ok (a * b)) /\
  (inty t3 (a - b) -> 0 <= a - b \/ a < 0 \/ b < 0 -> inty t1 (a - b) \/ inty t2 (a - b) ->
     Minus3 t1 t2 t3 a b = Ok (a - b)) /\
  (inty t3 (Z.min a b) -> Min3 t1 t2 t3 a b = Ok (Z.min a b)) /\
  (inty t3 (Z.max a b) -> Max3 t1 t2 t3 a b = Ok (Z.max a b)).
Proof.
  intros t1 t2 t3 a b Ha Hb C. repeat split.
  - intros H3 H12. apply arith3_ok; auto. apply (fits_common t1 t2 a b); auto. lia.
  - intros H3 H12. apply arith3_ok; auto. apply (fits_common t1 t2 a b); auto. nia.
  - intros H3 P H12. apply arith3_ok; auto. apply (fits_common t1 t2 a b); auto. lia.
  - intros H3. unfold Min3. rewrite pure3_ok by auto.
    rewrite <- (convert_id t3 (Z.min a b)) by auto. do 2 f_equal.
    destruct (Z.ltb_spec a b); lia.
  - intros H3. unfold Max3. rewrite pure3_ok by auto.
    rewrite <- (convert_id t3 (Z.max a b)) by auto. do 2 f_equal.
    destruct (Z.ltb_spec a b); lia.
Qed.

Lemma same_types : forall t a b, inty t a -> inty t b ->
  Plus3 t t t a b = Plus t a b /\ Minus3 t t t a b = Minus t a b /\
  Times3 t t t a b = Times t a b /\ Min3 t t t a b = Min t a b /\ Max3 t t t a b = Max t a b /\
  First3 t t t a b = First t a b /\ Second3 t t t a b = Second t a b.
Proof.
  intros t a b Ha Hb. unfold Plus3, Minus3, Times3, arith3, Min3, Max3. cbv zeta.
  rewrite !common_same, !pure3_same by auto.
  rewrite (convert_id (promote t) a), (convert_id (promote t) b) by now apply inty_promote.
  unfold First3, Second3, First, Second, Min, Max.
  repeat split; f_equal; try (now apply convert_id);
    (destruct (a <? b); now apply convert_id).
Qed.
