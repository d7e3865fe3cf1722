(** Proofs of the monoid and semiring laws of the predefined operators. *)
From Verif Require Import Base ModelAlgebra SpecAlgebra.
From Coq Require Import Lia ZArith.
Local Open Scope Z_scope.

Arguments Min : simpl never.
Arguments Max : simpl never.
Arguments Plus : simpl never.
Arguments Times : simpl never.

Lemma bits_pos : forall w, 8 <= bits w.
Proof. destruct w; cbn; lia. Qed.

Definition modulus (t : ctype) : Z := match t with CBool => 2 | CInt _ w => 2 ^ bits w end.

Lemma modulus_pos : forall t, 0 < modulus t.
Proof. destruct t as [|s w]; cbn; [lia|]. pose proof (bits_pos w). apply Z.pow_pos_nonneg; lia. Qed.

Lemma pow_half : forall w, 2 ^ bits w = 2 * 2 ^ (bits w - 1).
Proof. intros w. pose proof (bits_pos w). rewrite <- Z.pow_succ_r by lia. f_equal. lia. Qed.

Lemma half_pos : forall w, 0 < 2 ^ (bits w - 1).
Proof. intros w. pose proof (bits_pos w). apply Z.pow_pos_nonneg; lia. Qed.

Lemma convert_inty : forall t z, inty t (convert t z).
Proof.
  intros [|[|] w] z; unfold inty, tmin, tmax, convert.
  - destruct (z =? 0); lia.
  - unfold wraps. pose proof (half_pos w) as H. pose proof (pow_half w) as E.
    pose proof (Z.mod_pos_bound (z + 2 ^ (bits w - 1)) (2 ^ bits w)). lia.
  - unfold wrapu. pose proof (Z.mod_pos_bound z (2 ^ bits w)).
    pose proof (modulus_pos (CInt false w)). cbn in *. lia.
Qed.

Lemma convert_id : forall t z, inty t z -> convert t z = z.
Proof.
  intros [|[|] w] z; unfold inty, tmin, tmax, convert; intros H.
  - destruct (z =? 0) eqn:E; lia.
  - unfold wraps. pose proof (pow_half w). rewrite Z.mod_small by lia. lia.
  - unfold wrapu. apply Z.mod_small. lia.
Qed.

Lemma convert_mod : forall s w z, convert (CInt s w) z mod 2 ^ bits w = z mod 2 ^ bits w.
Proof.
  intros [|] w z; cbn [convert]; pose proof (modulus_pos (CInt true w)) as P; cbn in P.
  - unfold wraps. rewrite Zminus_mod, Z.mod_mod, <- Zminus_mod by lia. f_equal. lia.
  - unfold wrapu. apply Z.mod_mod. lia.
Qed.

Lemma convert_eq_iff : forall s w x y,
  x mod 2 ^ bits w = y mod 2 ^ bits w -> convert (CInt s w) x = convert (CInt s w) y.
Proof.
  intros [|] w x y H; cbn [convert]; [|exact H].
  unfold wraps. rewrite (Zplus_mod x), (Zplus_mod y), H. reflexivity.
Qed.

(** What a defined result of the arithmetic operators is. *)
Lemma arith_convert : forall t z r, arith (promote t) z = Ok r -> convert t r = convert t z.
Proof.
  intros [|s w] z r H.
  - cbn [promote] in H. unfold arith in H.
    destruct ((tmin (CInt true W32) <=? z) && (z <=? tmax (CInt true W32))); congruence.
  - assert (A : forall t', arith t' z = Ok r -> t' = CInt s w \/ t' = CInt true W32 ->
                convert (CInt s w) r = convert (CInt s w) z).
    { intros t' E [->| ->].
      - destruct s; unfold arith in E.
        + destruct ((tmin (CInt true w) <=? z) && (z <=? tmax (CInt true w))); congruence.
        + injection E as <-. apply convert_eq_iff. apply (convert_mod false).
      - unfold arith in E.
        destruct ((tmin (CInt true W32) <=? z) && (z <=? tmax (CInt true W32))); congruence. }
    apply (A _ H). destruct s, w; cbn; auto.
Qed.

Lemma bind_ok_inv : forall {A B} (x : res A) (f : A -> res B) c,
  bind x f = Ok c -> exists a, x = Ok a /\ f a = Ok c.
Proof. intros A B [a| |] f c H; try discriminate. exists a. auto. Qed.

Lemma Plus_eq : forall t a b c, Plus t a b = Ok c -> c = convert t (a + b).
Proof.
  intros t a b c H. destruct (bind_ok_inv _ _ _ H) as (r & E & F).
  injection F as <-. apply arith_convert; auto.
Qed.
Lemma Times_eq : forall t a b c, Times t a b = Ok c -> c = convert t (a * b).
Proof.
  intros t a b c H. destruct (bind_ok_inv _ _ _ H) as (r & E & F).
  injection F as <-. apply arith_convert; auto.
Qed.

(** Conversion commutes with + and *. *)
Lemma conv_plus : forall s w x y, convert (CInt s w) (convert (CInt s w) x + y) = convert (CInt s w) (x + y).
Proof.
  intros. apply convert_eq_iff. rewrite Zplus_mod, convert_mod, <- Zplus_mod. reflexivity.
Qed.
Lemma conv_plus2 : forall s w x y,
  convert (CInt s w) (convert (CInt s w) x + convert (CInt s w) y) = convert (CInt s w) (x + y).
Proof.
  intros. rewrite conv_plus, Z.add_comm, conv_plus, Z.add_comm. reflexivity.
Qed.
Lemma conv_times : forall s w x y, convert (CInt s w) (convert (CInt s w) x * y) = convert (CInt s w) (x * y).
Proof.
  intros. apply convert_eq_iff. rewrite Zmult_mod, convert_mod, <- Zmult_mod. reflexivity.
Qed.

Lemma inty_bool : forall z, inty CBool z -> z = 0 \/ z = 1.
Proof. unfold inty, tmin, tmax. lia. Qed.

(** ** Monoids *)

Lemma convert_range_0 : forall t, inty t 0.
Proof.
  intros [|[|] w]; unfold inty, tmin, tmax; try lia; pose proof (half_pos w);
    pose proof (modulus_pos (CInt false w)); cbn in *; lia.
Qed.
Lemma convert_range_1 : forall t, inty t 1.
Proof. intros [|[|] []]; unfold inty; cbn; lia. Qed.

(** A value of the type is computed without overflow. *)
Lemma arith_inty : forall t z, inty t z -> exists r, arith (promote t) z = Ok r.
Proof.
  intros t z H.
  assert (C : forall t', inty t' z -> exists r, arith t' z = Ok r).
  { intros [|[|] w] H'; unfold arith; eauto;
      (destruct H' as [H1 H2]; apply Z.leb_le in H1; apply Z.leb_le in H2; rewrite H1, H2; cbn; eauto). }
  apply C. destruct t as [|[|] []]; unfold inty in *; cbn in *; lia.
Qed.

Lemma Plus_0 : forall t a, inty t a -> Plus t 0 a = Ok a /\ Plus t a 0 = Ok a.
Proof.
  intros t a H. unfold Plus. rewrite Z.add_0_r, Z.add_0_l.
  destruct (arith_inty t a H) as (r & E). rewrite E. cbn [bind].
  rewrite (arith_convert _ _ _ E), convert_id by auto. auto.
Qed.
Lemma Times_1 : forall t a, inty t a -> Times t 1 a = Ok a /\ Times t a 1 = Ok a.
Proof.
  intros t a H. unfold Times. rewrite Z.mul_1_r, Z.mul_1_l.
  destruct (arith_inty t a H) as (r & E). rewrite E. cbn [bind].
  rewrite (arith_convert _ _ _ E), convert_id by auto. auto.
Qed.
Lemma Times_0 : forall t a, Times t 0 a = Ok 0 /\ Times t a 0 = Ok 0.
Proof.
  intros t a. unfold Times. rewrite Z.mul_0_r, Z.mul_0_l.
  destruct (arith_inty t 0 (convert_range_0 t)) as (r & E). rewrite E. cbn [bind].
  rewrite (arith_convert _ _ _ E), convert_id by apply convert_range_0. auto.
Qed.

Lemma Plus_closed : forall t, closed Plus t.
Proof. intros t a b c _ _ H. rewrite (Plus_eq _ _ _ _ H). apply convert_inty. Qed.
Lemma Times_closed : forall t, closed Times t.
Proof. intros t a b c _ _ H. rewrite (Times_eq _ _ _ _ H). apply convert_inty. Qed.
Lemma Plus_comm : forall t, commutative Plus t.
Proof. intros t a b _ _. unfold Plus. rewrite Z.add_comm. reflexivity. Qed.
Lemma Times_comm : forall t, commutative Times t.
Proof. intros t a b _ _. unfold Times. rewrite Z.mul_comm. reflexivity. Qed.

Ltac bools :=
  repeat match goal with
    | H : inty CBool _ |- _ => apply inty_bool in H; destruct H; subst
    end.

Lemma Plus_assoc : forall t, associative Plus t.
Proof.
  intros [|s w] a b c ab bc x y Ha Hb Hc H1 H2 H3 H4;
    apply Plus_eq in H1; apply Plus_eq in H2; apply Plus_eq in H3; apply Plus_eq in H4; subst.
  - bools; reflexivity.
  - rewrite conv_plus, (Z.add_comm a (convert _ _)), conv_plus. f_equal. lia.
Qed.
Lemma Times_assoc : forall t, associative Times t.
Proof.
  intros [|s w] a b c ab bc x y Ha Hb Hc H1 H2 H3 H4;
    apply Times_eq in H1; apply Times_eq in H2; apply Times_eq in H3; apply Times_eq in H4; subst.
  - bools; reflexivity.
  - rewrite conv_times, (Z.mul_comm a (convert _ _)), conv_times. f_equal. lia.
Qed.

Lemma Min_eq : forall t a b c, Min t a b = Ok c -> c = Z.min a b.
Proof. unfold Min. intros t a b c H. injection H as <-. destruct (a <? b) eqn:E; lia. Qed.
Lemma Max_eq : forall t a b c, Max t a b = Ok c -> c = Z.max a b.
Proof. unfold Max. intros t a b c H. injection H as <-. destruct (a <? b) eqn:E; lia. Qed.
Lemma Min_val : forall t a b, Min t a b = Ok (Z.min a b).
Proof. unfold Min. intros t a b. f_equal. destruct (a <? b) eqn:E; lia. Qed.
Lemma Max_val : forall t a b, Max t a b = Ok (Z.max a b).
Proof. unfold Max. intros t a b. f_equal. destruct (a <? b) eqn:E; lia. Qed.

Lemma tmin_le_tmax : forall t, tmin t <= tmax t.
Proof. intros t. pose proof (convert_range_0 t). unfold inty in *. lia. Qed.

Lemma PlusMonoid_ok : forall t, monoid_laws PlusMonoid t.
Proof.
  intros t. split; [apply Plus_closed|split; [apply Plus_comm|split; [apply Plus_assoc|]]].
  cbn. rewrite convert_id by apply convert_range_0.
  split; [apply convert_range_0|apply Plus_0].
Qed.
Lemma TimesMonoid_ok : forall t, monoid_laws TimesMonoid t.
Proof.
  intros t. split; [apply Times_closed|split; [apply Times_comm|split; [apply Times_assoc|]]].
  cbn. rewrite convert_id by apply convert_range_1.
  split; [apply convert_range_1|apply Times_1].
Qed.
Ltac minmax :=
  repeat match goal with
    | H : _ = Ok _ |- _ => first [apply Min_eq in H | apply Max_eq in H]
    end; subst; unfold inty in *; try lia.
Lemma MinMonoid_ok : forall t, monoid_laws MinMonoid t.
Proof.
  intros t. pose proof (tmin_le_tmax t). split; [|split; [|split]]; cbn.
  - intros a b c Ha Hb E. minmax.
  - intros a b Ha Hb. rewrite !Min_val. f_equal. lia.
  - intros a b c ab bc x y Ha Hb Hc H1 H2 H3 H4. minmax.
  - split; [unfold inty; lia|]. intros a Ha. rewrite !Min_val. unfold inty in *. split; f_equal; lia.
Qed.
Lemma MaxMonoid_ok : forall t, monoid_laws MaxMonoid t.
Proof.
  intros t. pose proof (tmin_le_tmax t). split; [|split; [|split]]; cbn.
  - intros a b c Ha Hb E. minmax.
  - intros a b Ha Hb. rewrite !Max_val. f_equal. lia.
  - intros a b c ab bc x y Ha Hb Hc H1 H2 H3 H4. minmax.
  - split; [unfold inty; lia|]. intros a Ha. rewrite !Max_val. unfold inty in *. split; f_equal; lia.
Qed.

(** Logical operators: they only look at [istrue]. *)
Lemma istrue_ofbool : forall b, istrue (ofbool b) = b.
Proof. destruct b; reflexivity. Qed.
Lemma ofbool_inty : forall t b, inty t (ofbool b).
Proof. intros t [|]; [apply convert_range_1|apply convert_range_0]. Qed.

Lemma logical_ok : forall (f : bool -> bool -> bool) (op : binop) t,
  (forall t a b, op t a b = Ok (ofbool (f (istrue a) (istrue b)))) ->
  (forall a b, f a b = f b a) -> (forall a b c, f (f a b) c = f a (f b c)) ->
  closed op t /\ commutative op t /\ associative op t.
Proof.
  intros f op t E C A. split; [|split].
  - intros a b c _ _ H. rewrite E in H. injection H as <-. apply ofbool_inty.
  - intros a b _ _. rewrite !E, C. reflexivity.
  - intros a b c ab bc x y _ _ _ H1 H2 H3 H4. rewrite E in *.
    injection H1 as <-; injection H2 as <-; injection H3 as <-; injection H4 as <-.
    rewrite !istrue_ofbool, A. reflexivity.
Qed.

Definition fxor (a b : bool) := ((a && negb b) || (negb a && b))%bool.
Definition fxnor (a b : bool) := ((a && b) || (negb a && negb b))%bool.

Lemma or_ok : forall t, closed LogicalOr t /\ commutative LogicalOr t /\ associative LogicalOr t.
Proof. intros t. apply (logical_ok orb); [reflexivity| |]; intros [|] [|]; try intros [|]; reflexivity. Qed.
Lemma and_ok : forall t, closed LogicalAnd t /\ commutative LogicalAnd t /\ associative LogicalAnd t.
Proof. intros t. apply (logical_ok andb); [reflexivity| |]; intros [|] [|]; try intros [|]; reflexivity. Qed.
Lemma xor_ok : forall t, closed LogicalXor t /\ commutative LogicalXor t /\ associative LogicalXor t.
Proof. intros t. apply (logical_ok fxor); [reflexivity| |]; intros [|] [|]; try intros [|]; reflexivity. Qed.
Lemma xnor_ok : forall t, closed LogicalXnor t /\ commutative LogicalXnor t /\ associative LogicalXnor t.
Proof. intros t. apply (logical_ok fxnor); [reflexivity| |]; intros [|] [|]; try intros [|]; reflexivity. Qed.

Ltac bool_id := split; [cbn; unfold inty; cbn; lia|];
  intros a Ha; bools; split; reflexivity.
Lemma logical_monoids_ok :
  monoid_laws LogicalOrMonoid CBool /\ monoid_laws LogicalAndMonoid CBool /\
  monoid_laws LogicalXorMonoid CBool /\ monoid_laws LogicalXnorMonoid CBool.
Proof.
  split; [|split; [|split]];
    (split; [first [apply or_ok|apply and_ok|apply xor_ok|apply xnor_ok]|]);
    (split; [first [apply or_ok|apply and_ok|apply xor_ok|apply xnor_ok]|]);
    (split; [first [apply or_ok|apply and_ok|apply xor_ok|apply xnor_ok]|]);
    bool_id.
Qed.

(** ** Semirings *)

Lemma Arithmetic_dist : forall t,
  left_distributive ArithmeticSemiring t /\ right_distributive ArithmeticSemiring t.
Proof.
  intros t. split; intros a b c bc ab ac x y Ha Hb Hc H1 H2 H3 H4 H5; cbn in *;
    apply Plus_eq in H1; apply Times_eq in H2; apply Times_eq in H3; apply Times_eq in H4;
    apply Plus_eq in H5; subst; destruct t as [|s w].
  - bools; reflexivity.
  - rewrite conv_plus2, Z.mul_comm, conv_times. f_equal. lia.
  - bools; reflexivity.
  - rewrite conv_plus2, conv_times. f_equal. lia.
Qed.

Lemma Arithmetic_annih : forall t,
  left_annihilates ArithmeticSemiring t /\ right_annihilates ArithmeticSemiring t.
Proof.
  intros t. unfold left_annihilates, right_annihilates, s_zero. cbn.
  rewrite convert_id by apply convert_range_0. split; intros; apply Times_0.
Qed.

(** Without wrap-around. *)
Lemma exact_Plus : forall t a b c, exact_type t -> Plus t a b = Ok c -> c = a + b.
Proof.
  intros t a b c X H. rewrite (Plus_eq _ _ _ _ H). apply convert_id.
  destruct (bind_ok_inv _ _ _ H) as (r & E & _).
  assert (P : promote t = t) by (destruct X as [->| ->]; reflexivity). rewrite P in E.
  assert (A : arith t (a + b) =
              if (tmin t <=? a + b) && (a + b <=? tmax t) then Ok (a + b) else UB)
    by (destruct X as [->| ->]; reflexivity).
  rewrite A in E.
  destruct ((tmin t <=? a + b) && (a + b <=? tmax t))%bool eqn:G; [|discriminate].
  apply andb_prop in G. destruct G as [G1 G2]. apply Z.leb_le in G1. apply Z.leb_le in G2.
  split; assumption.
Qed.

Lemma MinPlus_dist : forall t, exact_type t ->
  left_distributive MinPlusSemiring t /\ right_distributive MinPlusSemiring t.
Proof.
  intros t X. split; intros a b c bc ab ac x y Ha Hb Hc H1 H2 H3 H4 H5; cbn in *;
    apply Min_eq in H1; apply Min_eq in H5; apply (exact_Plus _ _ _ _ X) in H2;
    apply (exact_Plus _ _ _ _ X) in H3; apply (exact_Plus _ _ _ _ X) in H4; subst; lia.
Qed.
Lemma MaxPlus_dist : forall t, exact_type t ->
  left_distributive MaxPlusSemiring t /\ right_distributive MaxPlusSemiring t.
Proof.
  intros t X. split; intros a b c bc ab ac x y Ha Hb Hc H1 H2 H3 H4 H5; cbn in *;
    apply Max_eq in H1; apply Max_eq in H5; apply (exact_Plus _ _ _ _ X) in H2;
    apply (exact_Plus _ _ _ _ X) in H3; apply (exact_Plus _ _ _ _ X) in H4; subst; lia.
Qed.

Lemma Min_laws : forall t, closed Min t /\ associative Min t.
Proof. intros t. destruct (MinMonoid_ok t) as (A & B & C & D). auto. Qed.
Lemma Max_laws : forall t, closed Max t /\ associative Max t.
Proof. intros t. destruct (MaxMonoid_ok t) as (A & B & C & D). auto. Qed.

Ltac mm := unfold left_distributive, right_distributive; intros; cbn in *; minmax.

Lemma MinMax_ok : forall t, semiring_laws MinMaxSemiring t.
Proof.
  intros t. pose proof (tmin_le_tmax t). destruct (Max_laws t).
  split; [apply MinMonoid_ok|]. split; [assumption|]. split; [assumption|].
  split; [|split; [|split]].
  - mm.
  - mm.
  - intros a Ha. cbn. rewrite Max_val. unfold inty, s_zero in *. cbn. f_equal. lia.
  - intros a Ha. cbn. rewrite Max_val. unfold inty, s_zero in *. cbn. f_equal. lia.
Qed.
Lemma MaxMin_ok : forall t, semiring_laws MaxMinSemiring t.
Proof.
  intros t. pose proof (tmin_le_tmax t). destruct (Min_laws t).
  split; [apply MaxMonoid_ok|]. split; [assumption|]. split; [assumption|].
  split; [|split; [|split]].
  - mm.
  - mm.
  - intros a Ha. cbn. rewrite Min_val. unfold inty, s_zero in *. cbn. f_equal. lia.
  - intros a Ha. cbn. rewrite Min_val. unfold inty, s_zero in *. cbn. f_equal. lia.
Qed.

Lemma Arithmetic_ok : forall t, semiring_laws ArithmeticSemiring t.
Proof.
  intros t. destruct (Arithmetic_dist t), (Arithmetic_annih t).
  repeat (split; [first [apply PlusMonoid_ok|apply Times_closed|apply Times_assoc|assumption]|]).
  assumption.
Qed.

Ltac log_case :=
  intros; cbn in *;
  repeat match goal with H : Ok _ = Ok _ |- _ => injection H as <- end;
  bools; reflexivity.
Lemma logical_semirings_ok :
  semiring_laws LogicalSemiring CBool /\ semiring_laws AndOrSemiring CBool /\
  semiring_laws XorAndSemiring CBool /\ semiring_laws XnorOrSemiring CBool.
Proof.
  destruct logical_monoids_ok as (A & B & C & D).
  split; [|split; [|split]];
    (split; [assumption|]); (split; [first [apply and_ok|apply or_ok]|]);
    (split; [first [apply and_ok|apply or_ok]|]);
    (split; [|split; [|split]]); unfold left_distributive, right_distributive,
      left_annihilates, right_annihilates, s_zero; cbn;
    unfold LogicalOr, LogicalAnd, LogicalXor, LogicalXnor; log_case.
Qed.

Lemma MinTimes_dist : forall t, unsigned_type t ->
  forall a b c bc ab ac x y, inty t a -> inty t b -> inty t c ->
    a * b <= tmax t -> a * c <= tmax t ->
    Min t b c = Ok bc -> Times t a bc = Ok x ->
    Times t a b = Ok ab -> Times t a c = Ok ac -> Min t ab ac = Ok y -> x = y.
Proof.
  intros t [w ->] a b c bc ab ac x y Ha Hb Hc L1 L2 H1 H2 H3 H4 H5.
  apply Min_eq in H1; apply Min_eq in H5; apply Times_eq in H2; apply Times_eq in H3;
    apply Times_eq in H4; subst.
  unfold inty in *; cbn [tmin] in *.
  rewrite !convert_id; unfold inty; cbn [tmin]; try nia.
Qed.

Lemma MaxTimes_dist : forall t, unsigned_type t ->
  forall a b c bc ab ac x y, inty t a -> inty t b -> inty t c ->
    a * b <= tmax t -> a * c <= tmax t ->
    Max t b c = Ok bc -> Times t a bc = Ok x ->
    Times t a b = Ok ab -> Times t a c = Ok ac -> Max t ab ac = Ok y -> x = y.
Proof.
  intros t [w ->] a b c bc ab ac x y Ha Hb Hc L1 L2 H1 H2 H3 H4 H5.
  apply Max_eq in H1; apply Max_eq in H5; apply Times_eq in H2; apply Times_eq in H3;
    apply Times_eq in H4; subst.
  unfold inty in *; cbn [tmin] in *.
  rewrite !convert_id; unfold inty; cbn [tmin]; try nia.
Qed.

Lemma Plus_total : forall t, ~ exact_type t -> total Plus t.
Proof.
  intros t N a b Ha Hb. unfold Plus.
  assert (exists r, arith (promote t) (a + b) = Ok r) as (r & E).
  { unfold inty in *. destruct t as [|[|] []]; cbn in Ha, Hb; cbn [promote]; unfold arith;
      try (eexists; reflexivity);
      try (exfalso; apply N; unfold exact_type; auto; fail);
      (match goal with |- context [if ?x then _ else _] => destruct x eqn:G end;
       [eexists; reflexivity|exfalso; apply andb_false_iff in G; cbn in G; lia]). }
  rewrite E. cbn [bind]. eauto.
Qed.

Lemma Times_total : forall t, ~ exact_type t -> t <> CInt false W16 -> total Times t.
Proof.
  intros t N N' a b Ha Hb. unfold Times.
  assert (exists r, arith (promote t) (a * b) = Ok r) as (r & E).
  { unfold inty in *. destruct t as [|[|] []]; cbn in Ha, Hb; cbn [promote]; unfold arith;
      try (eexists; reflexivity);
      try (exfalso; apply N; unfold exact_type; auto; fail);
      try (exfalso; apply N'; reflexivity);
      (match goal with |- context [if ?x then _ else _] => destruct x eqn:G end;
       [eexists; reflexivity|exfalso; apply andb_false_iff in G; cbn in G; nia]). }
  rewrite E. cbn [bind]. eauto.
Qed.

Lemma First_dist : forall (m : monoid) t, monoid_laws m t -> (forall a, m_op m t a a = Ok a) ->
  left_distributive (mkSemiring m First) t /\ right_distributive (mkSemiring m First) t /\
  left_annihilates (mkSemiring m First) t.
Proof.
  intros m t L I. split; [|split].
  - intros a b c bc ab ac x y Ha Hb Hc H1 H2 H3 H4 H5. cbn in *. unfold First in *.
    injection H2 as <-; injection H3 as <-; injection H4 as <-. congruence.
  - intros a b c bc ab ac x y Ha Hb Hc H1 H2 H3 H4 H5. cbn in *. unfold First in *.
    injection H2 as <-; injection H3 as <-; injection H4 as <-. congruence.
  - intros a Ha. reflexivity.
Qed.
Lemma Second_dist : forall (m : monoid) t, monoid_laws m t -> (forall a, m_op m t a a = Ok a) ->
  left_distributive (mkSemiring m Second) t /\ right_distributive (mkSemiring m Second) t /\
  right_annihilates (mkSemiring m Second) t.
Proof.
  intros m t L I. split; [|split].
  - intros a b c bc ab ac x y Ha Hb Hc H1 H2 H3 H4 H5. cbn in *. unfold Second in *.
    injection H2 as <-; injection H3 as <-; injection H4 as <-. congruence.
  - intros a b c bc ab ac x y Ha Hb Hc H1 H2 H3 H4 H5. cbn in *. unfold Second in *.
    injection H2 as <-; injection H3 as <-; injection H4 as <-. congruence.
  - intros a Ha. reflexivity.
Qed.
Lemma Min_idem : forall t a, Min t a a = Ok a.
Proof. intros. rewrite Min_val, Z.min_id. reflexivity. Qed.
Lemma Max_idem : forall t a, Max t a a = Ok a.
Proof. intros. rewrite Max_val, Z.max_id. reflexivity. Qed.
