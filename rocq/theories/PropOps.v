(** Properties of the predefined unary, bitwise, comparison and mixed-domain operators over
    [bool] and the integer types: C100-C104. *)
From Coq Require Import Lia ZArith Bool.
From Verif Require Import Base ModelAlgebra SpecAlgebra ProofLaws ModelOps SpecOps2 ProofOps.
Local Open Scope Z_scope.

(** ** C100 *)

(** [Identity] converts between types without changing a value that both can represent. *)
Theorem C100_identity : forall t1 t2 x,
  inty t1 x -> inty t2 x -> Identity t1 t2 x = Ok x.
Proof. intros t1 t2 x _ H. unfold Identity. now rewrite convert_id. Qed.
Print Assumptions C100_identity.

(** The additive inverse, except of the smallest [int] and [int64_t]. *)
Theorem C100_additive_inverse : forall s w x,
  inty (CInt s w) x -> (exact_type (CInt s w) -> x <> tmin (CInt s w)) ->
  exists y, AdditiveInverse (CInt s w) (CInt s w) x = Ok y /\ inty (CInt s w) y /\
    Plus (CInt s w) x y = Ok 0 /\ Plus (CInt s w) y x = Ok 0 /\
    AdditiveInverse (CInt s w) (CInt s w) y = Ok x.
Proof. exact inverse_ok. Qed.
Print Assumptions C100_additive_inverse.

(** The absolute value, except of the smallest value of a signed type. *)
Theorem C100_abs : forall t x,
  inty t x -> (tmin t < 0 -> x <> tmin t) -> Abs t t x = Ok (Z.abs x).
Proof. exact abs_ok. Qed.
Print Assumptions C100_abs.

Theorem C100_logical_not : forall t1 t2 x,
  (x = 0 -> LogicalNot t1 t2 x = Ok 1) /\ (x <> 0 -> LogicalNot t1 t2 x = Ok 0).
Proof.
  intros t1 t2 x. unfold LogicalNot, istrue. destruct (Z.eqb_spec x 0); split; intros; auto; lia.
Qed.
Print Assumptions C100_logical_not.

(** Bitwise complement: every bit is flipped, twice gives the argument back, and it is the
    additive inverse minus 1. *)
Theorem C100_bitwise_not : forall s w x,
  inty (CInt s w) x ->
  exists y, BitwiseNot (CInt s w) (CInt s w) x = Ok y /\ inty (CInt s w) y /\
    (forall i, 0 <= i < bits w -> Z.testbit y i = negb (Z.testbit x i)) /\
    (x + y + 1) mod 2 ^ bits w = 0 /\
    BitwiseNot (CInt s w) (CInt s w) y = Ok x.
Proof.
  intros s w x H. destruct (not_ok s w x H) as (y & E & I & M & B).
  destruct (not_bits s w x H) as (y' & E' & _ & T). rewrite E in E'. injection E' as <-.
  exists y. auto.
Qed.
Print Assumptions C100_bitwise_not.

(** The integer reciprocal: 1 and -1 are their own, all others but 0 have 0. *)
Theorem C100_multiplicative_inverse : forall t x,
  inty t x -> x <> 0 ->
  MultiplicativeInverse t t x = Ok (if Z.abs x =? 1 then x else 0).
Proof.
  intros t x H N. rewrite reciprocal_ok by auto. apply Z.eqb_neq in N. now rewrite N.
Qed.
Print Assumptions C100_multiplicative_inverse.

Example C100_example :
  Identity (CInt true W8) (CInt false W64) 100 = Ok 100 /\
  AdditiveInverse (CInt false W32) (CInt false W32) 5 = Ok 4294967291 /\
  AdditiveInverse (CInt true W8) (CInt true W8) (-128) = Ok (-128) /\
  Plus (CInt false W32) 5 4294967291 = Ok 0 /\
  Abs (CInt true W16) (CInt true W16) (-32767) = Ok 32767 /\
  BitwiseNot (CInt false W8) (CInt false W8) 5 = Ok 250 /\
  BitwiseNot (CInt true W32) (CInt true W32) 5 = Ok (-6) /\
  MultiplicativeInverse (CInt true W32) (CInt true W32) (-1) = Ok (-1) /\
  inty (CInt true W8) (-128) /\ inty (CInt true W16) (-32767) /\ inty (CInt false W32) 5 /\
  -32767 <> tmin (CInt true W16) /\ ~ exact_type (CInt true W8).
Proof. repeat split; try discriminate. intros [|]; discriminate. Qed.

(** ** C101: where the operators are not what their names say *)

(** The absolute value of an [int8_t] can be negative; of the smallest [int] it is undefined. *)
Theorem C101_abs_refuted :
  (exists x y, inty (CInt true W8) x /\ Abs (CInt true W8) (CInt true W8) x = Ok y /\ y < 0) /\
  (exists x, inty (CInt true W32) x /\ Abs (CInt true W32) (CInt true W32) x = UB) /\
  (exists x, inty (CInt true W64) x /\ AdditiveInverse (CInt true W64) (CInt true W64) x = UB).
Proof.
  split; [exists (-128), (-128)|split; [exists (-2147483648)|exists (-9223372036854775808)]];
    repeat split; discriminate.
Qed.
Print Assumptions C101_abs_refuted.

(** Over [bool] the additive inverse of true is no inverse, and the bitwise complement and
    the bitwise xnor are true whatever the operands. *)
Theorem C101_bool_refuted :
  (exists x y, inty CBool x /\ AdditiveInverse CBool CBool x = Ok y /\ Plus CBool x y <> Ok 0) /\
  (exists x, inty CBool x /\ x = 1 /\ BitwiseNot CBool CBool x = Ok 1) /\
  (exists x y, inty CBool x /\ inty CBool y /\ x <> y /\ BitwiseXnor CBool CBool CBool x y = Ok 1).
Proof.
  split; [exists 1, 1|split; [exists 1|exists 0, 1]]; repeat split; discriminate.
Qed.
Print Assumptions C101_bool_refuted.

(** Over the integers the multiplicative inverse is no inverse, and division is undefined for
    divisor 0 and for the smallest [int] by -1. *)
Theorem C101_division_refuted :
  (exists x y, inty (CInt true W32) x /\ x <> 0 /\
     MultiplicativeInverse (CInt true W32) (CInt true W32) x = Ok y /\
     Times (CInt true W32) x y <> Ok 1) /\
  (forall t, MultiplicativeInverse t t 0 = UB) /\
  (forall t a, Div t t t a 0 = UB) /\
  (exists a b, inty (CInt true W32) a /\ inty (CInt true W32) b /\ b <> 0 /\
     Div (CInt true W32) (CInt true W32) (CInt true W32) a b = UB).
Proof.
  split; [exists 2, 0; repeat split; discriminate|].
  split; [intros [|[|] []]; reflexivity|].
  split; [intros [|[|] []] a; reflexivity|].
  exists (-2147483648), (-1). repeat split; discriminate.
Qed.
Print Assumptions C101_division_refuted.

(** Operators on a signed and an unsigned operand: -1 is not less than 1 but equal to the
    largest unsigned value, and the minimum of -1 and 1 is 1. *)
Theorem C101_mixed_signs_refuted :
  exists a b u, inty (CInt true W32) a /\ inty (CInt false W32) b /\ inty (CInt false W32) u /\
    a < b /\ LessThan (CInt true W32) (CInt false W32) CBool a b = Ok 0 /\
    a <> u /\ Equal (CInt true W32) (CInt false W32) CBool a u = Ok 1 /\
    Min3 (CInt true W32) (CInt false W32) (CInt true W32) a b = Ok b.
Proof. exists (-1), 1, 4294967295. repeat split; discriminate. Qed.
Print Assumptions C101_mixed_signs_refuted.

(** ** C102: the bitwise operators *)

Theorem C102_bitwise_bits : forall t a b, inty t a -> inty t b ->
  exists o n x, BitwiseOr t t t a b = Ok o /\ BitwiseAnd t t t a b = Ok n /\
    BitwiseXor t t t a b = Ok x /\ inty t o /\ inty t n /\ inty t x /\
    forall i, 0 <= i ->
      Z.testbit o i = Z.testbit a i || Z.testbit b i /\
      Z.testbit n i = Z.testbit a i && Z.testbit b i /\
      Z.testbit x i = xorb (Z.testbit a i) (Z.testbit b i).
Proof. exact bitwise_bits. Qed.
Print Assumptions C102_bitwise_bits.

Theorem C102_bitwise_xnor : forall s w a b, inty (CInt s w) a -> inty (CInt s w) b ->
  exists y, BitwiseXnor (CInt s w) (CInt s w) (CInt s w) a b = Ok y /\ inty (CInt s w) y /\
    forall i, 0 <= i < bits w -> Z.testbit y i = Bool.eqb (Z.testbit a i) (Z.testbit b i).
Proof. exact xnor_bits. Qed.
Print Assumptions C102_bitwise_xnor.

(** They form commutative monoids, with identities 0, all ones and 0. *)
Theorem C102_bitwise_monoids : forall t,
  monoid_laws (mkMonoid (fun t => BitwiseOr t t t) (fun _ => 0)) t /\
  monoid_laws (mkMonoid (fun t => BitwiseAnd t t t) all_ones) t /\
  monoid_laws (mkMonoid (fun t => BitwiseXor t t t) (fun _ => 0)) t.
Proof. exact bitwise_laws. Qed.
Print Assumptions C102_bitwise_monoids.

Example C102_example :
  BitwiseOr (CInt true W8) (CInt true W8) (CInt true W8) (-128) 5 = Ok (-123) /\
  BitwiseAnd (CInt false W16) (CInt false W16) (CInt false W16) 65535 4660 = Ok 4660 /\
  BitwiseXor CBool CBool CBool 1 1 = Ok 0 /\
  BitwiseXnor (CInt false W8) (CInt false W8) (CInt false W8) 12 10 = Ok 249 /\
  inty (CInt true W8) (-128) /\ inty (CInt true W8) 5 /\ inty (CInt false W8) 12.
Proof. repeat split; discriminate. Qed.

(** ** C103: comparisons *)

Theorem C103_comparisons : forall t1 t2 t3 a b,
  inty t1 a -> inty t2 b -> compatible t1 t2 a b ->
  Equal t1 t2 t3 a b = Ok (if a =? b then 1 else 0) /\
  NotEqual t1 t2 t3 a b = Ok (if a =? b then 0 else 1) /\
  LessThan t1 t2 t3 a b = Ok (if a <? b then 1 else 0) /\
  GreaterThan t1 t2 t3 a b = Ok (if b <? a then 1 else 0) /\
  LessEqual t1 t2 t3 a b = Ok (if a <=? b then 1 else 0) /\
  GreaterEqual t1 t2 t3 a b = Ok (if b <=? a then 1 else 0).
Proof. exact compare_ok. Qed.
Print Assumptions C103_comparisons.

(** Operands of the same type are always compatible. *)
Theorem C103_same_type : forall t a b, inty t a -> inty t b -> compatible t t a b.
Proof. exact same_compatible. Qed.
Print Assumptions C103_same_type.

Example C103_example :
  LessThan (CInt true W8) (CInt false W16) CBool (-1) 65535 = Ok 1 /\
  GreaterEqual (CInt true W64) (CInt false W32) (CInt true W32) (-1) 4294967295 = Ok 0 /\
  compatible (CInt true W8) (CInt false W16) (-1) 65535 /\
  compatible (CInt true W64) (CInt false W32) (-1) 4294967295 /\
  inty (CInt true W8) (-1) /\ inty (CInt false W32) 4294967295.
Proof.
  split; [reflexivity|]. split; [reflexivity|].
  split; [|split; [|split; split; discriminate]];
    right; split; intros (w & w' & E & F & G & H); try discriminate;
    injection E as <-; injection F as <-; cbn in *; lia.
Qed.

(** ** C104: division and three domains *)

Theorem C104_division : forall t a b,
  inty t a -> inty t b -> b <> 0 -> (tmin t < 0 -> a <> tmin t \/ b <> -1) ->
  exists q, Div t t t a b = Ok q /\ inty t q /\ truncated_division a b q.
Proof.
  intros t a b Ha Hb Nb Hm. exists (Z.quot a b).
  exact (conj (div_eq t a b Ha Hb Nb Hm)
    (conj (quot_inty t a b Ha Nb Hm Hb) (quot_truncated a b Nb))).
Qed.
Print Assumptions C104_division.

(** Division undoes multiplication. *)
Theorem C104_division_inverse : forall t a b,
  inty t a -> inty t b -> b <> 0 -> inty t (a * b) -> (tmin t < 0 -> a * b <> tmin t \/ b <> -1) ->
  Div t t t (a * b) b = Ok a.
Proof.
  intros t a b Ha Hb Nb Hab Hm. rewrite div_eq by auto. now rewrite Z.quot_mul.
Qed.
Print Assumptions C104_division_inverse.

(** With three domains the result is the exact one when it fits. *)
Theorem C104_mixed_domains : forall t1 t2 t3 a b,
  inty t1 a -> inty t2 b -> compatible t1 t2 a b ->
  (inty t3 (a + b) -> inty t1 (a + b) \/ inty t2 (a + b) -> Plus3 t1 t2 t3 a b = Ok (a + b)) /\
  (inty t3 (a * b) -> inty t1 (a * b) \/ inty t2 (a * b) -> Times3 t1 t2 t3 a b = Ok (a * b)) /\
  (inty t3 (a - b) -> 0 <= a - b \/ a < 0 \/ b < 0 -> inty t1 (a - b) \/ inty t2 (a - b) ->
     Minus3 t1 t2 t3 a b = Ok (a - b)) /\
  (inty t3 (Z.min a b) -> Min3 t1 t2 t3 a b = Ok (Z.min a b)) /\
  (inty t3 (Z.max a b) -> Max3 t1 t2 t3 a b = Ok (Z.max a b)).
Proof. exact mixed_ok. Qed.
Print Assumptions C104_mixed_domains.

(** The same when the result fits the type of the result and the type in which C++ computes it ([common]), which has at least
    32 bits: so the sum of two [int8_t] fits an [int]. *)
Theorem C104_mixed_domains_common : forall t1 t2 t3 a b,
  inty t1 a -> inty t2 b -> compatible t1 t2 a b ->
  (inty t3 (a + b) -> inty (common t1 t2) (a + b) -> Plus3 t1 t2 t3 a b = Ok (a + b)) /\
  (inty t3 (a * b) -> inty (common t1 t2) (a * b) -> Times3 t1 t2 t3 a b = Ok (a * b)) /\
  (inty t3 (a - b) -> inty (common t1 t2) (a - b) -> Minus3 t1 t2 t3 a b = Ok (a - b)).
Proof. intros t1 t2 t3 a b Ha Hb C. repeat split; intros H3 Hc; apply arith3_ok; auto. Qed.
Print Assumptions C104_mixed_domains_common.

(** With three equal domains they are the operators of C38 and C39. *)
Theorem C104_same_domains : forall t a b, inty t a -> inty t b ->
  Plus3 t t t a b = Plus t a b /\ Minus3 t t t a b = Minus t a b /\
  Times3 t t t a b = Times t a b /\ Min3 t t t a b = Min t a b /\ Max3 t t t a b = Max t a b /\
  First3 t t t a b = First t a b /\ Second3 t t t a b = Second t a b.
Proof. exact same_types. Qed.
Print Assumptions C104_same_domains.

(** The additive monoid taken from a semiring has the laws of the semiring's own. *)
Theorem C104_add_monoid : forall s t,
  monoid_laws (s_add s) t -> monoid_laws (add_monoid s) t.
Proof. intros s t H. exact H. Qed.
Print Assumptions C104_add_monoid.

Example C104_example :
  Div (CInt true W32) (CInt true W32) (CInt true W32) (-7) 2 = Ok (-3) /\
  truncated_division (-7) 2 (-3) /\
  Plus3 (CInt true W8) (CInt false W64) (CInt true W32) 100 1000 = Ok 1100 /\
  Times3 (CInt true W32) (CInt true W64) (CInt true W64) (-2147483648) 4 = Ok (-8589934592) /\
  inty (common (CInt true W8) (CInt true W8)) 200 /\ Plus3 (CInt true W8) (CInt true W8) (CInt false W8) 100 100 = Ok 200 /\
  inty (CInt true W64) (-8589934592) /\ monoid_laws (add_monoid MinPlusSemiring) (CInt true W8).
Proof.
  split; [reflexivity|]. split; [exists (-1); cbn; lia|].
  split; [reflexivity|]. split; [reflexivity|]. split; [split; discriminate|]. split; [reflexivity|]. split; [split; discriminate|].
  exact (MinMonoid_ok (CInt true W8)).
Qed.
