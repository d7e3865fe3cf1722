(** Scalars of different types: conversions (C146), operators whose operands have different types (C147, C148), containers
    moved to another type (C149). *)
From Coq Require Import Lia ZArith QArith Floats.SpecFloat.
From Verif Require Import Base ModelLil ModelVec ModelHelpers ModelViews ModelAlgebra ModelOps ModelFloat ModelConv ModelRecast
  Spec SpecOps SpecFloats SpecConv ProofConv ProofRecast SpecRel.
Local Open Scope Z_scope.

(** Decimal-free notation for the examples: m 2^e as a value of a type. *)
Definition fl (t : ftype) (m e : Z) : fval := binary_normalize (prec t) (emax t) m e false.

(** ** C146: conversions between the built-in types *)

(** Integers to floating point: the nearest number of the type; the same number up to 2^24 and 2^53. *)
Theorem C146_integer_to_float : forall (u : ftype) (z : Z), exists x, cast (SF u) (VI z) = Ok (VF x) /\
  rounds_to u (inject_Z z) x /\
  (Z.abs z <= 2 ^ prec u -> finite x /\ (real x == inject_Z z)%Q).
Proof.
  intros u z. exists (of_int u z). split; [reflexivity|]. split; [apply of_int_rounds|]. intros H. apply int_exact, H.
Qed.
Print Assumptions C146_integer_to_float.
Example C146_integer_to_float_ex :
  cast (SF CFloat) (VI (2 ^ 24 + 3)) = Ok (VF (fl CFloat (2 ^ 23 + 2) 1)) /\
  cast (SF CDouble) (VI (2 ^ 24 + 3)) = Ok (VF (fl CDouble (2 ^ 24 + 3) 0)).
Proof. vm_compute. split; reflexivity. Qed.

(** Floating point to integers: the number without its fraction if that fits the type, else undefined. *)
Theorem C146_float_to_integer : forall (t : ctype) (x : fval), t <> CBool ->
  (forall v, cast (SI t) (VF x) = Ok v <->
     exists z, v = VI z /\ finite x /\ truncates_to (real x) z /\ tmin t <= z <= tmax t) /\
  (cast (SI t) (VF x) = UB <-> ~ exists z, finite x /\ truncates_to (real x) z /\ tmin t <= z <= tmax t).
Proof.
  intros t x NB. destruct (float_to_int_spec t x NB) as [A B]. cbn [cast]. rewrite <- B.
  destruct (float_to_int t x) as [z|e|] eqn:E; cbn [bind].
  - split; [|split; discriminate]. intros v. split.
    + intros [= <-]. exists z. split; [reflexivity|]. apply A. reflexivity.
    + intros (z' & -> & H). apply A in H. congruence.
  - exfalso. unfold float_to_int in E. destruct t; [congruence|]. destruct (truncate x); [|discriminate].
    destruct (_ && _)%bool in E; discriminate.
  - split; [|split; reflexivity]. intros v. split; [discriminate|]. intros (z & _ & H). apply A in H. discriminate.
Qed.
Print Assumptions C146_float_to_integer.
Example C146_float_to_integer_ex :
  cast (SI (CInt true W8)) (VF (fl CDouble (-7) (-1))) = Ok (VI (-3)) /\
  cast (SI (CInt false W8)) (VF (fl CDouble 511 (-1))) = Ok (VI 255) /\
  cast (SI (CInt false W8)) (VF (fl CDouble 256 0)) = UB /\
  cast (SI (CInt true W64)) (VF finf) = UB.
Proof. vm_compute. auto. Qed.

(** Any type to [bool]: whether the number differs from 0; NaN does. *)
Theorem C146_to_bool : forall (t : stype) (v : scalar), has_type t v ->
  exists b, cast (SI CBool) v = Ok (sbool b) /\
    (b = false <-> finite_scalar v /\ (exact v == 0)%Q).
Proof.
  intros t [z|x] T.
  - exists (istrue z). split; [cbn [cast convert]; unfold sbool, istrue; destruct (z =? 0); reflexivity|]. unfold istrue. cbn [finite_scalar exact].
    change 0%Q with (inject_Z 0). rewrite inject_Z_injective. destruct (Z.eqb_spec z 0); cbn; intuition congruence.
  - exists (negb (SFeqb x f0)). split; [reflexivity|]. cbn [finite_scalar exact].
    destruct x as [s|s| |s m e]; cbn.
    + intuition.
    + destruct s; intuition discriminate.
    + intuition discriminate.
    + split.
      * destruct s; discriminate.
      * intros [_ H]. exfalso. assert (P : ~ (real (S754_finite s m e) == 0)%Q); [|apply P, H].
        apply real_nonzero.
Qed.
Print Assumptions C146_to_bool.
Example C146_to_bool_ex : cast (SI CBool) (VF (fl CFloat 1 (-10))) = Ok (VI 1) /\ cast (SI CBool) (VF S754_nan) = Ok (VI 1) /\
  cast (SI CBool) (VF (S754_zero true)) = Ok (VI 0).
Proof. vm_compute. auto. Qed.

(** Between floating point types: to [double] the same number, and back to [float] the same value; to [float] the nearest one. *)
Theorem C146_float_to_double : forall x, value CFloat x ->
  exists y, cast (SF CDouble) (VF x) = Ok (VF y) /\ cast (SF CFloat) (VF y) = Ok (VF x) /\ value CDouble y /\
    (finite x -> finite y /\ (real y == real x)%Q).
Proof.
  intros x V. exists (float_to_float CDouble x). split; [reflexivity|]. split; [cbn [cast]; now rewrite widen_narrow|].
  destruct x as [s|s| |s m e].
  1: split; [reflexivity|]; intros _; split; [exact I|reflexivity].
  1, 2: split; [reflexivity|]; intros F; contradiction.
  destruct (widen_exact _ V I) as (Vy & Fy & Ey). split; [exact Vy|]. intros _. split; assumption.
Qed.
Print Assumptions C146_float_to_double.
Theorem C146_double_to_float : forall x, finite x ->
  exists y, cast (SF CFloat) (VF x) = Ok (VF y) /\ rounds_to CFloat (real x) y.
Proof. intros x F. exists (float_to_float CFloat x). split; [reflexivity|]. now apply to_float_rounds. Qed.
Print Assumptions C146_double_to_float.
Example C146_double_to_float_ex :
  cast (SF CFloat) (VF (fl CDouble (2 ^ 30 + 1) 0)) = Ok (VF (fl CFloat 1 30)) /\
  cast (SF CFloat) (VF (fl CDouble 1 200)) = Ok (VF finf).
Proof. vm_compute. auto. Qed.

(** Integers up to 2^24 or 2^53 survive the conversion to a floating point type and back. *)
Theorem C146_there_and_back : forall (t : ctype) (u : ftype) (z : Z), t <> CBool -> tmin t <= z <= tmax t ->
  Z.abs z <= 2 ^ prec u -> exists x, cast (SF u) (VI z) = Ok x /\ cast (SI t) x = Ok (VI z).
Proof.
  intros t u z NB T F. exists (VF (of_int u z)). split; [reflexivity|]. cbn [cast]. now rewrite int_round_trip.
Qed.
Print Assumptions C146_there_and_back.

(** ** C147: operators with an operand of a floating point type.  [u] is the type in which C++ evaluates them; an integer operand
    does not exceed 2^24 or 2^53 and no operand is NaN ([fits]). *)
Theorem C147_comparisons : forall (t1 t2 t3 : stype) (u : ftype) (a b : scalar), usual t1 t2 = SF u ->
  has_type t1 a -> has_type t2 b -> fits u a -> fits u b ->
  (exists r, SEqual t1 t2 t3 a b = cast t3 (sbool r) /\ (r = true <-> sequal a b)) /\
  (exists r, SNotEqual t1 t2 t3 a b = cast t3 (sbool r) /\ (r = true <-> ~ sequal a b)) /\
  (exists r, SLessThan t1 t2 t3 a b = cast t3 (sbool r) /\ (r = true <-> sless a b)) /\
  (exists r, SGreaterThan t1 t2 t3 a b = cast t3 (sbool r) /\ (r = true <-> sless b a)) /\
  (exists r, SLessEqual t1 t2 t3 a b = cast t3 (sbool r) /\ (r = true <-> ~ sless b a)) /\
  (exists r, SGreaterEqual t1 t2 t3 a b = cast t3 (sbool r) /\ (r = true <-> ~ sless a b)).
Proof.
  intros t1 t2 t3 u a b C Ta Tb Fa Fb.
  split; [now apply (equal_exact t1 t2 u)|]. split; [now apply (not_equal_exact t1 t2 u)|].
  split; [now apply (less_exact t1 t2 u)|]. split; [now apply (greater_exact t1 t2 u)|].
  split; [now apply (less_equal_exact t1 t2 u)|now apply (greater_equal_exact t1 t2 u)].
Qed.
Print Assumptions C147_comparisons.
Example C147_comparisons_ex : let a := VI (-3) in let b := VF (fl CFloat (-5) (-1)) in
  usual (SI (CInt true W32)) (SF CFloat) = SF CFloat /\ has_type (SI (CInt true W32)) a /\ has_type (SF CFloat) b /\
  fits CFloat a /\ fits CFloat b /\ sless a b /\
  SLessThan (SI (CInt true W32)) (SF CFloat) (SI CBool) a b = Ok (VI 1).
Proof. vm_compute. intuition discriminate. Qed.

Theorem C147_arithmetic : forall (t1 t2 t3 : stype) (u : ftype) (a b : scalar), usual t1 t2 = SF u ->
  has_type t1 a -> has_type t2 b -> fits u a -> fits u b -> finite_scalar a -> finite_scalar b ->
  (exists r, SPlus t1 t2 t3 a b = cast t3 (VF r) /\ rounds_to u (exact a + exact b) r) /\
  (exists r, SMinus t1 t2 t3 a b = cast t3 (VF r) /\ rounds_to u (exact a - exact b) r) /\
  (exists r, STimes t1 t2 t3 a b = cast t3 (VF r) /\ rounds_to u (exact a * exact b) r).
Proof.
  intros t1 t2 t3 u a b C Ta Tb Fa Fb Ia Ib. split; [now apply (plus_mixed t1 t2 u)|].
  split; [now apply (minus_mixed t1 t2 u)|now apply (times_mixed t1 t2 u)].
Qed.
Print Assumptions C147_arithmetic.
Example C147_arithmetic_ex :
  SPlus (SI (CInt true W32)) (SF CDouble) (SF CFloat) (VI 3) (VF (fl CDouble 1 (-2))) = Ok (VF (fl CFloat 13 (-2))) /\
  STimes (SF CFloat) (SI (CInt false W64)) (SI (CInt true W8)) (VF (fl CFloat (-5) (-1))) (VI 3) = Ok (VI (-7)).
Proof. vm_compute. auto. Qed.

(** [Min] and [Max] give one of the operands, converted to the result type. *)
Theorem C147_min_max : forall (t1 t2 t3 : stype) (u : ftype) (a b : scalar), usual t1 t2 = SF u ->
  has_type t1 a -> has_type t2 b -> fits u a -> fits u b ->
  (exists v, (v = a \/ v = b) /\ ~ sless a v /\ ~ sless b v /\
     exists x, same v x /\ SMin t1 t2 t3 a b = cast t3 (VF x)) /\
  (exists v, (v = a \/ v = b) /\ ~ sless v a /\ ~ sless v b /\
     exists x, same v x /\ SMax t1 t2 t3 a b = cast t3 (VF x)).
Proof.
  intros t1 t2 t3 u a b C Ta Tb Fa Fb. split; [now apply (min_mixed t1 t2 u)|now apply (max_mixed t1 t2 u)].
Qed.
Print Assumptions C147_min_max.
Example C147_min_max_ex :
  SMin (SI (CInt true W32)) (SF CDouble) (SI (CInt true W32)) (VI 7) (VF finf) = Ok (VI 7) /\
  SMax (SI (CInt true W32)) (SF CDouble) (SF CDouble) (VI 7) (VF fninf) = Ok (VF (fl CDouble 7 0)).
Proof. vm_compute. auto. Qed.

(** The logical operators depend on whether the operands differ from 0, whatever their types. *)
Theorem C147_logical : forall (t1 t2 : stype) (a b : scalar), has_type t1 a -> has_type t2 b ->
  forall pa pb, cast (SI CBool) a = Ok (sbool pa) -> cast (SI CBool) b = Ok (sbool pb) ->
  forall t3,
    SLogicalOr t1 t2 t3 a b = cast t3 (sbool (pa || pb)) /\
    SLogicalAnd t1 t2 t3 a b = cast t3 (sbool (pa && pb)) /\
    SLogicalXor t1 t2 t3 a b = cast t3 (sbool (xorb pa pb)) /\
    SLogicalXnor t1 t2 t3 a b = cast t3 (sbool (negb (xorb pa pb))) /\
    SLogicalNot t1 t3 a = cast t3 (sbool (negb pa)).
Proof.
  intros t1 t2 a b _ _ pa pb Ha Hb t3.
  assert (T : forall v p, cast (SI CBool) v = Ok (sbool p) -> strue v = p).
  { intros [z|x] p; cbn.
    - unfold convert, istrue, sbool, ofbool. destruct (z =? 0), p; cbn; congruence.
    - unfold sbool, ofbool. destruct (SFeqb x f0), p; cbn; congruence. }
  apply T in Ha, Hb. unfold SLogicalOr, SLogicalAnd, SLogicalXor, SLogicalXnor, SLogicalNot, slogical. rewrite Ha, Hb.
  destruct pa, pb; repeat split.
Qed.
Print Assumptions C147_logical.
Example C147_logical_ex :
  SLogicalAnd (SF CDouble) (SI (CInt true W32)) (SI CBool) (VF (fl CDouble 1 (-1))) (VI 2) = Ok (VI 1) /\
  SLogicalXor (SF CDouble) (SI (CInt true W32)) (SF CFloat) (VF (fl CDouble 1 (-1))) (VI 2) = Ok (VF f0).
Proof. vm_compute. auto. Qed.

(** On operands of integer types, and of one floating point type, the operators are those of C18 to C20 and of C105 to C109. *)
Theorem C147_integer_operators :
  (int_agrees3 SEqual Equal /\ int_agrees3 SNotEqual NotEqual /\ int_agrees3 SGreaterThan GreaterThan /\
   int_agrees3 SLessThan LessThan /\ int_agrees3 SGreaterEqual GreaterEqual /\ int_agrees3 SLessEqual LessEqual /\
   int_agrees3 SFirst First3 /\ int_agrees3 SSecond Second3 /\ int_agrees3 SMin Min3 /\ int_agrees3 SMax Max3 /\
   int_agrees3 SPlus Plus3 /\ int_agrees3 SMinus Minus3 /\ int_agrees3 STimes Times3 /\ int_agrees3 SDiv Div) /\
  (int_agrees SLogicalOr LogicalOr /\ int_agrees SLogicalAnd LogicalAnd /\
   int_agrees SLogicalXor LogicalXor /\ int_agrees SLogicalXnor LogicalXnor) /\
  (int_agrees1 SIdentity Identity /\ int_agrees1 SAbs Abs /\ int_agrees1 SAdditiveInverse AdditiveInverse /\
   int_agrees1 SMultiplicativeInverse MultiplicativeInverse /\ int_agrees1 SLogicalNot LogicalNot /\
   int_agrees1 SBitwiseNot BitwiseNot).
Proof. exact (conj ints_agree (conj logical_agree unary_agree)). Qed.
Print Assumptions C147_integer_operators.
Theorem C147_float_operators :
  (float_agrees SPlus FPlus /\ float_agrees SMinus FMinus /\ float_agrees STimes FTimes /\
   float_agrees SMin FMin /\ float_agrees SMax FMax /\ float_agrees SFirst FFirst /\ float_agrees SSecond FSecond) /\
  (float_compares SEqual FEqual /\ float_compares SNotEqual FNotEqual /\ float_compares SGreaterThan FGreaterThan /\
   float_compares SLessThan FLessThan /\ float_compares SGreaterEqual FGreaterEqual /\ float_compares SLessEqual FLessEqual).
Proof. split; [exact floats_agree|]. repeat split; apply float_compare. Qed.
Print Assumptions C147_float_operators.

(** ** C148: the same for all operands.  Equality is not that of the numbers and not transitive: 2^53 + 1 equals
    2^53 as a [double], which equals 2^53, which differs from 2^53 + 1 as [int64_t]. *)
Theorem C148_equality_refuted : exists a b c,
  has_type (SI (CInt true W64)) a /\ has_type (SF CDouble) b /\ has_type (SI (CInt true W64)) c /\
  SEqual (SI (CInt true W64)) (SF CDouble) (SI CBool) a b = Ok (sbool true) /\
  SEqual (SF CDouble) (SI (CInt true W64)) (SI CBool) b c = Ok (sbool true) /\
  SEqual (SI (CInt true W64)) (SI (CInt true W64)) (SI CBool) a c = Ok (sbool false) /\ ~ sequal a b.
Proof.
  exists (VI (2 ^ 53 + 1)), (VF (fl CDouble 1 53)), (VI (2 ^ 53)). repeat split; try reflexivity; try (vm_compute; discriminate).
  intros [_ H]. apply H. vm_compute. reflexivity.
Qed.
Print Assumptions C148_equality_refuted.
(** The sum of two integers, one of them given as [float], is neither of the neighbours of the exact sum; the smaller one of
    [INT_MAX] and infinity cannot be returned as [int]. *)
Theorem C148_result_refuted :
  (exists a b, has_type (SI (CInt true W32)) a /\ has_type (SF CFloat) b /\ finite_scalar b /\
     (exact a + exact b == inject_Z 16777217)%Q /\
     SPlus (SI (CInt true W32)) (SF CFloat) (SI (CInt true W32)) a b = Ok (VI 16777216)) /\
  (exists a b, has_type (SI (CInt true W32)) a /\ has_type (SF CFloat) b /\ sless a b /\
     SMin (SI (CInt true W32)) (SF CFloat) (SI (CInt true W32)) a b = UB) /\
  (exists z, has_type (SI (CInt true W64)) (VI z) /\ forall x,
     cast (SF CDouble) (VI z) = Ok x -> cast (SI (CInt true W64)) x = UB) /\
  (exists a b, has_type (SI (CInt false W64)) a /\ has_type (SF CFloat) b /\
     STimes (SI (CInt false W64)) (SF CFloat) (SI (CInt false W64)) a b = UB).
Proof.
  split; [|split; [|split]].
  - exists (VI 16777217), (VF f0). repeat split; vm_compute; discriminate.
  - exists (VI (2 ^ 31 - 1)), (VF finf). repeat split; vm_compute; discriminate.
  - exists (2 ^ 63 - 1). split; [split; vm_compute; discriminate|]. intros x [= <-]. reflexivity.
  - exists (VI 1), (VF (fl CFloat (-9227469) (-23))). repeat split; vm_compute; discriminate.
Qed.
Print Assumptions C148_result_refuted.

(** ** C149: the elements of a container moved to one of another type by [apply] with [Identity] *)

Theorem C149_matrix : forall (t1 t2 : stype) (C : lil scalar) (A : mview scalar), wfm C -> wfview A ->
  nrows C = vrows A -> ncols C = vcols A ->
  ((forall i j v, sview A i j = Some v -> exists x, converts t2 v x) ->
   exists D, recast_m t1 t2 C A = Ok D /\ wfm D /\ nrows D = nrows C /\ ncols D = ncols C /\
     forall i j, (i < nrows C)%nat -> (j < ncols C)%nat -> orel (converts t2) (sview A i j) (mget D i j)) /\
  (forall i j v, (i < nrows C)%nat -> (j < ncols C)%nat -> sview A i j = Some v -> (forall x, ~ converts t2 v x) ->
   recast_m t1 t2 C A = UB).
Proof.
  intros t1 t2 C A WC WA R K. split; [now apply recast_m_ok|]. intros i j v Hi Hj S H. apply (recast_m_bad t1 t2 C A i j v); auto.
  destruct (cast_cases t2 v) as [E|[x E]]; [exact E|]. destruct (H x E).
Qed.
Print Assumptions C149_matrix.
Theorem C149_vector : forall (t1 t2 : stype) (w u : bvec scalar), wfv0 w -> wfvn u -> vsize w = vsize u ->
  ((forall i v, vget u i = Some v -> exists x, converts t2 v x) ->
   exists d, recast_v t1 t2 w u = Ok d /\ wfv d /\ vsize d = vsize w /\
     forall i, (i < vsize w)%nat -> orel (converts t2) (vget u i) (vget d i)) /\
  (forall i v, (i < vsize w)%nat -> vget u i = Some v -> (forall x, ~ converts t2 v x) -> recast_v t1 t2 w u = UB).
Proof.
  intros t1 t2 w u Ww Wu S. split; [now apply recast_v_ok|]. intros i v Hi V H. apply (recast_v_bad t1 t2 w u i v); auto.
  destruct (cast_cases t2 v) as [E|[x E]]; [exact E|]. destruct (H x E).
Qed.
Print Assumptions C149_vector.

(** A container of an integer type whose elements do not exceed 2^24 or 2^53 survives the way to a floating point type and back,
    and one of [float] that to [double] and back; the two containers have nothing in common before. *)
Theorem C149_there_and_back : forall (t1 t2 : stype) (A B C : lil scalar), wfm A -> wfm B -> wfm C ->
  nrows B = nrows A -> ncols B = ncols A -> nrows C = nrows A -> ncols C = ncols A ->
  (forall i j v, mget A i j = Some v -> has_type t1 v) ->
  ((exists t u, t1 = SI t /\ t <> CBool /\ t2 = SF u /\ forall i j v, mget A i j = Some v -> fits u v) \/
   (t1 = SF CFloat /\ t2 = SF CDouble)) ->
  exists B' C', recast_m t1 t2 B (Mat A) = Ok B' /\ recast_m t2 t1 C (Mat B') = Ok C' /\
    nrows C' = nrows A /\ ncols C' = ncols A /\ forall i j, mget C' i j = mget A i j.
Proof.
  intros t1 t2 A B C WA WB WC RB KB RC KC T K.
  assert (BK : forall i j v, mget A i j = Some v ->
    exists x, converts t2 v x /\ exists y, converts t1 x y /\ y = v).
  { intros i j v G. specialize (T i j v G). destruct K as [(t & u & -> & NB & -> & F)|[-> ->]].
    - specialize (F i j v G). destruct v as [z|f]; [|contradiction]. exists (VF (of_int u z)). split; [reflexivity|].
      exists (VI z). split; [|reflexivity]. unfold converts. cbn [cast]. rewrite int_round_trip by auto. reflexivity.
    - destruct v as [z|f]; [contradiction|]. exists (VF (float_to_float CDouble f)). split; [reflexivity|].
      exists (VF f). split; [|reflexivity]. unfold converts. cbn [cast]. rewrite widen_narrow by exact T. reflexivity. }
  destruct (recast_m_ok t1 t2 B (Mat A) WB WA RB KB) as (B' & EB & WB' & RB' & KB' & GB).
  { intros i j v G. destruct (BK i j v G) as (x & Hx & _). eauto. }
  assert (BK' : forall i j x, mget B' i j = Some x -> exists y, converts t1 x y /\ mget A i j = Some y).
  { intros i j x G. destruct (ProofLil.mget_some_bounds B' i j x WB' G) as [Bi Bj].
    specialize (GB i j). rewrite G in GB. cbn [sview] in GB. destruct (mget A i j) as [v|] eqn:GA; [|destruct GB; congruence].
    destruct (BK i j v GA) as (x' & Hx & y & Hy & ->). exists v. split; [|reflexivity].
    assert (E : converts t2 v x) by (apply GB; congruence). unfold converts in *. congruence. }
  destruct (recast_m_ok t2 t1 C (Mat B') WC WB') as (C' & EC & WC' & RC' & KC' & GC);
    [cbn [vrows]; congruence|cbn [vcols]; congruence| |].
  { intros i j x G. destruct (BK' i j x G) as (y & Hy & _). eauto. }
  exists B', C'. split; [exact EB|]. split; [exact EC|]. split; [congruence|]. split; [congruence|].
  intros i j. destruct (mget C' i j) as [y|] eqn:G.
  - destruct (ProofLil.mget_some_bounds C' i j y WC' G) as [Bi Bj]. specialize (GC i j). rewrite G in GC. cbn [sview] in GC.
    destruct (mget B' i j) as [x|] eqn:GX; [|destruct GC; congruence].
    destruct (BK' i j x GX) as (y' & Hy & ->). assert (E : converts t1 x y) by (apply GC; congruence). unfold converts in *. congruence.
  - destruct (mget A i j) as [v|] eqn:GA; [|reflexivity]. destruct (ProofLil.mget_some_bounds A i j v WA GA) as [Bi Bj].
    specialize (GB i j). specialize (GC i j). cbn [sview] in GB, GC. rewrite GA in GB. rewrite G in GC.
    destruct (mget B' i j); [destruct GC; congruence|destruct GB; congruence].
Qed.
Print Assumptions C149_there_and_back.
Definition ints_ex : lil scalar := mkLil 2 2 3 [[(0%nat, VI 5); (1%nat, VI (2 ^ 24))]; [(1%nat, VI (-7))]].
Example C149_ex :
  wfm ints_ex /\ (forall i j v, mget ints_ex i j = Some v -> has_type (SI (CInt true W32)) v /\ fits CFloat v) /\
  recast_m (SI (CInt true W32)) (SF CFloat) (lil_new 2 2) (Trn ints_ex) =
    Ok (mkLil 2 2 3 [[(0%nat, VF (fl CFloat 5 0))]; [(0%nat, VF (fl CFloat 1 24)); (1%nat, VF (fl CFloat (-7) 0))]]) /\
  recast_m (SF CDouble) (SI (CInt false W8)) (lil_new 1 2)
    (Mat (mkLil 1 2 2 [[(0%nat, VF (fl CDouble 5 (-1))); (1%nat, VF (fl CDouble (-1) 0))]])) = UB /\
  recast_v (SF CDouble) (SI (CInt true W8)) (mkVec 2 0 [VI 0; VI 0] [false; false])
    (mkVec 2 1 [VF finf; VF (fl CDouble (-5) (-1))] [false; true]) = Ok (mkVec 2 1 [VI 0; VI (-2)] [false; true]).
Proof.
  split; [vm_compute; repeat (constructor || lia || auto)|]. split; [|vm_compute; auto].
  intros i j v. unfold mget. destruct i as [|[|[|i]]]; cbn; try discriminate; destruct j as [|[|j]]; cbn; try discriminate;
    intros [= <-]; vm_compute; intuition discriminate.
Qed.
