(** Property theorems: division of floating point numbers (C153). *)
From Coq Require Import ZArith QArith Qabs Lia Lqa Bool Floats.SpecFloat.
From Verif Require Import Base ModelAlgebra ModelOps ModelFloat ModelConv SpecFloats ProofRound ProofFloat SpecConv ProofConv ProofDiv PropConv.
Local Open Scope Z_scope.

(** [Div]: the nearest number of the type to the quotient (an infinity beyond the largest). *)
Theorem C153_quotient : forall (t : ftype) (x y : fval), value t x -> value t y -> finite x -> finite y -> ~ (real y == 0)%Q ->
  rounds_to t (real x / real y) (FDiv t x y).
Proof. exact div_rounds. Qed.
Print Assumptions C153_quotient.
Example C153_quotient_example : let x := of_int CDouble 1 in let y := of_int CDouble 49 in
  value CDouble x /\ value CDouble y /\ finite x /\ finite y /\ (real y == 49)%Q /\
  FTimes CDouble (FDiv CDouble x y) y <> x /\ FDiv CFloat (of_int CFloat 1) (of_int CFloat 3) = fl CFloat 11184811 (-25).
Proof. vm_compute. intuition discriminate. Qed.

(** A quotient that is a number of the type is computed exactly. *)
Theorem C153_exact : forall (t : ftype) (x y z : fval), value t x -> value t y -> value t z ->
  finite x -> finite y -> finite z -> ~ (real y == 0)%Q -> (real z * real y == real x)%Q -> feq (FDiv t x y) z.
Proof.
  intros t x y z Vx Vy Vz Fx Fy Fz NZ E. apply (rounds_exact t (real x / real y)); auto using div_rounds.
  rewrite <- E. field. auto.
Qed.
Print Assumptions C153_exact.

Theorem C153_by_one_and_self : forall (t : ftype) (x : fval), value t x -> finite x ->
  feq (FDiv t x (f1 t)) x /\ (~ (real x == 0)%Q -> feq (FDiv t x x) (f1 t)).
Proof.
  assert (O : forall t, value t (f1 t) /\ finite (f1 t) /\ (real (f1 t) == 1)%Q) by (intros [|]; vm_compute; auto).
  intros t x V F. destruct (O t) as (V1 & F1 & E1). split.
  - apply C153_exact; auto; rewrite E1; [discriminate|ring].
  - intros N. apply C153_exact; auto. rewrite E1. ring.
Qed.
Print Assumptions C153_by_one_and_self.

(** Integers up to 2^24 or 2^53: exact division is exact. *)
Theorem C153_integers : forall (t : ftype) (a b : Z), b <> 0 -> Z.abs (a * b) <= 2 ^ prec t -> Z.abs a <= 2 ^ prec t -> Z.abs b <= 2 ^ prec t ->
  feq (FDiv t (of_int t (a * b)) (of_int t b)) (of_int t a).
Proof.
  intros t a b B H1 H2 H3. destruct (int_exact t (a * b) H1) as (V1 & F1 & E1). destruct (int_exact t a H2) as (V2 & F2 & E2).
  destruct (int_exact t b H3) as (V3 & F3 & E3). apply C153_exact; auto; rewrite ?E1, ?E2, ?E3.
  - intros Q. apply B. unfold Qeq in Q. cbn in Q. lia.
  - rewrite inject_Z_mult. reflexivity.
Qed.
Print Assumptions C153_integers.
Example C153_integers_example : FDiv CFloat (of_int CFloat 1001) (of_int CFloat (-7)) = of_int CFloat (-143).
Proof. reflexivity. Qed.

(** Zeros, infinities and NaN. *)
Theorem C153_special : forall (t : ftype) (x y : fval), value t x -> value t y ->
  (x = S754_nan \/ y = S754_nan -> FDiv t x y = S754_nan) /\
  (forall s, finite x -> (real x == 0)%Q -> y = S754_zero s -> FDiv t x y = S754_nan) /\
  (forall s s', x = S754_infinity s -> y = S754_infinity s' -> FDiv t x y = S754_nan) /\
  (forall s, finite x -> ~ (real x == 0)%Q -> y = S754_zero s ->
     FDiv t x y = S754_infinity (xorb s (negb (Qle_bool 0 (real x))))) /\
  (forall s, finite x -> y = S754_infinity s -> feq (FDiv t x y) f0) /\
  (forall s, finite y -> x = S754_infinity s -> exists s', FDiv t x y = S754_infinity s').
Proof.
  intros t x y Vx Vy. repeat split.
  - intros [-> | ->]; [reflexivity|]. destruct x; reflexivity.
  - intros s F E ->. destruct x as [sx|sx| |sx m e]; try contradiction; [reflexivity|].
    exfalso. rewrite (real_sv t _ Vx F) in E. pose proof (finite_lt_big (prec t) (emax t) (prec_ok t) (emax_ok t) _ _ _ Vx) as B.
    assert (Z0 : sv t (S754_finite sx m e) = 0).
    { pose proof (two_pos (em t)) as P. destruct (Z.eq_dec (sv t (S754_finite sx m e)) 0) as [|N]; auto. exfalso.
      apply Qmult_integral in E. destruct E as [E|E]; [|lra]. apply N. unfold Qeq in E. cbn [Qnum Qden inject_Z] in E. lia. }
    unfold sv in Z0. cbn [sval] in Z0. destruct sx; cbn [sg] in Z0; lia.
  - intros s s' -> ->. reflexivity.
  - intros s F N ->. destruct x as [sx|sx| |sx m e]; try contradiction; [exfalso; apply N; reflexivity|].
    cbn [FDiv SFdiv]. unfold FDiv, SFdiv. f_equal. rewrite xorb_comm. f_equal. cbn [real]. pose proof (two_pos e) as P.
    destruct sx; cbn [cond_Zopp].
    + symmetry. apply negb_true_iff. destruct (Qle_bool 0 (inject_Z (- Zpos m) * (2 # 1) ^ e)) eqn:L; auto. apply Qle_bool_iff in L.
      change (2 # 1)%Q with two in L. assert (inject_Z (- Zpos m) < 0)%Q by reflexivity.
      assert (inject_Z (- Zpos m) * two ^ e < 0)%Q by nra. lra.
    + symmetry. apply negb_false_iff. apply Qle_bool_iff. change (2 # 1)%Q with two. assert (0 < inject_Z (Zpos m))%Q by reflexivity. nra.
  - intros s F ->. destruct x as [sx|sx| |sx m e]; try contradiction; reflexivity.
  - intros s F ->. destruct y as [sy|sy| |sy m e]; try contradiction; eexists; reflexivity.
Qed.
Print Assumptions C153_special.
Example C153_special_example : FDiv CFloat (of_int CFloat (-5)) f0 = fninf /\ FDiv CFloat f0 f0 = S754_nan /\ FDiv CDouble finf (of_int CDouble (-2)) = fninf.
Proof. repeat split. Qed.

(** [MultiplicativeInverse]: the nearest number to 1 / x; the inverse of a power of two is exact. *)
Theorem C153_inverse : forall (t : ftype) (x : fval), value t x -> finite x -> ~ (real x == 0)%Q ->
  rounds_to t (1 / real x) (FMultiplicativeInverse t x) /\
  (forall y, value t y -> finite y -> (real x * real y == 1)%Q ->
     feq (FMultiplicativeInverse t x) y /\ feq (FMultiplicativeInverse t y) x).
Proof.
  assert (O : forall t, value t (f1 t) /\ finite (f1 t) /\ (real (f1 t) == 1)%Q) by (intros [|]; vm_compute; auto).
  intros t x V F N. destruct (O t) as (V1 & F1 & E1). split.
  - apply (rounds_eq _ (real (f1 t) / real x)); [rewrite E1; reflexivity|]. apply div_rounds; auto.
  - intros y Vy Fy E. assert (Ny : ~ (real y == 0)%Q). { intros Z0. rewrite Z0 in E. revert E. rewrite Qmult_0_r. discriminate. }
    split; apply C153_exact; auto; rewrite E1; [rewrite Qmult_comm|]; exact E.
Qed.
Print Assumptions C153_inverse.
Example C153_inverse_example : let x := of_int CFloat 1024 in let y := fl CFloat 1 (-10) in
  value CFloat x /\ finite x /\ value CFloat y /\ finite y /\ (real x * real y == 1)%Q /\ FMultiplicativeInverse CFloat x = y.
Proof. vm_compute. intuition discriminate. Qed.

(** Operands of different types with a floating point common type (as C147 for the other operators). *)
Theorem C153_mixed : forall (t1 t2 t3 : stype) (u : ftype) (a b : scalar), usual t1 t2 = SF u ->
  has_type t1 a -> has_type t2 b -> fits u a -> fits u b -> finite_scalar a -> finite_scalar b -> ~ (exact b == 0)%Q ->
  exists r, SDiv t1 t2 t3 a b = cast t3 (VF r) /\ rounds_to u (exact a / exact b) r.
Proof.
  intros t1 t2 t3 u a b C Ta Tb Fa Fb Ia Ib NZ. unfold SDiv.
  apply (arith_rounds t1 t2 u a b C Ta Tb Fa Fb); auto. intros x y Vx Vy Fx Fy Ex Ey.
  apply (rounds_eq _ (real x / real y)); [rewrite Ex, Ey; reflexivity|]. apply div_rounds; auto. rewrite Ey. auto.
Qed.
Print Assumptions C153_mixed.
Example C153_mixed_example : let a := VI 7 in let b := VF (fl CFloat (-1) (-1)) in
  usual (SI (CInt true W32)) (SF CFloat) = SF CFloat /\ has_type (SI (CInt true W32)) a /\ has_type (SF CFloat) b /\ fits CFloat a /\ fits CFloat b /\
  finite_scalar b /\ SDiv (SI (CInt true W32)) (SF CFloat) (SI (CInt true W8)) a b = Ok (VI (-14)).
Proof. vm_compute. intuition discriminate. Qed.
