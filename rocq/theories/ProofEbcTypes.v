(** [edge_betweenness_centrality] in the integer types and over floating point numbers. *)
From Coq Require Import ZArith QArith Lia Lqa Floats.SpecFloat.
From Verif Require Import Base ModelLil ModelVec ModelViews ModelAlgoBase ModelAlgebra ModelOps ModelInts ModelBc32 ModelFloat ModelFsssp ModelConv ModelBc ModelEbcTypes
  Spec SpecOps SpecAlgebra SpecBc SpecFloats SpecFpaths SpecConv ProofBase ProofLaws ProofOps ProofInts ProofFloat ProofConv ProofDiv ProofBcFloat ProofVbcFloat ProofRc ProofBcPaths ProofBc ProofBcVert
  ProofEbc ProofEbcBound.
Local Open Scope Z_scope.

(** ** Integers *)
Definition inat (t : ctype) (a : nat) : ival := Ok (convert t (Z.of_nat a)).
Lemma nat_inty t a : Z.of_nat a <= tmax t -> inty t (Z.of_nat a).
Proof. intro H. unfold inty. split; [|lia]. destruct t as [|[] []]; cbn; lia. Qed.
Lemma inat_eq t a : Z.of_nat a <= tmax t -> inat t a = Ok (Z.of_nat a).
Proof. intro H. unfold inat. rewrite convert_id by (apply nat_inty; auto). reflexivity. Qed.
Lemma arith_ty t z : inty t z -> arith (promote t) z = Ok z.
Proof. intro H. apply arith_exact, inty_promote, H. Qed.
Lemma inat_plus t a b : Z.of_nat (a + b) <= tmax t -> op2 Plus t (inat t a) (inat t b) = inat t (a + b).
Proof.
  intro H. rewrite !inat_eq by lia. cbn [op2 bind]. unfold Plus. rewrite <- Nat2Z.inj_add, arith_ty by (apply nat_inty; auto). cbn [bind].
  rewrite convert_id by (apply nat_inty; auto). reflexivity.
Qed.
Lemma inat_times t a b : Z.of_nat a <= tmax t -> Z.of_nat b <= tmax t -> Z.of_nat (a * b) <= tmax t -> op2 Times t (inat t a) (inat t b) = inat t (a * b).
Proof.
  intros Ha Hb H. rewrite !inat_eq by auto. cbn [op2 bind]. unfold Times. rewrite <- Nat2Z.inj_mul, arith_ty by (apply nat_inty; auto). cbn [bind].
  rewrite convert_id by (apply nat_inty; auto). reflexivity.
Qed.
Lemma inat_div t a b : b <> 0%nat -> Z.of_nat b <= tmax t -> Z.of_nat (b * a) <= tmax t ->
  op2 (fun t => Div t t t) t (inat t (b * a)) (inat t b) = inat t a.
Proof.
  intros Hb B H. assert (A : Z.of_nat a <= tmax t) by nia. rewrite !inat_eq by auto. cbn [op2 bind]. unfold Div. rewrite common_same.
  rewrite !convert_id by (apply inty_promote, nat_inty; auto). unfold quotient. destruct (Z.eqb_spec (Z.of_nat b) 0); [lia|].
  rewrite Nat2Z.inj_mul, Z.mul_comm, Z.quot_mul by lia. rewrite arith_ty by (apply nat_inty; auto). cbn [bind].
  rewrite convert_id by (apply nat_inty; auto). reflexivity.
Qed.
Lemma zof_eqb a : (Z.of_nat a =? 0) = (a =? 0)%nat.
Proof. destruct a; reflexivity. Qed.
Lemma inat_true t a : Z.of_nat a <= tmax t -> itrue (inat t a) = negb (a =? 0)%nat.
Proof. intro H. rewrite inat_eq by auto. unfold itrue, ztrue. rewrite zof_eqb. reflexivity. Qed.
Lemma inat_int32 t a : Z.of_nat a <= Z.min (tmax t) 2147483647 -> i_int32_bool (inat t a) = Ok (negb (a =? 0)%nat).
Proof.
  intro H. rewrite inat_eq by lia. unfold i_int32_bool. cbn [bind]. rewrite convert_id; [|split; cbn; lia]. unfold istrue. rewrite zof_eqb. reflexivity.
Qed.
Lemma tmax_2 t : t <> CBool -> 2 <= tmax t.
Proof. destruct t as [|[] []]; cbn; try congruence; lia. Qed.

(** ** Floating point *)
Lemma real_int t x z : value t x -> finite x -> (real x == inject_Z z)%Q -> Z.abs z <= 2 ^ prec t -> z <> 0 -> x = of_int t z.
Proof.
  intros V F E Hz Z0. destruct (int_exact t z Hz) as (Vz & Fz & Ez). destruct (int_ok t z Hz) as (Nz & _ & _).
  assert (Nx : number t x) by (split; [exact V|destruct x; try contradiction; discriminate]).
  apply same_int; auto. apply (feq_sv t); auto. rewrite (real_sv t x V F) in E. rewrite (real_sv t _ Vz Fz) in Ez. rewrite <- Ez in E.
  apply Qmult_inj_r in E; [|intro Q; pose proof (two_pos (em t)); lra]. unfold Qeq in E. cbn in E. lia.
Qed.
Lemma fnat_mul t a b : a <> 0%nat -> b <> 0%nat -> Z.of_nat a <= 2 ^ prec t -> Z.of_nat b <= 2 ^ prec t -> Z.of_nat (a * b) <= 2 ^ prec t ->
  FTimes t (fnat t a) (fnat t b) = fnat t (a * b).
Proof.
  intros A0 B0 Ha Hb H. unfold fnat. apply same_int; try nia.
  - destruct (int_exact t (Z.of_nat a) ltac:(lia)) as (Va & Fa & _). destruct (int_exact t (Z.of_nat b) ltac:(lia)) as (Vb & Fb & _).
    apply (times_rounds t _ _ Va Vb Fa Fb).
  - rewrite Nat2Z.inj_mul. apply int_times; lia.
Qed.
Lemma fnat_div t a b : a <> 0%nat -> b <> 0%nat -> Z.of_nat b <= 2 ^ prec t -> Z.of_nat (b * a) <= 2 ^ prec t ->
  FDiv t (fnat t (b * a)) (fnat t b) = fnat t a.
Proof.
  intros A0 B0 Hb H. unfold fnat.
  destruct (int_exact t (Z.of_nat (b * a)) ltac:(lia)) as (Va & Fa & Ea). destruct (int_exact t (Z.of_nat b) ltac:(lia)) as (Vb & Fb & Eb).
  assert (NB : ~ (inject_Z (Z.of_nat b) == 0)%Q) by (unfold Qeq; cbn; lia).
  assert (EQ : (real (of_int t (Z.of_nat (b * a))) / real (of_int t (Z.of_nat b)) == inject_Z (Z.of_nat a))%Q).
  { rewrite Ea, Eb, Nat2Z.inj_mul, inject_Z_mult. field. exact NB. }
  pose proof (div_rounds t _ _ Va Vb Fa Fb ltac:(rewrite Eb; exact NB)) as R.
  destruct (exact_at t _ _ R (Z.of_nat a) ltac:(nia) EQ) as (V1 & F1 & E1).
  apply real_int; auto; try nia. rewrite E1. exact EQ.
Qed.
Lemma fnat_int32 t a : Z.of_nat a <= 2 ^ prec t -> Z.of_nat a <= 2147483647 -> f_int32_bool (fnat t a) = Ok (negb (a =? 0)%nat).
Proof.
  intros H H2. unfold f_int32_bool, float_to_int, fnat. cbn [int32].
  destruct (int_exact t (Z.of_nat a) ltac:(lia)) as (V & F & E).
  destruct (truncate (of_int t (Z.of_nat a))) as [z|] eqn:T; [|destruct (of_int t (Z.of_nat a)); try contradiction; discriminate].
  pose proof (truncate_spec _ z F T) as (A & _). rewrite E in A.
  destruct A as (A1 & A2); [change 0%Q with (inject_Z 0); rewrite <- Zle_Qle; lia|].
  rewrite <- Zle_Qle in A1. rewrite <- Zlt_Qlt in A2. assert (z = Z.of_nat a) by lia. subst z.
  destruct (Z.leb_spec (tmin int32) (Z.of_nat a)) as [L|L]; [|cbn in L; lia].
  destruct (Z.leb_spec (Z.of_nat a) (tmax int32)) as [M|M]; [|cbn in M; lia].
  cbn [andb bind]. unfold istrue. rewrite zof_eqb. reflexivity.
Qed.
