(** Operators of float and double on small integers. *)
From Coq Require Import ZArith QArith Lia Lqa Bool Floats.SpecFloat.
From Verif Require Import Base ModelLil ModelVec ModelHelpers ModelViews ModelAlgebra ModelFloat ModelCalls ModelMachine Spec
  SpecFloats SpecConv SpecRel SpecSim SpecSimInts SpecSimFloat ProofFloat ProofConv ProofSim ProofSimProg ProofSimInts.
Local Open Scope Z_scope.

Lemma int_near t z x : Z.abs z <= 2 ^ prec t -> rounds_to t (inject_Z z) x -> value t x /\ finite x /\ (real x == inject_Z z)%Q.
Proof.
  intros H R. destruct (int_exact t z H) as (V & F & E). pose proof (rounds_exact t _ x R _ V F E) as Q.
  destruct R as ([Vx Nx] & _). split; [exact Vx|].
  assert (Fx : finite x). { unfold feq, SFeqb in Q. destruct x as [s|s| |s m e]; try exact I; [|congruence].
    destruct (of_int t z) as [s'|s'| |s' m' e']; try contradiction; destruct s; discriminate. }
  split; [exact Fx|]. apply (feq_sv t) in Q; [|split; auto|apply finite_number; auto].
  rewrite (real_sv t x Vx Fx), Q, <- (real_sv t _ V F). exact E.
Qed.
Lemma small2_sim t (f : Z -> Z -> Z) (g : fval -> fval -> fval) :
  (forall a b x y, is_integer t (Some a) x -> is_integer t (Some b) y -> Z.abs (f a b) <= 2 ^ prec t -> rounds_to t (inject_Z (f a b)) (g x y)) ->
  rel2 (is_integer t) (is_integer t) (is_integer t) (small2 (2 ^ prec t) f) g.
Proof.
  intros H [a|] x [b|] y A B; try exact I. unfold small2, small. destruct (Z.leb_spec (Z.abs (f a b)) (2 ^ prec t)) as [L|]; [|exact I].
  split; [exact L|]. apply int_near; auto.
Qed.
Lemma plus_small t : rel2 (is_integer t) (is_integer t) (is_integer t) (small2 (2 ^ prec t) Z.add) (FPlus t).
Proof.
  apply small2_sim. intros a b x y (_ & Vx & Fx & Ex) (_ & Vy & Fy & Ey) _.
  apply (rounds_eq _ (real x + real y)); [rewrite Ex, Ey, inject_Z_plus; reflexivity|]. apply plus_rounds; auto.
Qed.
Lemma minus_small t : rel2 (is_integer t) (is_integer t) (is_integer t) (small2 (2 ^ prec t) Z.sub) (FMinus t).
Proof.
  apply small2_sim. intros a b x y (_ & Vx & Fx & Ex) (_ & Vy & Fy & Ey) _.
  apply (rounds_eq _ (real x - real y)); [rewrite Ex, Ey; unfold Z.sub; rewrite inject_Z_plus, inject_Z_opp; reflexivity|]. apply minus_rounds; auto.
Qed.
Lemma times_small t : rel2 (is_integer t) (is_integer t) (is_integer t) (small2 (2 ^ prec t) Z.mul) (FTimes t).
Proof.
  apply small2_sim. intros a b x y (_ & Vx & Fx & Ex) (_ & Vy & Fy & Ey) _.
  apply (rounds_eq _ (real x * real y)); [rewrite Ex, Ey, inject_Z_mult; reflexivity|]. apply times_rounds; auto.
Qed.
Lemma less_int t a b x y : is_integer t (Some a) x -> is_integer t (Some b) y -> SFltb x y = (a <? b).
Proof.
  intros (_ & Vx & Fx & Ex) (_ & Vy & Fy & Ey).
  assert (Nx : number t x) by (split; auto; intros ->; contradiction). assert (Ny : number t y) by (split; auto; intros ->; contradiction).
  rewrite (ltb_sv t x y Nx Ny). rewrite (real_sv t x Vx Fx) in Ex. rewrite (real_sv t y Vy Fy) in Ey. pose proof (two_pos (em t)) as P.
  destruct (Z.ltb_spec (sv t x) (sv t y)) as [L|L], (Z.ltb_spec a b) as [L'|L']; auto; exfalso.
  - rewrite Zlt_Qlt in L. rewrite Zle_Qle in L'. rewrite <- Ex, <- Ey in L'. apply Qmult_le_r in L'; auto. lra.
  - rewrite Zle_Qle in L. rewrite Zlt_Qlt in L'. rewrite <- Ex, <- Ey in L'. apply Qmult_lt_r in L'; auto. lra.
Qed.
Lemma min_small t : rel2 (is_integer t) (is_integer t) (is_integer t) (small2 (2 ^ prec t) Z.min) (FMin t).
Proof.
  intros [a|] x [b|] y A B; try exact I. unfold small2, small, FMin. rewrite (less_int t a b x y A B).
  destruct (Z.leb_spec (Z.abs (Z.min a b)) (2 ^ prec t)) as [L|]; [|exact I].
  destruct (Z.ltb_spec a b); [rewrite Z.min_l by lia|rewrite Z.min_r by lia]; auto.
Qed.
Lemma max_small t : rel2 (is_integer t) (is_integer t) (is_integer t) (small2 (2 ^ prec t) Z.max) (FMax t).
Proof.
  intros [a|] x [b|] y A B; try exact I. unfold small2, small, FMax. rewrite (less_int t a b x y A B).
  destruct (Z.leb_spec (Z.abs (Z.max a b)) (2 ^ prec t)) as [L|]; [|exact I].
  destruct (Z.ltb_spec a b); [rewrite Z.max_r by lia|rewrite Z.max_l by lia]; auto.
Qed.
Lemma opp_small t : rel1 (is_integer t) (is_integer t) (small1 (2 ^ prec t) Z.opp) (FAdditiveInverse t).
Proof.
  intros [a|] x A; [|exact I]. destruct A as (B & V & F & E). unfold small1, small.
  destruct (Z.leb_spec (Z.abs (- a)) (2 ^ prec t)) as [L|]; [|exact I]. split; [exact L|].
  destruct (opp_number t x) as [Vo _]; [split; auto; intros ->; contradiction|].
  split; [exact Vo|]. split; [apply opp_finite; auto|]. rewrite opp_real, E, inject_Z_opp. reflexivity.
Qed.
