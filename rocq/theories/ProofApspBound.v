(** Bounds on the entries of the distance matrix during [apsp]. *)
From Coq Require Import Lia ZArith.
From Verif Require Import Base ModelLil ModelVec ModelHelpers ModelViews ModelMul ModelElem ModelIndex ModelUtils ModelAlgoBase ModelSssp
  Spec SpecOps SpecPaths ProofBase ProofLil ProofVec ProofElem ProofGraph ProofPaths.
Local Open Scope Z_scope.

Section Bound.
Variables (N : nat) (w : nat -> nat -> option Z) (M : Z).
Hypothesis w_bound : forall u v g, w u v = Some g -> (u < N /\ v < N)%nat.
Hypothesis M0 : 0 <= M.
Hypothesis w_abs : forall u v g, w u v = Some g -> Z.abs g <= M.

Lemma walk_abs u v k c : wwalk w u v k c -> Z.abs c <= M * Z.of_nat k.
Proof. induction 1 as [|v t k c g _ IH E]; [simpl; lia|]. apply w_abs in E. lia. Qed.

(** Shorter walks between inner vertices. *)
Definition below k u v : option Z := if (u <? k)%nat && (v <? k)%nat then w u v else None.
Lemma below_w k u v g : below k u v = Some g -> (u < k)%nat /\ (v < k)%nat /\ w u v = Some g.
Proof.
  unfold below. destruct (Nat.ltb_spec u k), (Nat.ltb_spec v k); simpl; try discriminate. auto.
Qed.
Lemma inner_cases k i j c : inner w k i j c ->
  w i j = Some c \/
  exists a b g m x h, (a < k)%nat /\ (b < k)%nat /\ w i a = Some g /\ wwalk (below k) a b m x /\ w b j = Some h /\ c = g + x + h.
Proof.
  induction 1 as [j g E|t j c g _ IH Ht E]; [auto|]. right. destruct IH as [IH|(a & b & g' & m & x & h & Ha & Hb & E1 & Hw & E2 & ->)].
  - exists t, t, c, 0%nat, 0, g. split; [auto|]. split; [auto|]. split; [auto|]. split; [constructor|]. split; [auto|lia].
  - exists a, t, g', (S m), (x + h), g. split; [auto|]. split; [auto|]. split; [auto|]. split; [|split; [auto|lia]].
    econstructor; eauto. unfold below. apply Nat.ltb_lt in Hb, Ht. rewrite Hb, Ht. auto.
Qed.
Lemma below_inner k i a g b m x : w i a = Some g -> (a < k)%nat -> wwalk (below k) a b m x -> inner w k i b (g + x).
Proof.
  intros E Ha. induction 1 as [|v t m x h Hw IH Eh]; [rewrite Z.add_0_r; constructor; auto|].
  apply below_w in Eh. destruct Eh as (Hv & Ht & Eh). rewrite Z.add_assoc. apply inner_step with (t := v); auto.
Qed.
Lemma inner_short k i j c : inner w k i j c -> exists c', inner w k i j c' /\ Z.abs c' <= M * (Z.of_nat k + 1).
Proof.
  intro H. apply inner_cases in H. destruct H as [E|(a & b & g & m & x & h & Ha & Hb & E1 & Hw & E2 & _)].
  - exists c. split; [constructor; auto|]. apply w_abs in E. nia.
  - destruct (shorten k (below k)) with (D0 := fun v => if (v =? a)%nat then Some 0 else None) (k := m) (v := b) (x := x)
      as (m' & x' & Hm & (u & z & y & Hu & Hw' & ->)).
    + intros u v g' E. apply below_w in E. tauto.
    + intros v z. destruct (Nat.eqb_spec v a); [|discriminate]. subst. auto.
    + exists a, 0, x. rewrite Nat.eqb_refl. split; [auto|]. split; [auto|lia].
    + destruct (Nat.eqb_spec u a) as [->|]; [|discriminate]. injection Hu as <-.
      exists (g + y + h). split; [apply inner_step with (t := b); auto; apply (below_inner k i a g b m'); auto|].
      apply w_abs in E1, E2. assert (Hy : Z.abs y <= M * Z.of_nat m').
      { clear - Hw' w_abs. induction Hw' as [|v t k' c g _ IH E]; [simpl; lia|]. apply below_w in E. destruct E as (_ & _ & E). apply w_abs in E. lia. }
      nia.
Qed.
Lemma inner_S k i j c : inner w k i j c -> inner w (S k) i j c.
Proof. induction 1 as [j g E|t j c g _ IH Ht E]; [constructor; auto|]. apply inner_step with (t := t); auto. Qed.
Lemma inner_app k i j a b : inner w k i k a -> inner w k k j b -> inner w (S k) i j (a + b).
Proof.
  intros H. induction 1 as [j g E|t j c g _ IH Ht E].
  - apply inner_step with (t := k); auto. apply inner_S; auto.
  - rewrite Z.add_assoc. apply inner_step with (t := t); auto.
Qed.

(** No closed walk is negative. *)
Hypothesis nonneg : forall v m c, wwalk w v v m c -> 0 <= c.
Lemma walk_lower u v m : forall c, (u < N)%nat -> wwalk w u v m c -> - (M * Z.of_nat N) <= c.
Proof.
  induction m as [m IH] using lt_wf_ind. intros c Hu H. destruct (Nat.lt_ge_cases m N) as [L|L].
  - apply walk_abs in H. nia.
  - destruct (walk_cycle N w w_bound u v m c Hu H L) as (t & i & m' & l & c1 & c2 & c3 & W1 & W2 & W3 & -> & ->).
    apply nonneg in W2. pose proof (wwalk_app _ _ _ _ _ W1 _ _ _ W3) as W. apply IH in W; auto; lia.
Qed.

Lemma distance_abs u v x : (u < N)%nat -> distance w u v x -> Z.abs x <= M * Z.of_nat N.
Proof.
  intros Hu ((k & Hk) & Hm). pose proof (walk_lower u v k x Hu Hk).
  destruct (shorten N w w_bound) with (D0 := fun t => if (t =? u)%nat then Some 0 else None) (k := k) (v := v) (x := x)
    as (m' & x' & Hl & (s & z & y & Hs & Hw & ->)).
  - intros t z. destruct (Nat.eqb_spec t u); [|discriminate]. subst. auto.
  - exists u, 0, x. rewrite Nat.eqb_refl. split; [auto|]. split; [auto|lia].
  - destruct (Nat.eqb_spec s u) as [->|]; [|discriminate]. pose proof (Hm _ _ Hw). apply walk_abs in Hw. nia.
Qed.

Definition fw_bounded k (D : nat -> nat -> option Z) : Prop :=
  fw_inv w k D /\
  (forall i j x, i <> j -> D i j = Some x -> exists c, inner w k i j c) /\
  (forall i, (i < N)%nat -> exists x, D i i = Some x /\ x <= M).

Lemma fw_abs k D i j x : fw_bounded k D -> (k <= N)%nat -> (i < N)%nat -> D i j = Some x ->
  - (M * Z.of_nat N) <= x /\ x <= M * (Z.of_nat k + 1).
Proof.
  intros ((HS & HC) & HI & HD) Hk Hi Hx. split.
  - apply HS in Hx. destruct Hx as (m & Hw). eapply walk_lower; eauto.
  - destruct (Nat.eq_dec i j) as [<-|Nij].
    + destruct (HD i Hi) as (y & Hy & L). assert (x = y) by congruence. nia.
    + destruct (HI i j x Nij Hx) as (c & Hc). apply inner_short in Hc. destruct Hc as (c' & Hc & L).
      destruct (HC i j c' Nij Hc) as (y & Hy & L'). assert (x = y) by congruence. lia.
Qed.

Lemma fw_bounded_step k D D' : (k < N)%nat -> fw_bounded k D ->
  (forall i j, (i < N)%nat -> (j < N)%nat ->
     D' i j = oadd zmin (D i j) (omap2 Z.add (D i k) (D k j))) ->
  (forall i j, (N <= i)%nat \/ (N <= j)%nat -> D' i j = None) ->
  fw_bounded (S k) D'.
Proof.
  intros Hk (HF & HI & HD) E HN. split; [apply (fw_step N w w_bound nonneg k D); auto|]. split.
  - intros i j x Nij Hx.
    destruct (Nat.lt_ge_cases i N) as [Hi|Hi]; [|rewrite HN in Hx by auto; discriminate].
    destruct (Nat.lt_ge_cases j N) as [Hj|Hj]; [|rewrite HN in Hx by auto; discriminate].
    rewrite E in Hx by auto. destruct (D i j) as [y|] eqn:Ey.
    + destruct (HI i j y Nij Ey) as (c & Hc). exists c. apply inner_S. auto.
    + destruct (D i k) as [a|] eqn:Ea; [|discriminate]. destruct (D k j) as [b|] eqn:Eb; [|discriminate].
      assert (Nik : i <> k) by congruence. assert (Nkj : k <> j) by congruence.
      destruct (HI i k a Nik Ea) as (c1 & H1). destruct (HI k j b Nkj Eb) as (c2 & H2).
      exists (c1 + c2). apply inner_app; auto.
  - intros i Hi. destruct (HD i Hi) as (x & Hx & L). rewrite E by auto.
    destruct (oadd_zmin_l _ (omap2 Z.add (D i k) (D k i)) _ Hx) as (y & Hy & Ly). exists y. split; [auto|lia].
Qed.
End Bound.
