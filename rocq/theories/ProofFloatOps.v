(** Products and reductions of floating point numbers that are integers of bounded magnitude. *)
From Coq Require Import Lia ZArith Floats.SpecFloat.
From Verif Require Import Base ModelLil ModelVec ModelHelpers ModelViews ModelMul ModelElem ModelUtils ModelAlgoBase ModelFloat ModelFloatOps
  Spec SpecOps SpecFloats SpecFpaths SpecIntPaths ProofRound ProofFloat ProofMul ProofReduce ProofRel ProofInts ProofIntPaths ProofError SpecRel.
Local Open Scope Z_scope.

Section Floats.
Variable t : ftype.
Notation P := (2 ^ prec t).
Notation fex := (fexactly t).
Notation oex K := (orel (fexactly t K)).
Lemma fex_le K K' z x : K <= K' -> fex K z x -> fex K' z x.
Proof. intros H (I & L). split; auto. lia. Qed.
Lemma fex_finite K z x : K <= P -> fex K z x -> number t x /\ finite x /\ sv t x = z * unit_of t.
Proof.
  intros HK H. apply (FR_ex t K z x HK) in H. destruct H as (H & L). destruct (FR_finite t z x ltac:(lia) H). split; [apply H|auto].
Qed.
Lemma fex_of K z x : K <= P -> Z.abs z <= K -> number t x -> sv t x = z * unit_of t -> fex K z x.
Proof. intros HK L N S. apply (FR_ex t K z x HK). split; auto. split; auto. left. split; [lia|auto]. Qed.
Lemma fex_plus K K' a x b y : 0 <= K -> 0 <= K' -> K + K' <= P -> fex K a x -> fex K' b y -> fex (K + K') (a + b) (FPlus t x y).
Proof.
  intros H1 H2 H Hx Hy. pose proof (proj2 Hx). pose proof (proj2 Hy).
  apply (FR_ex t K) in Hx; [|lia]. apply (FR_ex t K') in Hy; [|lia].
  apply FR_ex; auto. split; [|lia]. apply FR_plus; try apply Hx; try apply Hy; lia.
Qed.
Lemma fex_times K K' a x b y : K <= P -> K' <= P -> K * K' <= P -> fex K a x -> fex K' b y -> fex (K * K') (a * b) (FTimes t x y).
Proof.
  intros H1 H2 H Hx Hy. pose proof (proj2 Hx) as La. pose proof (proj2 Hy) as Lb.
  destruct (fex_finite K a x H1 Hx) as (Nx & Fx & Sx). destruct (fex_finite K' b y H2 Hy) as (Ny & Fy & Sy).
  assert (L : Z.abs (a * b) <= K * K') by (rewrite Z.abs_mul; apply Z.mul_le_mono_nonneg; lia).
  destruct (int_ok t a ltac:(lia)) as (Na & _ & Ea). destruct (int_ok t b ltac:(lia)) as (Nb & _ & Eb).
  destruct (times_rv t x y (proj1 Nx) (proj1 Ny) Fx Fy) as (Nxy & _).
  assert (Z0 : forall s, sv t (S754_zero s) = 0) by reflexivity. pose proof (unit_pos t).
  destruct (sv_inj t x (of_int t a) Nx Na ltac:(congruence)) as [X|(s1 & s2 & X & X')].
  - destruct (sv_inj t y (of_int t b) Ny Nb ltac:(congruence)) as [Y|(s3 & s4 & Y & Y')].
    + split; auto. split; auto. rewrite X, Y. apply int_times; lia.
    + apply fex_of; auto. rewrite Y in Sy. rewrite Z0 in Sy. assert (b = 0) by nia. subst b y. rewrite Z.mul_0_r, Z.mul_0_l.
      destruct x; try contradiction; reflexivity.
  - apply fex_of; auto. rewrite X in Sx. rewrite Z0 in Sx. assert (a = 0) by nia. subst a x. rewrite !Z.mul_0_l.
    destruct y; try contradiction; reflexivity.
Qed.

Lemma osum_fexact K l l' : 0 <= K -> Z.of_nat (length l) * K <= P -> Forall2 (oex K) l l' ->
  oex (Z.of_nat (length l) * K) (osum Z.add l) (osum (FPlus t) l').
Proof.
  intros K0 HK F. unfold osum.
  assert (G : forall Q a b, 0 <= Q -> Q + Z.of_nat (length l) * K <= P -> oex Q a b ->
    oex (Q + Z.of_nat (length l) * K) (fold_left (oadd Z.add) l a) (fold_left (oadd (FPlus t)) l' b)).
  { clear HK. induction F as [|x y l l' Hxy F IH]; intros Q a b P0 HP Hab.
    - cbn [length Z.of_nat fold_left]. destruct a, b; simpl in *; auto. apply (fex_le Q); [lia|auto].
    - cbn [length fold_left] in *. rewrite Nat2Z.inj_succ in *.
      replace (Q + Z.succ (Z.of_nat (length l)) * K) with (Q + K + Z.of_nat (length l) * K) by lia. apply IH; try lia.
      destruct a, b; simpl in Hab; try contradiction; destruct x, y; simpl in Hxy; try contradiction; simpl; auto.
      + apply fex_plus; auto. nia.
      + apply (fex_le Q); auto. lia.
      + apply (fex_le K); auto. lia. }
  specialize (G 0 None None). simpl in G. rewrite Z.add_0_l in G. apply G; auto; try lia.
Qed.
Lemma dot_fexact K K' (f g : nat -> option Z) f' g' n : 1 <= K -> 1 <= K' -> Z.of_nat n * (K * K') <= P ->
  (forall k, oex K (f k) (f' k)) -> (forall k, oex K' (g k) (g' k)) ->
  oex (Z.of_nat n * (K * K')) (osum Z.add (map (fun k => omap2 Z.mul (f k) (g k)) (seq 0 n)))
    (osum (FPlus t) (map (fun k => omap2 (FTimes t) (f' k) (g' k)) (seq 0 n))).
Proof.
  intros K0 K1 B Hf Hg. destruct n as [|n]; [exact I|].
  pose proof (osum_fexact (K * K') (map (fun k => omap2 Z.mul (f k) (g k)) (seq 0 (S n)))
    (map (fun k => omap2 (FTimes t) (f' k) (g' k)) (seq 0 (S n)))) as H.
  rewrite map_length, seq_length in H. assert (K * K' <= P) by nia. apply H; auto; [nia|]. apply Forall2_maps. intro k.
  eapply orel_map2; [|apply Hf|apply Hg]. intros a x b y Hx Hy. apply fex_times; auto; nia.
Qed.
End Floats.

Ltac vshapes := repeat match goal with
  | H : viewrel _ ?A ?A' |- _ => match goal with _ : wfview A' |- _ => fail 1 | _ => idtac end;
      let S := fresh in assert (S : wfview A' /\ vrows A' = vrows A /\ vcols A' = vcols A)
        by (destruct A, A'; simpl in *; try contradiction; destruct H as (? & ? & ? & ? & ?); auto); destruct S as (? & ? & ?)
  end.
Lemma fmxm_exact t C (A B : mview Z) A' B' KA KB : 1 <= KA -> 1 <= KB -> Z.of_nat (vcols A) * (KA * KB) <= 2 ^ prec t ->
  viewrel (fexactly t KA) A A' -> viewrel (fexactly t KB) B B' -> wfm C -> nrows C = vrows A -> ncols C = vcols B -> vcols A = vrows B ->
  exists D, fmxm t C A' B' = Ok D /\ wfm D /\ nrows D = nrows C /\ ncols D = ncols C /\
    forall i j, (i < nrows C)%nat -> (j < ncols C)%nat ->
      orel (fexactly t (Z.of_nat (vcols A) * (KA * KB))) (smul Z.add Z.mul (vcols A) (sview A) (sview B) i j) (mget D i j).
Proof.
  intros K1 K2 HK HA HB WC R1 R2 R3. vshapes. unfold fmxm.
  destruct (mxm_ok (FPlus t) (FTimes t) (FTimes t) idc idc btrue idc (NoAcc idc) mnomask MERGE C A' B') as (D & E & WD & RD & CD & GD);
    auto; try exact I; try congruence.
  { destruct A'; auto. destruct B'; auto. split; [intros; apply times_comm|auto]. }
  exists D. split; [exact E|]. split; [exact WD|]. split; [exact RD|]. split; [exact CD|]. intros i j Hi Hj. rewrite GD by auto. cbn.
  rewrite !map_idc. unfold smul. replace (vcols A') with (vcols A) by congruence.
  apply dot_fexact with (f := fun k => sview A i k) (g := fun k => sview B k j)
    (f' := fun k => sview A' i k) (g' := fun k => sview B' k j); auto; intro k; apply view_rel; auto.
Qed.
Lemma vrel_shape {R : Z -> fval -> Prop} u u' : vrel R u u' -> wfvn u' /\ vsize u' = vsize u.
Proof. intro H. destruct (vrel_wf R u u' H) as (_ & _ & _ & _ & _ & W & E). auto. Qed.
Lemma fmxv_exact t w (A : mview Z) A' (u : bvec Z) u' KA KU : 1 <= KA -> 1 <= KU -> Z.of_nat (vcols A) * (KA * KU) <= 2 ^ prec t ->
  viewrel (fexactly t KA) A A' -> vrel (fexactly t KU) u u' -> wfv0 w -> vsize w = vrows A -> vsize u = vcols A ->
  exists D, fmxv t w A' u' = Ok D /\ wfv D /\ vsize D = vsize w /\
    forall i, (i < vsize w)%nat ->
      orel (fexactly t (Z.of_nat (vcols A) * (KA * KU))) (smulv Z.add Z.mul (vcols A) (sview A) (vget u) i) (vget D i).
Proof.
  intros K1 K2 HK HA HU WC R1 R2. vshapes. destruct (vrel_shape u u' HU) as (Wu & Su). unfold fmxv.
  destruct (mxv_ok (FPlus t) (FTimes t) (FTimes t) btrue idc (NoAcc idc) vnomask MERGE w A' u') as (D & E & WD & SD & GD);
    auto; try exact I; try congruence.
  { destruct A'; auto. intros; apply times_comm. }
  exists D. split; [exact E|]. split; [exact WD|]. split; [exact SD|]. intros i Hi. rewrite GD by auto. cbn.
  rewrite !map_idc. unfold smulv. replace (vcols A') with (vcols A) by congruence.
  apply dot_fexact with (f := fun k => sview A i k) (g := vget u) (f' := fun k => sview A' i k) (g' := vget u'); auto; intro k;
    [apply view_rel; auto|apply HU].
Qed.
Lemma fvxm_exact t w (A : mview Z) A' (u : bvec Z) u' KA KU : 1 <= KA -> 1 <= KU -> Z.of_nat (vrows A) * (KA * KU) <= 2 ^ prec t ->
  viewrel (fexactly t KA) A A' -> vrel (fexactly t KU) u u' -> wfv0 w -> vsize w = vcols A -> vsize u = vrows A ->
  exists D, fvxm t w u' A' = Ok D /\ wfv D /\ vsize D = vsize w /\
    forall i, (i < vsize w)%nat ->
      orel (fexactly t (Z.of_nat (vrows A) * (KA * KU))) (svmul Z.add Z.mul (vrows A) (vget u) (sview A) i) (vget D i).
Proof.
  intros K1 K2 HK HA HU WC R1 R2. vshapes. destruct (vrel_shape u u' HU) as (Wu & Su). unfold fvxm.
  destruct (vxm_ok (FPlus t) (FTimes t) btrue idc (NoAcc idc) vnomask MERGE w u' A') as (D & E & WD & SD & GD);
    auto; try exact I; try congruence.
  exists D. split; [exact E|]. split; [exact WD|]. split; [exact SD|]. intros i Hi. rewrite GD by auto. cbn.
  rewrite !map_idc. unfold svmul. replace (vrows A') with (vrows A) by congruence. rewrite (Z.mul_comm KA KU) in *.
  apply dot_fexact with (g := fun k => sview A k i) (f := vget u) (g' := fun k => sview A' k i) (f' := vget u'); auto; intro k;
    [apply HU|apply view_rel; auto].
Qed.
Lemma freduce_exact t w (A : mview Z) A' K : 0 <= K -> Z.of_nat (vcols A) * K <= 2 ^ prec t ->
  viewrel (fexactly t K) A A' -> wfv0 w -> vsize w = vrows A ->
  exists D, freduce t w A' = Ok D /\ wfv D /\ vsize D = vsize w /\
    forall i, (i < vsize w)%nat ->
      orel (fexactly t (Z.of_nat (vcols A) * K)) (osum Z.add (map (sview A i) (seq 0 (vcols A)))) (vget D i).
Proof.
  intros K1 HK HA WC R1. vshapes. unfold freduce.
  destruct (reduce_ok idc (FPlus t) (FPlus t) btrue idc (NoAcc idc) vnomask MERGE w A') as (D & E & WD & SD & GD); auto.
  { exact I. } { split; [exact I|congruence]. }
  exists D. split; [exact E|]. split; [exact WD|]. split; [exact SD|]. intros i Hi. rewrite GD by auto. cbn. rewrite !map_idc.
  change (ofold idc (FPlus t) (map (fun j => sview A' i j) (seq 0 (vcols A')))) with
    (ofold (fun x => x) (FPlus t) (map (fun j => sview A' i j) (seq 0 (vcols A')))). rewrite ofold_osum. replace (vcols A') with (vcols A) by congruence.
  pose proof (osum_fexact t K (map (sview A i) (seq 0 (vcols A))) (map (sview A' i) (seq 0 (vcols A)))) as H'.
  rewrite map_length, seq_length in H'. apply H'; auto. apply Forall2_maps. intro k. apply view_rel; auto.
Qed.
