(** Absolute error bounds for numbers of type [double]. *)
From Coq Require Import ZArith QArith Qabs Qcanon Lia Lqa Floats.SpecFloat.
From Verif Require Import Base ModelFloat ModelConv Spec SpecFloats SpecConv SpecNormalize SpecRank SpecRankTypes ProofBase ProofFloat ProofConv ProofDiv
  ProofNormalize ProofRank ProofApprox ProofRankApprox ProofClusterTypes ProofClusterDouble ProofMul.
Local Open Scope nat_scope.

(** [x] differs from [q] by at most [e]. *)
Definition near (e q : Q) (x : fval) : Prop := value CDouble x /\ finite x /\ (Qabs (real x - q) <= e)%Q.
Notation u := (unit_roundoff CDouble).

Lemma near_le e e' q x : (e <= e')%Q -> near e q x -> near e' q x.
Proof. intros L (V & F & H). split; [auto|]. split; [auto|]. lra. Qed.
Lemma near_eq e p q x : (p == q)%Q -> near e p x -> near e q x.
Proof. intros L (V & F & H). split; [auto|]. split; [auto|]. rewrite <- L. auto. Qed.

(** One rounding of a number of at most [B]. *)
Lemma rounds_abs q x B : rounds_to CDouble q x -> (two ^ (-900) <= B)%Q -> (B <= two ^ 1000)%Q -> (Qabs q <= B)%Q -> near (u * B) q x.
Proof.
  intros R L1 L2 H. pose proof (u_pos CDouble) as UP.
  assert (T1 : (two ^ 1000 <= two ^ (emax CDouble - 2))%Q) by (apply two_le; cbn [emax]; lia).
  destruct (Qlt_le_dec (Qabs q) (two ^ (3 - emax CDouble))) as [S|W].
  - assert (F : finite x) by (apply (rounds_finite CDouble q); auto; lra).
    split; [apply R|]. split; [exact F|]. destruct R as (_ & _ & R). specialize (R F f0 eq_refl I).
    change (real f0) with 0%Q in R. refine (Qle_trans _ _ _ R _).
    rewrite (Qabs_wd (0 - q) (- q)), Qabs_opp by ring.
    assert (two ^ (3 - emax CDouble) <= u * two ^ (-900))%Q by (unfold unit_roundoff; change (2 # 1)%Q with two; rewrite <- two_plus; apply two_le; cbn [emax prec]; lia).
    assert (u * two ^ (-900) <= u * B)%Q by (apply Qmult_le_l; auto). lra.
  - destruct (rounds_within CDouble q x R) as (V & F & E); [split; lra|]. split; [exact V|]. split; [exact F|].
    refine (Qle_trans _ _ _ E _). apply Qmult_le_l; auto.
Qed.

Lemma near_plus e1 e2 q1 q2 x y B : near e1 q1 x -> near e2 q2 y -> (two ^ (-900) <= B)%Q -> (B <= two ^ 1000)%Q ->
  (Qabs q1 + e1 + (Qabs q2 + e2) <= B)%Q -> near (e1 + e2 + u * B) (q1 + q2) (FPlus CDouble x y).
Proof.
  intros (V1 & F1 & H1) (V2 & F2 & H2) L1 L2 HB.
  assert (X : forall a q e, (Qabs (a - q) <= e -> Qabs a <= Qabs q + e)%Q).
  { intros a q e H. assert (Qabs a <= Qabs (a - q) + Qabs q)%Q by (rewrite (Qabs_wd a ((a - q) + q)) at 1 by ring; apply Qabs_triangle). lra. }
  destruct (rounds_abs (real x + real y)%Q (FPlus CDouble x y) B) as (V & F & H); auto.
  - apply plus_rounds; auto.
  - apply X in H1, H2. pose proof (Qabs_triangle (real x) (real y)). lra.
  - split; [exact V|]. split; [exact F|].
    apply Qabs_Qle_condition in H, H1, H2. apply Qabs_Qle_condition. lra.
Qed.

(** A sum from left to right: [g i] are the exact numbers, [e i] their errors, [b i] bounds. *)
Section Sum.
Context (h : nat -> option fval) (g e b : nat -> Qc) (M : Q).
Hypothesis HM : (two ^ (-900) <= M)%Q /\ (M <= two ^ 1000)%Q.
Lemma near_osum n : 
  (forall i, i < n -> match h i with Some x => near (this (e i)) (this (g i)) x | None => g i = 0%Qc end) ->
  (forall i, i < n -> (0 <= e i)%Qc /\ (Qabs (this (g i)) + this (e i) <= this (b i))%Q) ->
  (2 * this (qsum n b) <= M)%Q -> (4 * inject_Z (Z.of_nat n) * u <= 1)%Q ->
  (Qabs (this (qsum n g)) + this (qsum n e) <= this (qsum n b))%Q /\ (0 <= this (qsum n e))%Q /\
  match osum (FPlus CDouble) (map h (seq 0 n)) with
  | Some s => near (this (qsum n e) + inject_Z (Z.of_nat n) * u * M) (this (qsum n g)) s
  | None => qsum n g = 0%Qc
  end.
Proof.
  induction n as [|n IH]; intros Hh He HB HN.
  - cbn [qsum map seq osum]. change (this 0%Qc) with 0%Q. split; [vm_compute; discriminate|]. split; [lra|reflexivity].
  - destruct (He n (Nat.lt_succ_diag_r n)) as [E0 EB]. unfold Qcle in E0. change (this 0%Qc) with 0%Q in E0.
    pose proof (Qabs_nonneg (this (g n))) as AG. pose proof (u_pos CDouble) as UP.
    assert (QN : (inject_Z (Z.of_nat (S n)) == inject_Z (Z.of_nat n) + 1)%Q) by (rewrite Nat2Z.inj_succ, <- Z.add_1_r, inject_Z_plus; reflexivity).
    assert (N0 : (0 <= inject_Z (Z.of_nat n))%Q) by (change 0%Q with (inject_Z 0); rewrite <- Zle_Qle; lia).
    rewrite QN in HN. set (nn := inject_Z (Z.of_nat n)) in *.
    cbn [qsum] in *. rewrite plus_q in HB.
    destruct IH as (I1 & I2 & I3); [intros; apply Hh; lia|intros; apply He; lia|lra|nra|].
    pose proof (Qabs_nonneg (this (qsum n g))) as AS.
    split. { rewrite !plus_q. pose proof (Qabs_triangle (this (qsum n g)) (this (g n))). lra. }
    split; [rewrite plus_q; lra|].
    rewrite seq_S, map_app. cbn [map Nat.add]. rewrite osum_snoc'.
    assert (UM : (0 <= u * M)%Q) by (pose proof (two_pos (-900)); nra).
    assert (NM : (0 <= nn * u * M)%Q) by (setoid_replace (nn * u * M)%Q with (nn * (u * M))%Q by ring; apply Qmult_le_0_compat; auto).
    assert (NM4 : (4 * (nn * u * M) <= M)%Q). { pose proof (two_pos (-900)). assert (4 * nn * u <= 1)%Q by nra. setoid_replace (4 * (nn * u * M))%Q with ((4 * nn * u) * M)%Q by ring. nra. }
    assert (EQ : (inject_Z (Z.of_nat (S n)) * u * M == nn * u * M + u * M)%Q) by (rewrite QN; fold nn; ring).
    set (fm := (inject_Z (Z.of_nat (S n)) * u * M)%Q) in *. clearbody fm.
    set (nm := (nn * u * M)%Q) in *. set (um := (u * M)%Q) in *.
    specialize (Hh n (Nat.lt_succ_diag_r n)).
    destruct (osum (FPlus CDouble) (map h (seq 0 n))) as [s|], (h n) as [x|]; cbn [oadd].
    + eapply near_eq; [symmetry; apply plus_q|]. eapply near_le; [|apply (near_plus _ _ _ _ s x M I3 Hh); try apply HM].
      * rewrite plus_q. fold um. lra.
      * lra.
    + rewrite Hh. eapply near_eq; [|eapply near_le; [|exact I3]].
      * rewrite plus_q. change (this 0%Qc) with 0%Q. lra.
      * rewrite plus_q. lra.
    + rewrite I3. eapply near_eq; [|eapply near_le; [|exact Hh]].
      * rewrite plus_q. change (this 0%Qc) with 0%Q. lra.
      * rewrite plus_q. lra.
    + rewrite I3, Hh. ring.
Qed.
End Sum.

(** A number that is negated. *)
Lemma aux_opp p m s x e l : binary_round_aux p m (negb s) x e l = SFopp (binary_round_aux p m s x e l).
Proof.
  unfold binary_round_aux. destruct (shr_fexp _ _ _ _ _) as [r1 e1]. destruct (shr_fexp _ _ _ _ _) as [r2 e2].
  destruct (shr_m r2); try reflexivity. destruct (_ <=? _)%Z; reflexivity.
Qed.
Lemma div_opp x y : finite x -> finite y -> ~ (real y == 0)%Q -> FDiv CDouble (FAdditiveInverse CDouble x) y = FAdditiveInverse CDouble (FDiv CDouble x y).
Proof.
  intros Fx Fy Y. destruct x as [sx|sx| |sx mx ex], y as [sy|sy| |sy my ey]; try contradiction.
  - exfalso. apply Y. reflexivity.
  - unfold FDiv, FAdditiveInverse. cbn [SFdiv SFopp]. destruct sx, sy; reflexivity.
  - exfalso. apply Y. reflexivity.
  - unfold FDiv, FAdditiveInverse. cbn [SFdiv SFopp]. destruct (SFdiv_core_binary _ _ _ _ _ _) as [[mz ez] lz].
    rewrite <- aux_opp. destruct sx, sy; reflexivity.
Qed.
Lemma times_opp x y : finite x -> finite y -> FTimes CDouble x (FAdditiveInverse CDouble y) = FAdditiveInverse CDouble (FTimes CDouble x y).
Proof.
  intros Fx Fy. destruct x as [sx|sx| |sx mx ex], y as [sy|sy| |sy my ey]; try contradiction; unfold FTimes, FAdditiveInverse; cbn [SFmul SFopp].
  - destruct sx, sy; reflexivity.
  - destruct sx, sy; reflexivity.
  - destruct sx, sy; reflexivity.
  - rewrite <- aux_opp. destruct sx, sy; reflexivity.
Qed.

(** The greatest of a list of numbers. *)
Lemma fmax_osum (l : list (option fval)) : (forall x, In (Some x) l -> value CDouble x /\ finite x) ->
  match osum (FMax CDouble) l with
  | Some m => In (Some m) l /\ forall x, In (Some x) l -> (real x <= real m)%Q
  | None => forall x, In x l -> x = None
  end.
Proof.
  intro H. pose proof (osum_rmax (FMax CDouble) (fun x => value CDouble x /\ finite x) (sv CDouble)) as X. 
  assert (NB : forall x, value CDouble x /\ finite x -> number CDouble x) by (intros x [V F]; split; [auto|intros ->; contradiction]).
  specialize (X (fun a b => ltac:(unfold FMax; destruct (SFltb a b); auto)) (fun a b A B => max_sv CDouble a b (NB a A) (NB b B)) l H).
  destruct (osum (FMax CDouble) l) as [m|]; [|exact X]. destruct X as [I L]. split; [exact I|]. intros x Hx. specialize (L x Hx).
  destruct (H x Hx) as [Vx Fx], (H m I) as [Vm Fm]. apply real_fle; auto. apply (fle_sv CDouble); auto.
Qed.
