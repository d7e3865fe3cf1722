(** When peer pressure clustering over [double] gives the clusters of exact arithmetic. *)
From Coq Require Import Lia Lqa ZArith QArith Qcanon Floats.SpecFloat.
From Verif Require Import Base ModelLil ModelVec ModelHelpers ModelViews ModelMul ModelElem ModelIndex ModelUtils
  ModelAlgoBase ModelRank ModelCluster ModelFloat ModelClusterTypes Spec SpecOps SpecRank SpecCluster SpecFloats SpecConv SpecNormalize SpecRankTypes SpecClusterTypes
  ProofBase ProofLil ProofVec ProofElem ProofReduce ProofRound ProofFloat ProofConv ProofDiv ProofNormalize ProofApprox
  ProofUtils ProofContainers ProofGraph ProofRank ProofVis ProofRc ProofCluster ProofClusterTypes ProofRankTypes ProofRankApprox ProofClusterDouble ProofBcFloat.
Local Open Scope nat_scope.

(** ** The outcome is determined by the rounds *)
Lemma rounds_still N w m j : round N w m m -> rounds N w j m m.
Proof. intro R. induction j as [|j IH]; [intros i v _ _; reflexivity|]. exists m. auto. Qed.
Lemma rounds_app N w j k : forall m m1 m', rounds N w j m m1 -> rounds N w k m1 m' -> rounds N w (j + k) m m'.
Proof.
  induction j as [|j IH]; intros m m1 m' R1 R2.
  - simpl. eapply rounds_ext; [| | |exact R2]; auto.
  - destruct R1 as (m2 & Ra & Rb). exists m2. split; [auto|]. eapply IH; eauto.
Qed.
Lemma rounds_det N w k : forall m a b, rounds N w k m a -> rounds N w k m b -> forall i v, i < N -> v < N -> a i v = b i v.
Proof.
  induction k as [|k IH]; intros m a b Ra Rb i v Hi Hv.
  - rewrite Ra, Rb by auto. reflexivity.
  - destruct Ra as (a1 & Ra1 & Ra2), Rb as (b1 & Rb1 & Rb2). apply (IH a1 a b); auto. eapply rounds_ext; [| | |exact Rb2]; auto.
    intros i' v' Hi' Hv'. apply Bool.eq_true_iff_eq. rewrite (Ra1 i' v'), (Rb1 i' v') by auto. reflexivity.
Qed.
Lemma outcome_n N w n C r : outcome N w n C r -> exists C', r = Ok C' /\ clustering N C' /\ rounds N w n (member C) (member C').
Proof.
  intros (C' & k & E & S & Hk & R & St). exists C'. split; [auto|]. split; [auto|]. destruct St as [->|St]; [auto|].
  replace n with (k + (n - k)) by lia. eapply rounds_app; [exact R|]. apply rounds_still; auto.
Qed.
Lemma clustering_eq N C C' : clustering N C -> clustering N C' -> (forall i v, i < N -> v < N -> member C i v = member C' i v) -> C = C'.
Proof.
  intros (W & R & K & F) (W' & R' & K' & F') H. apply lil_ext; auto; try congruence. intros i j Hi Hj. rewrite R, K in *.
  specialize (H i j Hi Hj). unfold member in H. specialize (F i j). specialize (F' i j).
  destruct (mget C i j) as [[|]|], (mget C' i j) as [[|]|]; congruence.
Qed.

Lemma frounds_still N w m j : fround N w m m -> frounds N w j m m.
Proof. intro R. induction j as [|j IH]; [intros i v _ _; reflexivity|]. exists m. auto. Qed.
Lemma fwins_ext N w m m' i v : i < N -> (forall i v, i < N -> v < N -> m i v = m' i v) -> (fwins N w m i v <-> fwins N w m' i v).
Proof.
  intros Hi H.
  assert (V : forall i', i' < N -> fvotes N w m i' v = fvotes N w m' i' v).
  { intros i' Hi'. unfold fvotes. f_equal. apply map_ext_in. intros u Hu. apply in_seq in Hu. rewrite H by lia. reflexivity. }
  unfold fwins. rewrite V by auto. split; intros (x & E & M); exists x; (split; [auto|]); intros i' y Hi' Ey; apply (M i' y); auto; rewrite V in * by auto; auto.
Qed.
Lemma frounds_ext N w k : forall m1 m2 m1' m2', (forall i v, i < N -> v < N -> m1 i v = m1' i v) -> (forall i v, i < N -> v < N -> m2 i v = m2' i v) ->
  frounds N w k m1 m2 -> frounds N w k m1' m2'.
Proof.
  induction k as [|k IH]; intros m1 m2 m1' m2' H1 H2 Rd; simpl in *.
  - intros i v Hi Hv. rewrite <- H1, <- H2 by auto. auto.
  - destruct Rd as (m & R1 & R2). exists m. split; [|eapply IH; eauto].
    intros i v Hi Hv. rewrite (R1 i v Hi Hv). apply fwins_ext; auto.
Qed.
Lemma frounds_app N w j k : forall m m1 m', frounds N w j m m1 -> frounds N w k m1 m' -> frounds N w (j + k) m m'.
Proof.
  induction j as [|j IH]; intros m m1 m' R1 R2.
  - simpl. eapply frounds_ext; [| |exact R2]; auto.
  - destruct R1 as (m2 & Ra & Rb). exists m2. split; [auto|]. eapply IH; eauto.
Qed.
Lemma foutcome_n N w n C r : foutcome N w n C r -> exists C', r = Ok C' /\ clustering N C' /\ frounds N w n (member C) (member C').
Proof.
  intros (C' & k & E & S & Hk & R & St). exists C'. split; [auto|]. split; [auto|]. destruct St as [->|St]; [auto|].
  replace n with (k + (n - k)) by lia. eapply frounds_app; [exact R|]. apply frounds_still; auto.
Qed.
Lemma frounds_rounds N wf w n : forall m m',
  (forall k m1, k < n -> rounds N w k m m1 -> forall i v, i < N -> v < N -> (fwins N wf m1 i v <-> wins N w m1 i v)) ->
  frounds N wf n m m' -> rounds N w n m m'.
Proof.
  induction n as [|n IH]; intros m m' H R; [exact R|]. destruct R as (m1 & R1 & R2).
  assert (R0 : round N w m m1).
  { intros i v Hi Hv. rewrite (R1 i v Hi Hv). apply (H 0); auto; [lia|]. intros i' v' _ _. reflexivity. }
  exists m1. split; [exact R0|]. apply IH; [|exact R2]. intros k m2 Hk Rk. apply (H (S k)); [lia|]. exists m1. auto.
Qed.
(** The same winners in every round: the same result. *)
Lemma same_clusters N wf w n C r r' : foutcome N wf n C r -> outcome N w n C r' ->
  (forall k m1, k < n -> rounds N w k (member C) m1 -> forall i v, i < N -> v < N -> (fwins N wf m1 i v <-> wins N w m1 i v)) -> r = r'.
Proof.
  intros O O' H. destruct (foutcome_n _ _ _ _ _ O) as (C1 & -> & S1 & R1). destruct (outcome_n _ _ _ _ _ O') as (C2 & -> & S2 & R2).
  f_equal. apply (clustering_eq N); auto. apply (rounds_det N w n (member C)); auto. eapply frounds_rounds; eauto.
Qed.

(** ** When the winners are the same *)
(** Exact votes. *)
Lemma wins_exact N wf w m v :
  (forall i, i < N -> match fvotes N wf m i v with
     | Some x => value CDouble x /\ finite x /\ (real x == this (votes N w m i v))%Q /\ (0 < votes N w m i v)%Qc
     | None => votes N w m i v = 0%Qc end) ->
  forall i, i < N -> (fwins N wf m i v <-> wins N w m i v).
Proof.
  intros H i Hi. unfold fwins, wins. pose proof (H i Hi) as Ei.
  assert (L : forall i' x y, i' < N -> fvotes N wf m i v = Some x -> fvotes N wf m i' v = Some y ->
    (SFltb y x = true \/ (feq y x /\ i' <= i) <-> (votes N w m i' v < votes N w m i v)%Qc \/ (votes N w m i' v = votes N w m i v /\ i' <= i))).
  { intros i' x y Hi' Ex Ey. rewrite Ex in Ei. pose proof (H i' Hi') as Ei'. rewrite Ey in Ei'.
    destruct Ei as (Vx & Fx & Rx & _), Ei' as (Vy & Fy & Ry & _). rewrite real_ltb by auto. rewrite Rx, Ry. unfold Qclt.
    assert (Q : feq y x <-> votes N w m i' v = votes N w m i v); [|rewrite Q; reflexivity].
    rewrite (feq_sv CDouble) by (split; [auto|intros Q; rewrite Q in *; contradiction]). split.
    - intro Q. apply Qc_is_canon. rewrite <- Rx, <- Ry, !(real_sv CDouble) by auto. rewrite Q. reflexivity.
    - intro Q. rewrite <- Q in Rx. rewrite <- Ry in Rx. rewrite !(real_sv CDouble) in Rx by auto.
      assert (inject_Z (sv CDouble x) == inject_Z (sv CDouble y))%Q as X.
      { apply (Qmult_inj_r _ _ (two ^ em CDouble)); [pose proof (two_pos (em CDouble)); lra|exact Rx]. }
      unfold Qeq in X. simpl in X. lia. }
  split.
  - intros (x & Ex & M). rewrite Ex in Ei. destruct Ei as (_ & _ & _ & P). split; [auto|]. intros i' Hi'. pose proof (H i' Hi') as Ei'.
    destruct (fvotes N wf m i' v) as [y|] eqn:Ey; [apply (L i' x y); auto|]. left. rewrite Ei'. auto.
  - intros (P & M). destruct (fvotes N wf m i v) as [x|] eqn:Ex; [|rewrite Ei in P; exfalso; revert P; apply Qcle_not_lt, Qcle_refl].
    exists x. split; [auto|]. intros i' y Hi' Ey. apply (L i' x y); auto.
Qed.
(** Votes with a few roundings, and clear winners. *)
Lemma wins_clear N K wf w m v : N <> 0 -> v < N ->
  (forall i, i < N -> match fvotes N wf m i v with
     | Some x => approx CDouble K (this (votes N w m i v)) x /\ (0 < votes N w m i v)%Qc
     | None => votes N w m i v = 0%Qc end) ->
  clear_round N (K + K) w m ->
  forall i, i < N -> (fwins N wf m i v <-> wins N w m i v).
Proof.
  intros N0 Hv H CL.
  assert (LT : forall i i' x y, i < N -> i' < N -> i' <> i -> wins N w m i v -> fvotes N wf m i v = Some x -> fvotes N wf m i' v = Some y -> SFltb y x = true).
  { intros i i' x y Hi Hi' Ne Wn Ex Ey. pose proof (H i Hi) as A. pose proof (H i' Hi') as B. rewrite Ex in A. rewrite Ey in B.
    destruct A as ((Vx & Fx & A1 & A2) & PA), B as ((Vy & Fy & B1 & B2) & PB). apply real_ltb; auto.
    pose proof (CL i i' v Hi Hi' Hv Ne Wn) as C. rewrite shrink_add in C. pose proof (shrink_pos CDouble K) as S.
    apply (Qmult_lt_l _ _ (shrink CDouble K) S). eapply Qle_lt_trans; [exact B2|]. eapply Qlt_le_trans; [exact C|].
    rewrite <- Qmult_assoc. apply Qmult_le_l; auto. }
  assert (BW : forall i, i < N -> wins N w m i v -> fwins N wf m i v).
  { intros i Hi Wn. pose proof (H i Hi) as A. destruct (fvotes N wf m i v) as [x|] eqn:Ex.
    - exists x. split; [auto|]. intros i' y Hi' Ey. destruct (Nat.eq_dec i' i) as [->|Ne].
      + right. split; [|lia]. rewrite Ex in Ey. injection Ey as <-. destruct A as ((Vx & Fx & _) & _).
        apply (feq_sv CDouble); auto; (split; [auto|intros Q; rewrite Q in *; contradiction]).
      + left. apply (LT i i'); auto.
    - destruct Wn as (P & _). rewrite A in P. exfalso. revert P. apply Qcle_not_lt, Qcle_refl. }
  intros i Hi. split; [|apply BW; auto]. intros (x & Ex & M). pose proof (H i Hi) as A. rewrite Ex in A. destruct A as ((Vx & Fx & _) & P).
  destruct (wins_exists N w m v N0) as (j & Hj & Wj); [exists i; auto|]. destruct (Nat.eq_dec i j) as [->|Ne]; [auto|]. exfalso.
  destruct (BW j Hj Wj) as (y & Ey & _). pose proof (LT j i y x Hj Hi Ne Wj Ey Ex) as L1. specialize (M j y Hj Ey).
  pose proof (H j Hj) as B. rewrite Ey in B. destruct B as ((Vy & Fy & _) & _).
  assert (Nx : number CDouble x) by (split; [auto|intros Q; rewrite Q in *; contradiction]).
  assert (Ny : number CDouble y) by (split; [auto|intros Q; rewrite Q in *; contradiction]).
  rewrite (ltb_sv CDouble), Z.ltb_lt in L1, M by auto. rewrite (feq_sv CDouble) in M by auto. lia.
Qed.

(** ** Integer weights *)
Lemma int_osum (h : nat -> option fval) (g : nat -> Z) n : 
  (forall i, i < n -> match h i with Some x => value CDouble x /\ finite x /\ (real x == inject_Z (g i))%Q /\ (0 < g i)%Z | None => g i = 0%Z end) ->
  (fold_right Z.add 0%Z (map g (seq 0 n)) <= 2 ^ 53)%Z ->
  match osum (FPlus CDouble) (map h (seq 0 n)) with
  | Some s => value CDouble s /\ finite s /\ (real s == inject_Z (fold_right Z.add 0%Z (map g (seq 0 n))))%Q /\ (0 < fold_right Z.add 0%Z (map g (seq 0 n)))%Z
  | None => fold_right Z.add 0%Z (map g (seq 0 n)) = 0%Z
  end.
Proof.
  assert (SN : forall k, fold_right Z.add 0%Z (map g (seq 0 (S k))) = (fold_right Z.add 0%Z (map g (seq 0 k)) + g k)%Z).
  { intro k. rewrite seq_S, map_app, fold_right_app. simpl. generalize (map g (seq 0 k)). intro l. rewrite Z.add_0_r. generalize (g k). clear. intro a.
    induction l as [|b l IH]; simpl; lia. }
  induction n as [|n IH]; intros H B; [reflexivity|]. rewrite SN in *. rewrite seq_S, map_app. cbn [map]. rewrite osum_snoc'. change (0 + n) with n.
  pose proof (H n (Nat.lt_succ_diag_r n)) as Hn. specialize (IH (fun i Hi => H i (Nat.lt_lt_succ_r _ _ Hi))).
  set (S0 := fold_right Z.add 0%Z (map g (seq 0 n))) in *.
  assert (G0 : (0 <= g n)%Z) by (destruct (h n); [destruct Hn as (_ & _ & _ & Hn)|]; lia). specialize (IH ltac:(lia)).
  destruct (osum (FPlus CDouble) (map h (seq 0 n))) as [s|], (h n) as [x|]; cbn [oadd].
  - destruct IH as (Vs & Fs & Rs & Ps), Hn as (Vx & Fx & Rx & Px).
    destruct (exact_at CDouble _ _ (plus_rounds CDouble s x Vs Vx Fs Fx) (S0 + g n)%Z) as (V & F & R).
    + change (prec CDouble) with 53%Z. lia.
    + rewrite Rs, Rx, inject_Z_plus. reflexivity.
    + split; [auto|]. split; [auto|]. split; [|lia]. rewrite R, Rs, Rx, inject_Z_plus. reflexivity.
  - rewrite Hn, Z.add_0_r. exact IH.
  - rewrite IH, Z.add_0_l. exact Hn.
  - lia.
Qed.
Lemma sum_le_const (g : nat -> Z) M n : (forall i, i < n -> (g i <= M)%Z) -> (fold_right Z.add 0%Z (map g (seq 0 n)) <= Z.of_nat n * M)%Z.
Proof.
  intro H. assert (X : forall l, (forall i, In i l -> (g i <= M)%Z) -> (fold_right Z.add 0%Z (map g l) <= Z.of_nat (length l) * M)%Z).
  { induction l as [|a l IH]; intro Q; [simpl; lia|]. cbn [map fold_right length]. specialize (IH (fun i Hi => Q i (or_intror Hi))). specialize (Q a (or_introl eq_refl)). lia. }
  rewrite <- (seq_length n 0) at 2. apply X. intros i Hi. apply in_seq in Hi. apply H. lia.
Qed.
Lemma qsum_int (f : nat -> Qc) (g : nat -> Z) n : (forall i, i < n -> (this (f i) == inject_Z (g i))%Q) ->
  (this (qsum n f) == inject_Z (fold_right Z.add 0%Z (map g (seq 0 n))))%Q.
Proof.
  induction n as [|n IH]; intro H; [reflexivity|]. cbn [qsum]. rewrite plus_q, IH, H by auto. rewrite seq_S, map_app, fold_right_app. simpl.
  rewrite <- inject_Z_plus. generalize (map g (seq 0 n)). intro l. rewrite Z.add_0_r. apply inject_Z_injective. generalize (g n). clear. intro a.
  induction l as [|b l IH]; simpl; lia.
Qed.

Section Ints.
Context {T : Type} (tr : T -> fval) (tz : T -> Z) (G : lil T) (N : nat) (M : Z).
Hypothesis WG : wfm G.
Hypothesis RG : nrows G = N.
Hypothesis CG : ncols G = N.
Hypothesis MB : (Z.of_nat N * M <= 2 ^ 53)%Z.
Hypothesis ints : forall u v g, mget G u v = Some g -> (0 < tz g <= M)%Z /\ value CDouble (tr g) /\ finite (tr g) /\ (real (tr g) == inject_Z (tz g))%Q.

Lemma int_wins m i v : i < N -> v < N -> (fwins N (fweight tr G) m i v <-> wins N (weight (fun g => Q2Qc (inject_Z (tz g))) G) m i v).
Proof.
  intros Hi Hv. apply wins_exact; auto. clear i Hi. intros i Hi.
  set (g := fun u => if m i u then match mget G u v with Some x => tz x | None => 0%Z end else 0%Z).
  assert (VQ : (this (votes N (weight (fun g => Q2Qc (inject_Z (tz g))) G) m i v) == inject_Z (fold_right Z.add 0%Z (map g (seq 0 N))))%Q).
  { apply qsum_int. intros u Hu. unfold g, weight. destruct (m i u); [|reflexivity]. destruct (mget G u v); [|reflexivity]. apply Qred_correct. }
  assert (HM : (0 <= M)%Z \/ forall u, mget G u v = None).
  { destruct (Z.le_gt_cases 0 M); [auto|]. right. intro u. destruct (mget G u v) as [x|] eqn:E; [|auto]. destruct (ints _ _ _ E) as (Q & _). lia. }
  assert (SB : (fold_right Z.add 0%Z (map g (seq 0 N)) <= 2 ^ 53)%Z).
  { destruct HM as [HM|HM].
    - etransitivity; [|exact MB]. apply sum_le_const. intros u Hu. unfold g. destruct (m i u); [|auto]. destruct (mget G u v) as [x|] eqn:E; [|auto].
      destruct (ints _ _ _ E) as (Q & _). lia.
    - etransitivity; [apply (sum_le_const g 0 N)|lia]. intros u Hu. unfold g. rewrite HM. destruct (m i u); lia. }
  pose proof (int_osum (fun u => if m i u then fweight tr G u v else None) g N) as X.
  unfold fvotes. specialize (X ltac:(intros u Hu; unfold g, fweight; destruct (m i u); [|reflexivity]; destruct (mget G u v) as [x|] eqn:E; [|reflexivity]; destruct (ints _ _ _ E) as (Q1 & Q2 & Q3 & Q4); repeat split; auto; lia) SB).
  destruct (osum _ _) as [s|].
  - destruct X as (V & F & R & P). split; [auto|]. split; [auto|]. split; [rewrite R, VQ; reflexivity|]. unfold Qclt. rewrite VQ. change (this 0%Qc) with (inject_Z 0). rewrite <- Zlt_Qlt. auto.
  - apply Qc_is_canon. rewrite VQ, X. reflexivity.
Qed.
End Ints.

(** ** Shares of the weights *)
Section Shares.
Context {T : Type} (tr : T -> fval) (G : lil T) (N : nat).
Hypothesis WG : wfm G.
Hypothesis RG : nrows G = N.
Hypothesis CG : ncols G = N.
Hypothesis N0 : N <> 0.
Hypothesis WB : forall u v g, mget G u v = Some g -> value CDouble (tr g) /\ finite (tr g) /\ between (-100) 100 (real (tr g)).
Hypothesis NB : (2 * Z.of_nat (2 * N + 2) <= 2 ^ 53)%Z.
Let A := weight (fun g => exact_q (tr g)) G.

Lemma sh_half i : i <= 2 * N + 2 -> (1 # 2 <= shrink CDouble i)%Q.
Proof. intro H. apply shrink_half. change (prec CDouble) with 53%Z. lia. Qed.
Lemma A_pos u v g : mget G u v = Some g -> (0 < A u v)%Qc.
Proof.
  intro E. unfold A, weight. rewrite E. destruct (WB _ _ _ E) as (_ & _ & B). unfold Qclt. rewrite exact_q_this. exact (between_pos _ _ _ B).
Qed.
Lemma A_nn u v : (0 <= A u v)%Qc.
Proof. destruct (mget G u v) as [g|] eqn:E; [apply Qclt_le_weak, (A_pos u v g E)|]. unfold A, weight. rewrite E. apply Qcle_refl. Qed.

Lemma sh_approx u v : u < N -> v < N ->
  match fshare N tr G u v with
  | Some x => approx CDouble (N + 2) (this (share N A u v)) x /\ (two ^ (-253) <= this (share N A u v))%Q /\ (this (share N A u v) <= 1)%Q
  | None => share N A u v = 0%Qc
  end.
Proof.
  intros Hu Hv. unfold fshare. unfold fweight at 2. destruct (mget G u v) as [g|] eqn:E.
  2:{ cbn [option_map]. assert (Z0 : share N A u v = 0%Qc) by (apply share_zero; unfold A, weight; rewrite E; reflexivity). destruct (osum _ _); exact Z0. }
  cbn [option_map].
  assert (OL : (this (qsum N (A u)) <= two ^ 153)%Q).
  { assert (H : (qsum N (A u) <= qsum N (fun _ => Q2Qc (two ^ 100)))%Qc).
    { apply qsum_le. intros k _. unfold Qcle, Q2Qc. cbn [this]. rewrite Qred_correct. unfold A, weight. destruct (mget G u k) as [x|] eqn:Ek.
      - destruct (WB _ _ _ Ek) as (_ & _ & [_ B]). rewrite exact_q_this. exact B.
      - change (this 0%Qc) with 0%Q. apply Qlt_le_weak, two_pos. }
    rewrite qsum_const in H. unfold Qcle in H. rewrite mult_q, nat_q_this in H. unfold Q2Qc at 1 in H. cbn [this] in H. rewrite Qred_correct in H.
    change 153%Z with (53 + 100)%Z. rewrite two_plus. pose proof (two_pos 100). eapply Qle_trans; [exact H|]. apply Qmult_le_compat_r; [|lra].
    change (two ^ 53)%Q with (inject_Z (2 ^ 53)). rewrite <- Zle_Qle. lia. }
  destruct (osum_ne (FPlus CDouble) N (fweight tr G u) v Hv) as (s & Es); [unfold fweight; rewrite E; discriminate|].
  pose proof (approx_osum CDouble 0 (-100) 153 (fweight tr G u) (A u) ltac:(cbn [emax]; lia) ltac:(cbn [emax]; lia) N) as H.
  rewrite Es in H |- *. destruct H as [OA OB].
  { intros k Hk. unfold A, weight, fweight. destruct (mget G u k) as [x|] eqn:Ex; cbn [option_map]; [|reflexivity].
    destruct (WB _ _ _ Ex) as (V & F & [B _]). split; [|rewrite exact_q_this; exact B].
    apply (approx_eq _ _ (real (tr x))); [symmetry; apply exact_q_this|]. apply approx_exact; auto. }
  { exact OL. }
  { apply sh_half. lia. }
  change (0 + N) with N in OA. set (S := this (qsum N (A u))) in *.
  assert (OB' : between (-100) 153 S) by (split; auto).
  destruct (WB _ _ _ E) as (V & F & B).
  assert (EA : (this (A u v) == real (tr g))%Q) by (unfold A, weight; rewrite E; apply exact_q_this).
  assert (I1 : approx CDouble (1 + (0 + N)) (1 / S) (FDiv CDouble (f1 CDouble) s)).
  { apply (approx_div CDouble 0 N 0 0 (-100) 153); auto using half_0, between_1, one_approx; try (cbn [emax]; lia). apply sh_half. lia. }
  assert (B1 : between (-153) 100 (1 / S)).
  { apply (between_eq _ _ (/ S)%Q); [unfold Qdiv; ring|]. exact (between_inv _ _ _ OB'). }
  assert (I2 : approx CDouble (Datatypes.S ((1 + (0 + N)) + 0)) (1 / S * real (tr g)) (FTimes CDouble (FDiv CDouble (f1 CDouble) s) (tr g))).
  { apply (approx_times CDouble _ 0 (-153) 100 (-100) 100); auto using half_0; try (cbn [emax]; lia); [apply sh_half; lia|]. apply approx_exact; auto. }
  assert (EQ : (1 / S * real (tr g) == this (share N A u v))%Q).
  { unfold share. rewrite div_q, EA. fold S. unfold Qdiv. ring. }
  assert (B2 : between (-253) 0 (1 / S * real (tr g))).
  { split; [exact (proj1 (between_mult _ _ _ _ _ _ B1 B))|].
    assert (L : (this (A u v) <= S)%Q) by (apply (qsum_term N (A u) v); [auto|intros; apply A_nn]).
    rewrite EA in L. pose proof (between_pos _ _ _ OB') as S0. change (two ^ 0)%Q with 1%Q.
    apply (Qmult_le_l _ _ S S0). setoid_replace (S * (1 / S * real (tr g)))%Q with (real (tr g)) by (field; lra). lra. }
  replace (N + 2) with (Datatypes.S ((1 + (0 + N)) + 0)) by lia. split; [exact (approx_eq _ _ _ _ _ EQ I2)|]. rewrite <- EQ. exact B2.
Qed.

Lemma share_wins m i v : clear_round N (4 * N + 4) (share N A) m -> i < N -> v < N -> (fwins N (fshare N tr G) m i v <-> wins N (share N A) m i v).
Proof.
  intros CL Hi Hv. apply (wins_clear N (2 * N + 2)); auto.
  2:{ replace (2 * N + 2 + (2 * N + 2)) with (4 * N + 4) by lia. exact CL. }
  clear i Hi. intros i Hi.
  pose proof (approx_osum CDouble (N + 2) (-253) 53 (fun u => if m i u then fshare N tr G u v else None) (fun u => if m i u then share N A u v else 0%Qc)
    ltac:(cbn [emax]; lia) ltac:(cbn [emax]; lia) N) as H.
  unfold fvotes. change (qsum N (fun u => if m i u then share N A u v else 0%Qc)) with (votes N (share N A) m i v) in H.
  assert (X : forall u, u < N -> match (if m i u then fshare N tr G u v else None) with
    | Some x => approx CDouble (N + 2) (this (if m i u then share N A u v else 0%Qc)) x /\ (two ^ (-253) <= this (if m i u then share N A u v else 0%Qc))%Q
    | None => (if m i u then share N A u v else 0%Qc) = 0%Qc end).
  { intros u Hu. destruct (m i u); [|reflexivity]. pose proof (sh_approx u v Hu Hv) as Q. destruct (fshare N tr G u v); [|exact Q]. tauto. }
  assert (UB : (this (votes N (share N A) m i v) <= two ^ 53)%Q).
  { assert (L : (votes N (share N A) m i v <= qsum N (fun _ => 1))%Qc).
    { apply qsum_le. intros u Hu. destruct (m i u); [|discriminate]. pose proof (sh_approx u v Hu Hv) as Q. destruct (fshare N tr G u v).
      - destruct Q as (_ & _ & Q). exact Q.
      - rewrite Q. discriminate. }
    rewrite qsum_const in L. unfold Qcle in L. rewrite mult_q, nat_q_this in L. change (this 1%Qc) with 1%Q in L.
    assert (inject_Z (Z.of_nat N) <= two ^ 53)%Q by (change (two ^ 53)%Q with (inject_Z (2 ^ 53)); rewrite <- Zle_Qle; lia). lra. }
  specialize (H X UB ltac:(apply sh_half; lia)). destruct (osum _ _) as [s|]; [|exact H]. destruct H as (H1 & H2).
  replace (2 * N + 2) with (N + 2 + N) by lia. split; [exact H1|]. unfold Qclt. change (this 0%Qc) with 0%Q. pose proof (two_pos (-253)). lra.
Qed.
End Shares.
