(** Page rank over [double] approximates the iterates of the random surfer. *)
From Coq Require Import ZArith QArith Qabs Qcanon Lia Lqa Floats.SpecFloat.
From Verif Require Import Base ModelLil ModelVec ModelViews ModelFloat ModelFsssp ModelConv ModelRankTypes
  Spec SpecOps SpecRank SpecFloats SpecFpaths SpecIntPaths SpecConv SpecNormalize SpecRankTypes
  ProofBase ProofLil ProofGraph ProofVec ProofRank ProofFloat ProofConv ProofNormalize ProofNormalizeRows ProofApprox ProofRankTypes.
Local Open Scope nat_scope.

Lemma exact_q_this x : (this (exact_q x) == real x)%Q.
Proof. apply Qred_correct. Qed.
Lemma nat_q_this n : (this (nat_q n) == inject_Z (Z.of_nat n))%Q.
Proof. apply Qred_correct. Qed.
Lemma inv_q (x : Qc) : (this (/ x)%Qc == / this x)%Q.
Proof. apply Qred_correct. Qed.
Lemma div_q (x y : Qc) : (this (x / y)%Qc == this x / this y)%Q.
Proof. unfold Qcdiv. rewrite mult_q, inv_q. reflexivity. Qed.

Lemma qsum_last_le n g : (0 <= g n)%Qc -> (this (qsum n g) <= this (qsum (S n) g))%Q.
Proof. intros H. cbn [qsum]. rewrite plus_q. unfold Qcle in H. change (this 0%Qc) with 0%Q in H. lra. Qed.

(** A sum of positive numbers. *)
Lemma approx_osum t K a b (h : nat -> option fval) (g : nat -> Qc) : (3 - emax t <= a - 1)%Z -> (b + 2 <= emax t - 2)%Z -> forall n,
  (forall i, i < n -> match h i with Some x => approx t K (this (g i)) x /\ (two ^ a <= this (g i))%Q | None => g i = 0%Qc end) ->
  (this (qsum n g) <= two ^ b)%Q -> (1 # 2 <= shrink t (K + n))%Q ->
  match osum (FPlus t) (map h (seq 0 n)) with
  | Some s => approx t (K + n) (this (qsum n g)) s /\ (two ^ a <= this (qsum n g))%Q
  | None => qsum n g = 0%Qc
  end.
Proof.
  intros HA HB. induction n as [|n IH]; intros H UB HS; [reflexivity|].
  assert (P : forall i, i < S n -> (0 <= g i)%Qc).
  { intros i Hi. specialize (H i Hi). destruct (h i) as [x|]; [|rewrite H; discriminate]. unfold Qcle. change (this 0%Qc) with 0%Q. pose proof (two_pos a). lra. }
  pose proof (qsum_last_le n g (P n (Nat.lt_succ_diag_r n))) as L.
  assert (S0 : (0 <= qsum n g)%Qc) by (apply qsum_nonneg; auto).
  assert (HS' : (1 # 2 <= shrink t (K + n))%Q) by (pose proof (shrink_le t (K + n) (K + S n)) as Q; specialize (Q ltac:(lia)); lra).
  specialize (IH (fun i Hi => H i (Nat.lt_lt_succ_r _ _ Hi)) (Qle_trans _ _ _ L UB) HS'). rewrite seq_S, map_app. cbn [map]. rewrite osum_snoc'. change (0 + n) with n.
  specialize (H n (Nat.lt_succ_diag_r n)). cbn [qsum] in *. replace (K + S n) with (S (K + n)) by lia.
  unfold Qcle in S0. change (this 0%Qc) with 0%Q in S0. pose proof (two_pos a) as TA. rewrite plus_q in UB, L.
  destruct (osum (FPlus t) (map h (seq 0 n))) as [s|], (h n) as [x|]; cbn [oadd].
  - destruct IH as [A1 A2], H as [B1 B2]. split; [|rewrite plus_q; lra].
    apply (approx_eq t _ (this (qsum n g) + this (g n))%Q); [symmetry; apply plus_q|].
    apply (approx_plus t _ a b); auto; [split; lra|split; lra|]. apply (approx_le t K); auto; [lia|lra].
  - rewrite H. replace (qsum n g + 0)%Qc with (qsum n g) by ring. destruct IH as [A1 A2]. split; auto. apply (approx_le t (K + n)); auto; lia.
  - rewrite IH. replace (0 + g n)%Qc with (g n) by ring. destruct H as [B1 B2]. split; auto. apply (approx_le t K); auto; [lia|lra].
  - rewrite IH, H. ring.
Qed.

(** The ranks add up to at most 1. *)
Lemma iter_total N A d k : N <> 0 -> (forall u v, 0 <= A u v / qsum N (A u))%Qc -> (forall u, qsum N (fun v => A u v / qsum N (A u)) <= 1)%Qc ->
  (0 <= d)%Qc -> (d <= 1)%Qc ->
  (forall v, v < N -> (0 <= rank_iter N A d k v)%Qc) /\ (qsum N (rank_iter N A d k) <= 1)%Qc.
Proof.
  intros N0 P0 P1 d0 d1. pose proof (nat_q_pos N N0) as NP. pose proof (Qc_inv_pos _ NP) as NI. induction k as [|k [IH0 IH1]].
  - cbn [rank_iter]. rewrite qsum_const. unfold Qcdiv. rewrite Qcmult_1_l. split; [intros; apply Qclt_le_weak; auto|]. rewrite Qcmult_inv_r; [discriminate|]. apply Qc_pos_neq; auto.
  - cbn [rank_iter]. set (r := rank_iter N A d k) in *. unfold rank_step. split.
    + intros v Hv. assert (H1 : (0 <= (1 - d) / nat_q N)%Qc) by (apply Qc_mult_nonneg; [clear - d1; qlra|apply Qclt_le_weak; auto]).
      assert (H2 : (0 <= d * qsum N (fun u => r u * (A u v / qsum N (A u))))%Qc).
      { apply Qc_mult_nonneg; auto. apply qsum_nonneg. intros u Hu. apply Qc_mult_nonneg; auto. }
      revert H1 H2. generalize ((1 - d) / nat_q N)%Qc (d * qsum N (fun u => r u * (A u v / qsum N (A u))))%Qc. intros. qlra.
    + rewrite qsum_add, qsum_const, qsum_scale, qsum_swap.
      assert (L : (qsum N (fun u => qsum N (fun v => r u * (A u v / qsum N (A u)))) <= qsum N r)%Qc).
      { apply qsum_le. intros u Hu. rewrite qsum_scale. rewrite Qcmult_comm. replace (r u) with (1 * r u)%Qc at 2 by ring. apply Qc_mult_le; auto. }
      set (X := qsum N (fun u => qsum N _)) in *. replace (nat_q N * ((1 - d) / nat_q N))%Qc with (1 - d)%Qc by (field; apply Qc_pos_neq; auto).
      assert (L2 : (X * d <= 1 * d)%Qc) by (apply Qc_mult_le; auto; eapply Qcle_trans; eauto).
      replace (d * X)%Qc with (X * d)%Qc by ring. replace (1 * d)%Qc with d in L2 by ring. revert L2. generalize (X * d)%Qc. intros y L2. clear - L2. qc_q. rewrite minus_q. change (this 1%Qc) with 1%Q. lra.
Qed.
Lemma qsum_term N f v : v < N -> (forall i, i < N -> (0 <= f i)%Qc) -> (f v <= qsum N f)%Qc.
Proof.
  induction N as [|N IH]; intros Hv H; [lia|]. cbn [qsum]. assert (0 <= qsum N f)%Qc by (apply qsum_nonneg; auto).
  assert (0 <= f N)%Qc by auto. destruct (Nat.eq_dec v N) as [->|]; [qlra|]. assert (f v <= qsum N f)%Qc by (apply IH; auto; lia). qlra.
Qed.

Section Double.
Context {T : Type} (tr : T -> fval) (rt : nat -> fval) (G : lil T) (N : nat) (d : fval) (max : nat).
Hypothesis WG : wfm G.
Hypothesis RG : nrows G = N.
Hypothesis CG : ncols G = N.
Hypothesis N0 : N <> 0.
Hypothesis NB : (Z.of_nat N <= 2 ^ 53)%Z.
Hypothesis WB : forall u v g, mget G u v = Some g -> value CDouble (tr g) /\ finite (tr g) /\ between (-100) 100 (real (tr g)).
Hypothesis Vd : value CDouble d.
Hypothesis Fd : finite d.
Hypothesis d0 : (two ^ (-53) <= real d)%Q.
Hypothesis d1 : (real d <= 1 - two ^ (-53))%Q.
Hypothesis Hrt : is_int CDouble (Z.of_nat N) (rt N).
Hypothesis in_edge : forall v, v < N -> exists u, mget G u v <> None.
Hypothesis MB : (2 * Z.of_nat (1 + max * (2 * N + 5)) <= 2 ^ 53)%Z.

Let one := f1 CDouble.
Let plus := FPlus CDouble.
Let times := FTimes CDouble.
Let inv := FMultiplicativeInverse CDouble.
Let fN := of_int CDouble (Z.of_nat N).
Let tele := FDiv CDouble (FMinus CDouble one d) (rt N).
Let fm := gmat f0 plus times inv tr G N d.
Let r := giter f0 plus times N fm tele (FDiv CDouble one fN).
Let A := weight (fun g => exact_q (tr g)) G.
Let dq := exact_q d.
Let K j := 1 + j * (2 * N + 5).

Lemma K_half j : j <= max -> (1 # 2 <= shrink CDouble (K j))%Q.
Proof.
  intros H. apply shrink_half. change (prec CDouble) with 53%Z. unfold K. assert (j * (2 * N + 5) <= max * (2 * N + 5)) by (apply Nat.mul_le_mono_r; auto). lia.
Qed.
Lemma half_le i j : i <= j -> (1 # 2 <= shrink CDouble j)%Q -> (1 # 2 <= shrink CDouble i)%Q.
Proof. intros H B. pose proof (shrink_le CDouble i j H). lra. Qed.
Lemma half_0 : (1 # 2 <= shrink CDouble 0)%Q.
Proof. rewrite shrink_0. lra. Qed.
Lemma half_1 : (1 # 2 <= shrink CDouble 1)%Q.
Proof. apply shrink_half. vm_compute. discriminate. Qed.
Lemma one_approx : approx CDouble 0 1 one.
Proof. apply (approx_eq _ _ (real one)); [reflexivity|]. apply approx_exact; [reflexivity|exact I]. Qed.
Lemma between_1 : between 0 0 1.
Proof. split; vm_compute; discriminate. Qed.
Lemma N_between : between 0 53 (inject_Z (Z.of_nat N)).
Proof.
  split.
  - change (two ^ 0)%Q with (inject_Z 1). rewrite <- Zle_Qle. lia.
  - apply (Qle_trans _ (inject_Z (2 ^ 53))); [rewrite <- Zle_Qle; auto|]. apply Qle_lteq. right. apply two_Z. lia.
Qed.
Lemma fN_approx : approx CDouble 0 (inject_Z (Z.of_nat N)) fN.
Proof. destruct (int_exact CDouble (Z.of_nat N)) as (V & F & E); [cbn [prec]; lia|]. apply (approx_eq _ _ (real fN)); [exact E|]. apply approx_exact; auto. Qed.
Lemma rt_approx : approx CDouble 0 (inject_Z (Z.of_nat N)) (rt N).
Proof.
  destruct (is_int_real CDouble (2 ^ 53) (Z.of_nat N) (rt N)) as (V & F & E); [cbn [prec]; lia|split; [exact Hrt|lia]|].
  apply (approx_eq _ _ (real (rt N))); [exact E|]. apply approx_exact; auto.
Qed.
Lemma init_approx v : approx CDouble (K 0) (this (rank_iter N A dq 0 v)) (r 0 v).
Proof.
  cbn [rank_iter]. apply (approx_eq _ _ (1 / inject_Z (Z.of_nat N))%Q); [rewrite div_q, nat_q_this; reflexivity|].
  apply (approx_div CDouble 0 0 0 0 0 53); auto using half_0, between_1, N_between, one_approx, fN_approx; cbn [emax]; lia.
Qed.
Lemma d_between : between (-53) 0 (real d).
Proof. split; auto. pose proof (two_pos (-53)). change (two ^ 0)%Q with 1%Q. lra. Qed.
Lemma c_between : between (-53) 0 (1 - real d).
Proof. split; pose proof (two_pos (-53)); change (two ^ 0)%Q with 1%Q; lra. Qed.
Lemma tele_approx : approx CDouble 2 (this ((1 - dq) / nat_q N)%Qc) tele.
Proof.
  apply (approx_eq _ _ ((1 - real d) / inject_Z (Z.of_nat N))%Q).
  { rewrite div_q, nat_q_this, minus_q. unfold dq. rewrite exact_q_this. reflexivity. }
  assert (C : approx CDouble 1 (1 - real d) (FMinus CDouble one d)).
  { apply (approx_round CDouble 0 _ (1 - real d)).
    - apply (rounds_eq _ (real one - real d)%Q); [change (real one) with (inject_Z 4503599627370496 * two ^ (-52))%Q; setoid_replace (inject_Z 4503599627370496 * two ^ (-52))%Q with 1%Q by reflexivity; reflexivity|].
      apply minus_rounds; auto; [reflexivity|exact I].
    - apply (between_pos _ _ _ c_between).
    - apply (between_pos _ _ _ c_between).
    - apply (between_wide CDouble (-53) 0); try (cbn [emax]; lia). exact c_between.
    - rewrite shrink_0. lra.
    - rewrite shrink_0. lra. }
  apply (approx_div CDouble 1 0 (-53) 0 0 53); auto using half_0, half_1, c_between, N_between, rt_approx; cbn [emax]; lia.
Qed.
Lemma tele_between : between (-106) 0 (this ((1 - dq) / nat_q N)%Qc).
Proof.
  apply (between_eq _ _ ((1 - real d) * / inject_Z (Z.of_nat N))%Q).
  { rewrite div_q, nat_q_this, minus_q. unfold dq. rewrite exact_q_this. reflexivity. }
  apply (between_le (-53 + -53) (0 + - 0)); try lia. exact (between_mult _ _ _ _ _ _ c_between (between_inv _ _ _ N_between)).
Qed.

Lemma W_pos u v g : mget G u v = Some g -> (0 < exact_q (tr g))%Qc.
Proof. intros E. destruct (WB _ _ _ E) as (_ & _ & B). apply between_pos in B. unfold Qclt. rewrite exact_q_this. exact B. Qed.
Lemma dq0 : (0 <= dq)%Qc.
Proof. unfold Qcle, dq. rewrite exact_q_this. pose proof (two_pos (-53)). change (this 0%Qc) with 0%Q. lra. Qed.
Lemma dq1 : (dq <= 1)%Qc.
Proof. unfold Qcle, dq. rewrite exact_q_this. pose proof (two_pos (-53)). change (this 1%Qc) with 1%Q. lra. Qed.
Lemma W_nonneg u v : (0 <= A u v)%Qc.
Proof. apply (A_nonneg (fun g => exact_q (tr g)) G W_pos). Qed.
Lemma P0 u v : (0 <= A u v / qsum N (A u))%Qc.
Proof. exact (prob_nonneg (fun g => exact_q (tr g)) G N WG RG CG N0 W_pos u v). Qed.
Lemma P1 u : (qsum N (fun v => A u v / qsum N (A u)) <= 1)%Qc.
Proof. exact (prob_sum (fun g => exact_q (tr g)) G N u). Qed.

(** Exact ranks. *)
Lemma iter_between j v : v < N -> between (-106) 0 (this (rank_iter N A dq j v)).
Proof.
  intros Hv. destruct (iter_total N A dq j N0 P0 P1 dq0 dq1) as [I0 I1]. split.
  - destruct j as [|j].
    + cbn [rank_iter]. rewrite div_q, nat_q_this. destruct (between_mult _ _ _ _ _ _ between_1 (between_inv _ _ _ N_between)) as [B _].
      refine (Qle_trans _ _ _ _ B). apply two_le. lia.
    + cbn [rank_iter]. unfold rank_step. rewrite plus_q. destruct tele_between as [B _].
      assert (0 <= dq * qsum N (fun u => rank_iter N A dq j u * (A u v / qsum N (A u))))%Qc as H.
      { apply Qc_mult_nonneg; [apply dq0|]. apply qsum_nonneg. intros u Hu. apply Qc_mult_nonneg; [|apply P0].
        apply (iter_total N A dq j N0 P0 P1 dq0 dq1); auto. }
      unfold Qcle in H. change (this 0%Qc) with 0%Q in H. lra.
  - pose proof (qsum_term N (rank_iter N A dq j) v Hv I0) as B. unfold Qcle in B, I1. change (two ^ 0)%Q with (this 1%Qc). lra.
Qed.

(** The sum of the weights of the edges that leave a vertex. *)
Lemma out_le u : (this (qsum N (A u)) <= two ^ 153)%Q.
Proof.
  assert (H : (qsum N (A u) <= qsum N (fun _ => Q2Qc (two ^ 100)))%Qc).
  { apply qsum_le. intros v _. unfold Qcle, Q2Qc. cbn [this]. rewrite Qred_correct. unfold A, weight. destruct (mget G u v) as [g|] eqn:E.
    - destruct (WB _ _ _ E) as (_ & _ & [_ B]). rewrite exact_q_this. exact B.
    - change (this 0%Qc) with 0%Q. apply Qlt_le_weak, two_pos. }
  rewrite qsum_const in H. unfold Qcle in H. rewrite mult_q, nat_q_this in H. unfold Q2Qc at 1 in H. cbn [this] in H. rewrite Qred_correct in H.
  destruct N_between as [_ B]. change 153%Z with (53 + 100)%Z. rewrite two_plus. pose proof (two_pos 100).
  assert (inject_Z (Z.of_nat N) * two ^ 100 <= two ^ 53 * two ^ 100)%Q by (apply Qmult_le_compat_r; lra). lra.
Qed.
Lemma out_approx u v g : mget G u v = Some g -> 0 < max ->
  approx CDouble N (this (qsum N (A u))) (gout f0 plus tr G N u) /\ between (-100) 153 (this (qsum N (A u))).
Proof.
  intros E MX. assert (Hv : v < N). { destruct (Nat.lt_ge_cases v N); auto. rewrite mget_oob in E by (auto; lia). discriminate. }
  unfold gout. destruct (osum_ne plus N (fun v => option_map tr (mget G u v)) v Hv) as (s & Es); [rewrite E; discriminate|].
  pose proof (approx_osum CDouble 0 (-100) 153 (fun v => option_map tr (mget G u v)) (A u) ltac:(cbn [emax]; lia) ltac:(cbn [emax]; lia) N) as H.
  fold plus in H. rewrite Es in H |- *. cbn [oget]. destruct H as [H1 H2].
  - intros w Hw. unfold A, weight. destruct (mget G u w) as [x|] eqn:Ex; cbn [option_map]; [|reflexivity].
    destruct (WB _ _ _ Ex) as (V & F & [B _]). split; [|rewrite exact_q_this; exact B].
    apply (approx_eq _ _ (real (tr x))); [symmetry; apply exact_q_this|]. apply approx_exact; auto.
  - apply out_le.
  - apply (half_le _ (K max)); [unfold K; nia|]. apply K_half. auto.
  - split; [exact H1|]. split; [exact H2|]. apply out_le.
Qed.

(** The matrix. *)
Lemma mat_approx u v g : mget G u v = Some g -> 0 < max ->
  approx CDouble (N + 3) (this (A u v / qsum N (A u) * dq)%Qc) (times (times (inv (gout f0 plus tr G N u)) (tr g)) d) /\
  between (-306) 0 (this (A u v / qsum N (A u) * dq)%Qc).
Proof.
  intros E MX. destruct (out_approx u v g E MX) as [OA OB]. destruct (WB _ _ _ E) as (V & F & B). set (S := this (qsum N (A u))) in *.
  assert (HM : forall i, i <= N + 4 -> (1 # 2 <= shrink CDouble i)%Q).
  { intros i Hi. apply (half_le _ (K max)); [unfold K; nia|]. apply K_half. auto. }
  assert (EA : (this (A u v) == real (tr g))%Q) by (unfold A, weight; rewrite E; apply exact_q_this).
  assert (I1 : approx CDouble (1 + (0 + N)) (1 / S) (inv (gout f0 plus tr G N u))).
  { apply (approx_div CDouble 0 N 0 0 (-100) 153); auto using half_0, between_1, one_approx; try (cbn [emax]; lia). apply HM. lia. }
  assert (B1 : between (-153) 100 (1 / S)).
  { apply (between_eq _ _ (/ S)%Q); [unfold Qdiv; ring|]. exact (between_inv _ _ _ OB). }
  assert (I2 : approx CDouble (Datatypes.S ((1 + (0 + N)) + 0)) (1 / S * real (tr g)) (times (inv (gout f0 plus tr G N u)) (tr g))).
  { apply (approx_times CDouble _ 0 (-153) 100 (-100) 100); auto using half_0; try (cbn [emax]; lia); [apply HM; lia|]. apply approx_exact; auto. }
  assert (B2 : between (-253) 0 (1 / S * real (tr g))).
  { split; [exact (proj1 (between_mult _ _ _ _ _ _ B1 B))|].
    assert (L : (this (A u v) <= S)%Q).
    { apply (qsum_term N (A u) v); [|intros; apply W_nonneg]. destruct (Nat.lt_ge_cases v N); auto. rewrite mget_oob in E by (auto; lia). discriminate. }
    rewrite EA in L. pose proof (between_pos _ _ _ OB) as S0. change (two ^ 0)%Q with 1%Q. 
    apply (Qmult_le_l _ _ S S0). setoid_replace (S * (1 / S * real (tr g)))%Q with (real (tr g)) by (field; lra). lra. }
  assert (EQ : (1 / S * real (tr g) * real d == this (A u v / qsum N (A u) * dq)%Qc)%Q).
  { rewrite mult_q, div_q, EA. unfold dq. rewrite exact_q_this. fold S. unfold Qdiv. ring. }
  split.
  - apply (approx_eq _ _ _ _ _ EQ). replace (N + 3) with (Datatypes.S (Datatypes.S ((1 + (0 + N)) + 0) + 0)) by lia.
    apply (approx_times CDouble _ 0 (-253) 0 (-53) 0); auto using half_0, d_between; try (cbn [emax]; lia); [apply HM; lia|]. apply approx_exact; auto.
  - apply (between_eq _ _ _ _ EQ). exact (between_mult _ _ _ _ _ _ B2 d_between).
Qed.

(** The iterates. *)
Lemma step_eq j v : rank_iter N A dq (S j) v =
  (qsum N (fun u => rank_iter N A dq j u * (A u v / qsum N (A u) * dq)) + (1 - dq) / nat_q N)%Qc.
Proof.
  cbn [rank_iter]. unfold rank_step. rewrite <- qsum_scale. rewrite Qcplus_comm. f_equal. apply qsum_ext. intros. ring.
Qed.
Lemma iter_approx : forall j, j <= max -> forall v, v < N -> approx CDouble (K j) (this (rank_iter N A dq j v)) (r j v).
Proof.
  induction j as [|j IH]; intros Hj v Hv; [apply init_approx|]. specialize (IH ltac:(lia)). rewrite step_eq.
  set (g := fun u => (rank_iter N A dq j u * (A u v / qsum N (A u) * dq))%Qc).
  assert (HM : forall i, i <= K (S j) -> (1 # 2 <= shrink CDouble i)%Q) by (intros i Hi; apply (half_le _ (K (S j))); auto; apply K_half; auto).
  assert (KS : K (S j) = K j + (2 * N + 5)) by (unfold K; lia).
  assert (GB : forall u, u < N -> match fm u v with Some x => approx CDouble (K j + N + 4) (this (g u)) (times (r j u) x) /\ (two ^ (-412) <= this (g u))%Q | None => g u = 0%Qc end).
  { intros u Hu. unfold fm, gmat. destruct (mget G u v) as [e|] eqn:E; cbn [option_map].
    - destruct (mat_approx u v e E ltac:(lia)) as [M1 M2]. pose proof (iter_between j u Hu) as B. pose proof (IH u Hu) as X.
      assert (EG : (this (rank_iter N A dq j u) * this (A u v / qsum N (A u) * dq)%Qc == this (g u))%Q) by (symmetry; unfold g; apply mult_q).
      split.
      + apply (approx_eq _ _ _ _ _ EG). replace (K j + N + 4) with (S (K j + (N + 3))) by lia.
        apply (approx_times CDouble _ _ (-106) 0 (-306) 0); auto; try (cbn [emax]; lia); apply HM; lia.
      + apply (between_eq _ _ _ _ EG (between_mult _ _ _ _ _ _ B M2)).
    - unfold g. assert (A u v = 0)%Qc as -> by (unfold A, weight; rewrite E; reflexivity). unfold Qcdiv. ring. }
  assert (GT : (this (qsum N g) <= two ^ 0)%Q).
  { destruct (iter_total N A dq j N0 P0 P1 dq0 dq1) as [I0 I1].
    assert (H : (qsum N g <= qsum N (rank_iter N A dq j))%Qc).
    { apply qsum_le. intros u Hu. unfold g. rewrite Qcmult_comm. replace (rank_iter N A dq j u) with (1 * rank_iter N A dq j u)%Qc at 2 by ring.
      apply Qc_mult_le; [apply I0; auto|]. assert (L : (A u v / qsum N (A u) <= 1)%Qc).
      { eapply Qcle_trans; [apply (qsum_term N (fun v => A u v / qsum N (A u))%Qc v); auto; intros; apply P0|apply P1]. }
      assert (L2 : (A u v / qsum N (A u) * dq <= 1 * dq)%Qc) by (apply Qc_mult_le; auto; apply dq0).
      eapply Qcle_trans; [exact L2|]. replace (1 * dq)%Qc with dq by ring. apply dq1. }
    unfold Qcle in H, I1. change (two ^ 0)%Q with (this 1%Qc). lra. }
  pose proof (approx_osum CDouble (K j + N + 4) (-412) 0 (fun u => option_map (times (r j u)) (fm u v)) g ltac:(cbn [emax]; lia) ltac:(cbn [emax]; lia) N) as H.
  assert (H' : match osum plus (map (fun u => option_map (times (r j u)) (fm u v)) (seq 0 N)) with
     | Some s => approx CDouble (K j + N + 4 + N) (this (qsum N g)) s /\ (two ^ (-412) <= this (qsum N g))%Q
     | None => qsum N g = 0%Qc end).
  { apply H; [|exact GT|apply HM; lia]. intros u Hu. specialize (GB u Hu). destruct (fm u v); exact GB. }
  change (r (S j) v) with (gstep f0 plus times N fm tele (r j) v). unfold gstep.
  destruct (gmat_in f0 plus times inv tr G N d WG RG CG N0 in_edge v Hv) as (u & Hu & E). fold fm in E.
  destruct (osum_ne plus N (fun u => option_map (times (r j u)) (fm u v)) u Hu) as (s & Es); [destruct (fm u v); [discriminate|congruence]|].
  rewrite Es in *. cbn [oget]. destruct H' as [H1 H2].
  apply (approx_eq _ _ (this (qsum N g) + this ((1 - dq) / nat_q N)%Qc)%Q); [symmetry; apply plus_q|].
  replace (K (S j)) with (S (K j + N + 4 + N)) by lia.
  apply (approx_plus CDouble _ (-412) 0); auto; try (cbn [emax]; lia).
  - apply HM. lia.
  - split; auto.
  - apply (between_le (-106) 0); try lia. apply tele_between.
  - apply (approx_le _ 2); [lia| |apply tele_approx]. apply Qlt_le_weak. apply (between_pos _ _ _ tele_between).
Qed.
Lemma iter_truthy k v : k <= max -> v < N -> ftrue (r k v) = true.
Proof.
  intros Hk Hv. pose proof (iter_approx k Hk v Hv) as X. pose proof (approx_between _ _ _ _ _ _ (K_half k Hk) (iter_between k v Hv) X) as B.
  apply between_pos in B. destruct (r k v); cbn in *; auto. lra.
Qed.

Lemma dpage_rank_ok p thr : wfv p -> vsize p = N ->
  exists p' k, dpage_rank tr rt G p d thr max = Ok p' /\ wfv p' /\ vsize p' = N /\ k <= max /\
    (forall v, v < N -> vget p' v = Some (r k v)) /\
    (k < max -> 0 < k /\ FLessThan (computed_change CDouble N (r (k - 1)) (r k)) thr = true) /\
    (forall i, i + 1 < k -> FLessThan (computed_change CDouble N (r i) (r (i + 1))) thr = false).
Proof.
  intros Wp Sp. exact (rt_page_rank_ok f0 one plus (FMinus CDouble) times (FDiv CDouble) inv FLessThan ftrue (fun n => of_int CDouble (Z.of_nat n))
    tr G N d WG RG CG N0 in_edge rt p thr max Wp Sp iter_truthy).
Qed.
End Double.

(** ** Distances *)
Lemma relative_qc e (q : Qc) x : relative e (this q) x -> (Qcabs.Qcabs (exact_q x - q) <= Q2Qc e * q)%Qc.
Proof.
  intros [_ H]. unfold Qcle. rewrite mult_q. unfold Q2Qc at 1. cbn [this]. rewrite Qred_correct.
  assert (E : (this (Qcabs.Qcabs (exact_q x - q)%Qc) == Qabs (real x - this q))%Q).
  { unfold Qcabs.Qcabs. cbn [this]. apply Qabs_wd. rewrite minus_q, exact_q_this. reflexivity. }
  rewrite E. exact H.
Qed.
Lemma l1_relative N e (r : nat -> Qc) (x : nat -> fval) : (0 <= e)%Q -> (forall v, v < N -> relative e (this (r v)) (x v)) -> (qsum N r <= 1)%Qc ->
  (l1 N (fun v => exact_q (x v)) r <= Q2Qc e)%Qc.
Proof.
  intros E0 H S. unfold l1. apply Qcle_trans with (y := (Q2Qc e * qsum N r)%Qc).
  - rewrite <- qsum_scale. apply qsum_le. intros v Hv. apply relative_qc. auto.
  - rewrite Qcmult_comm. replace (Q2Qc e) with (1 * Q2Qc e)%Qc at 2 by ring. apply Qc_mult_le; auto.
    unfold Qcle, Q2Qc. cbn [this]. rewrite !Qred_correct. exact E0.
Qed.
Lemma l1_sym N r s : l1 N r s = l1 N s r.
Proof. apply qsum_ext. intros v _. rewrite <- Qcabs.Qcabs_opp. f_equal. ring. Qed.
Lemma l1_two N r s : (forall v, v < N -> (0 <= r v)%Qc) -> (forall v, v < N -> (0 <= s v)%Qc) -> (qsum N r <= 1)%Qc -> (qsum N s <= 1)%Qc ->
  (l1 N r s <= Q2Qc (2 # 1))%Qc.
Proof.
  intros R0 S0 R1 S1. apply Qcle_trans with (y := (qsum N r + qsum N s)%Qc).
  - rewrite <- qsum_add. apply qsum_le. intros v Hv. specialize (R0 v Hv). specialize (S0 v Hv).
    apply Qcabs.Qcabs_case; intros _; revert R0 S0; generalize (r v) (s v); intros a b; clear; intros; qc_q; rewrite ?minus_q; lra.
  - revert R1 S1. generalize (qsum N r) (qsum N s). clear. intros a b A B. unfold Qcle in *. rewrite plus_q. change (this (Q2Qc (2 # 1))) with (2 # 1)%Q.
    change (this 1%Qc) with 1%Q in *. lra.
Qed.
Lemma iter_fixed N A d s : (forall u v, 0 <= A u v / qsum N (A u))%Qc -> (forall u, qsum N (fun v => A u v / qsum N (A u)) <= 1)%Qc -> (0 <= d)%Qc ->
  (forall v, v < N -> s v = rank_step N A d s v) -> forall k, (l1 N (rank_iter N A d k) s <= Qcpower d k * l1 N (rank_iter N A d 0) s)%Qc.
Proof.
  intros P0 P1 d0 FX. induction k as [|k IH].
  - cbn [Qcpower]. rewrite Qcmult_1_l. apply Qcle_refl.
  - rewrite (l1_ext N (rank_iter N A d (S k)) (rank_step N A d (rank_iter N A d k)) s (rank_step N A d s)) by auto.
    eapply Qcle_trans; [apply step_contracts; auto|]. change (Qcpower d (S k)) with (d * Qcpower d k)%Qc. rewrite <- Qcmult_assoc, !(Qcmult_comm d). apply Qc_mult_le; auto.
Qed.
