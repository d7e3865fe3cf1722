(** Louvain clustering over [double]. *)
From Coq Require Import Lia Lqa ZArith QArith Qabs Qcanon Floats.SpecFloat.
From Verif Require Import Base ModelLil ModelVec ModelHelpers ModelViews ModelMul ModelElem ModelIndex ModelUtils
  ModelAlgoBase ModelRank ModelCluster ModelLouvain ModelFloat ModelConv ModelClusterTypes ModelLouvainTypes
  Spec SpecOps SpecRank SpecFloats SpecConv SpecNormalize SpecRankTypes SpecLouvain SpecLouvainTypes
  ProofBase ProofLil ProofVec ProofMul ProofFloat ProofConv ProofDiv ProofNormalize ProofApprox ProofRank ProofRankApprox ProofVis ProofRc ProofModularity
  ProofGraph ProofLouvain ProofLouvainTypes ProofClusterTypes ProofClusterDouble ProofAbsErr.
Local Open Scope nat_scope.

Section Double.
Context {T : Type} (tr : T -> fval) (tb : T -> bool) (tplus : T -> T -> T) (N : nat) (G : lil T).
Hypothesis (N0 : N <> 0) (NB : (Z.of_nat N <= 2 ^ 40)%Z).
Hypothesis (WG : wfm G) (RG : nrows G = N) (CG : ncols G = N).
Hypothesis symG : forall u v, mget G u v = mget G v u.
Hypothesis loopG : forall v, mget G v v = None.
Hypothesis WB : forall u v g, mget G u v = Some g ->
  value CDouble (tr g) /\ finite (tr g) /\ between (-100) 100 (real (tr g)).
Hypothesis DB : forall u v g, mget G u v = Some g ->
  value CDouble (tr (tplus g g)) /\ finite (tr (tplus g g)) /\ (real (tr (tplus g g)) == real (tr g) + real (tr g))%Q.
Notation A := (weight (fun g => exact_q (tr g)) G).
Notation plus := (FPlus CDouble).
Notation degs := (gdegs plus tr N G).
Notation half := (ghalf f0 plus (FDiv CDouble) (of_int CDouble 2) tr N G).
Notation W := (total_weight N A).
Notation deg := (degree N A).

Lemma A_some u v g : mget G u v = Some g -> (this (A u v) == real (tr g))%Q.
Proof. intro E. unfold weight. rewrite E. apply exact_q_this. Qed.
Lemma A_none u v : mget G u v = None -> A u v = 0%Qc.
Proof. intro E. unfold weight. rewrite E. reflexivity. Qed.
Lemma A_nn u v : (0 <= A u v)%Qc.
Proof.
  destruct (mget G u v) as [g|] eqn:E; [|rewrite A_none; auto; apply Qcle_refl].
  unfold Qcle. rewrite (A_some u v g E). destruct (WB _ _ _ E) as (_ & _ & B). apply between_pos in B. change (this 0%Qc) with 0%Q. lra.
Qed.
Lemma A_sym u v : A u v = A v u.
Proof. unfold weight. rewrite symG. reflexivity. Qed.
Lemma A_loop v : A v v = 0%Qc.
Proof. apply A_none. auto. Qed.
Lemma sh i : i <= 8 * N + 8 -> (1 # 2 <= shrink CDouble i)%Q.
Proof. intro H. apply shrink_half. change (prec CDouble) with 53%Z. lia. Qed.
Lemma N_le : (inject_Z (Z.of_nat N) <= two ^ 40)%Q.
Proof. apply (Qle_trans _ (inject_Z (2 ^ 40))); [rewrite <- Zle_Qle; auto|]. apply Qle_lteq. right. apply two_Z. lia. Qed.
Lemma N_ge : (1 <= inject_Z (Z.of_nat N))%Q.
Proof. change 1%Q with (inject_Z 1). rewrite <- Zle_Qle. lia. Qed.

Lemma qsum_bound (f : nat -> Qc) a : (forall v, v < N -> (this (f v) <= two ^ a)%Q) -> (this (qsum N f) <= two ^ (40 + a))%Q.
Proof.
  intro H0. assert (H : (qsum N f <= qsum N (fun _ => Q2Qc (two ^ a)))%Qc).
  { apply qsum_le. intros v Hv. unfold Qcle, Q2Qc. cbn [this]. rewrite Qred_correct. auto. }
  rewrite qsum_const in H. unfold Qcle in H. rewrite mult_q, nat_q_this in H. unfold Q2Qc at 1 in H. cbn [this] in H. rewrite Qred_correct in H.
  rewrite two_plus. pose proof (two_pos a). pose proof N_le.
  assert (inject_Z (Z.of_nat N) * two ^ a <= two ^ 40 * two ^ a)%Q by (apply Qmult_le_compat_r; lra). lra.
Qed.
Lemma A_le u v : (this (A u v) <= two ^ 100)%Q.
Proof.
  destruct (mget G u v) as [g|] eqn:E.
  - rewrite (A_some _ _ _ E). apply (WB _ _ _ E).
  - rewrite (A_none _ _ E). change (this 0%Qc) with 0%Q. apply Qlt_le_weak, two_pos.
Qed.
Lemma deg_le v : (this (deg v) <= two ^ 140)%Q.
Proof. apply (qsum_bound (A v) 100). intros. apply A_le. Qed.
Lemma W_le : (this W <= two ^ 180)%Q.
Proof. apply (qsum_bound deg 140). intros. apply deg_le. Qed.

(** The degrees and half the sum of the degrees. *)
Lemma degs_ok i : match degs i with
  | Some k => approx CDouble N (this (deg i)) k /\ between (-100) 140 (this (deg i))
  | None => deg i = 0%Qc /\ forall j, j < N -> mget G i j = None
  end.
Proof.
  unfold gdegs.
  pose proof (approx_osum CDouble 0 (-100) 140 (fun j => option_map tr (mget G i j)) (A i) ltac:(cbn [emax]; lia) ltac:(cbn [emax]; lia) N) as H.
  fold (deg i) in H. specialize (fun a => H a (deg_le i) (sh (0 + N) ltac:(lia))). cbn [Nat.add] in H.
  assert (H' := H ltac:(intros w Hw; destruct (mget G i w) as [x|] eqn:Ex; cbn [option_map];
    [destruct (WB _ _ _ Ex) as (V & F & [B _]); split; [apply (approx_eq _ _ (real (tr x))); [symmetry; apply A_some; auto|apply approx_exact; auto]|
     rewrite (A_some _ _ _ Ex); exact B]|apply A_none; auto])). clear H.
  destruct (osum plus _) as [k|] eqn:E.
  - destruct H' as [H1 H2]. split; [exact H1|]. split; [exact H2|]. apply deg_le.
  - split; [exact H'|]. intros j Hj. rewrite osum_none_iff in E.
    specialize (E (option_map tr (mget G i j)) ltac:(apply in_map_iff; exists j; split; [auto|apply in_seq; lia])).
    destruct (mget G i j); [discriminate|auto].
Qed.
Lemma deg_pos i k : degs i = Some k -> (0 < deg i)%Qc.
Proof. intro E. pose proof (degs_ok i) as H. rewrite E in H. destruct H as [_ B]. apply between_pos in B. exact B. Qed.
Lemma half_ok i ki : i < N -> degs i = Some ki ->
  approx CDouble (2 * N + 1) (this W / 2) half /\ between (-101) 179 (this W / 2).
Proof.
  intros Hi Ei. unfold ghalf.
  pose proof (approx_osum CDouble N (-100) 180 degs deg ltac:(cbn [emax]; lia) ltac:(cbn [emax]; lia) N) as H.
  fold W in H. specialize (fun a => H a W_le (sh (N + N) ltac:(lia))).
  assert (H' := H ltac:(intros w Hw; pose proof (degs_ok w) as D; destruct (degs w); [destruct D as [D [B _]]; auto|apply D])). clear H.
  pose proof (total_pos N A A_nn i Hi (deg_pos i ki Ei)) as TP.
  destruct (osum plus (map degs (seq 0 N))) as [s|]; [|rewrite H' in TP; discriminate TP].
  destruct H' as [H1 H2].
  assert (BW : between (-100) 180 (this W)) by (split; [exact H2|apply W_le]).
  assert (B2 : between 1 1 2) by (split; vm_compute; discriminate).
  split.
  - replace (2 * N + 1) with (S (N + N + 0)) by lia.
    apply (approx_div CDouble (N + N) 0 (-100) 180 1 1); auto; try (cbn [emax]; lia).
    + apply sh. lia.
    + apply sh. lia.
    + apply (approx_eq _ _ (real (of_int CDouble 2))); [vm_compute; reflexivity|]. apply approx_exact; [reflexivity|exact I].
  - apply (between_le (-100 + - 1) (180 + - 1)); try lia. exact (between_mult _ _ _ _ _ _ BW (between_inv _ _ _ B2)).
Qed.

Section Vertex.
Context (i : nat) (ki : fval) (Hi : i < N) (Ei : degs i = Some ki).
Definition P (j : nat) : Qc := (deg i * deg j / W + deg i * deg j / W)%Qc.
Notation K := (4 * N + 3).
Lemma W_pos : (0 < W)%Qc.
Proof. exact (total_pos N A A_nn i Hi (deg_pos i ki Ei)). Qed.
Lemma P_nn j : (0 <= P j)%Qc.
Proof.
  assert (X : (0 <= deg i * deg j / W)%Qc).
  { unfold Qcdiv. pose proof (Qc_inv_pos _ W_pos) as IW. pose proof (degree_nonneg N A A_nn i). pose proof (degree_nonneg N A A_nn j).
    assert (0 <= deg i * deg j)%Qc by (unfold Qcle in *; rewrite mult_q; change (this 0%Qc) with 0%Q in *; apply Qmult_le_0_compat; auto).
    unfold Qcle, Qclt in *. rewrite mult_q. change (this 0%Qc) with 0%Q in *. apply Qmult_le_0_compat; lra. }
  unfold P. qlra.
Qed.
Lemma P_q j : (this (P j) == this (deg j) * (this (deg i) / (this W / 2)))%Q.
Proof.
  unfold P. rewrite plus_q, div_q, mult_q. pose proof W_pos as WP. unfold Qclt in WP. change (this 0%Qc) with 0%Q in WP. field. lra.
Qed.
Lemma product_ok j kj : degs j = Some kj ->
  let p := FTimes CDouble kj (FDiv CDouble ki half) in
  approx CDouble K (this (P j)) p /\ between (-500) 500 (this (P j)) /\
  FTimes CDouble kj (FDiv CDouble (FAdditiveInverse CDouble ki) half) = FAdditiveInverse CDouble p.
Proof.
  intros Ej p. pose proof (degs_ok i) as Di. rewrite Ei in Di. destruct Di as [Di Bi].
  pose proof (degs_ok j) as Dj. rewrite Ej in Dj. destruct Dj as [Dj Bj]. destruct (half_ok i ki Hi Ei) as [Dh Bh].
  assert (Q1 : approx CDouble (S (N + (2 * N + 1))) (this (deg i) / (this W / 2)) (FDiv CDouble ki half)).
  { apply (approx_div CDouble N (2 * N + 1) (-100) 140 (-101) 179); auto; try (cbn [emax]; lia); apply sh; lia. }
  assert (B1 : between (-279) 241 (this (deg i) / (this W / 2))).
  { apply (between_le (-100 + - 179) (140 + - -101)); try lia. exact (between_mult _ _ _ _ _ _ Bi (between_inv _ _ _ Bh)). }
  assert (Q2 : approx CDouble (S (N + S (N + (2 * N + 1)))) (this (deg j) * (this (deg i) / (this W / 2))) p).
  { apply (approx_times CDouble N (S (N + (2 * N + 1))) (-100) 140 (-279) 241); auto; try (cbn [emax]; lia); apply sh; lia. }
  split; [|split].
  - apply (approx_eq _ _ _ _ _ (Qeq_sym _ _ (P_q j))). replace K with (S (N + S (N + (2 * N + 1)))) by lia. exact Q2.
  - apply (between_eq _ _ _ _ (Qeq_sym _ _ (P_q j))). apply (between_le (-100 + -279) (140 + 241)); try lia. exact (between_mult _ _ _ _ _ _ Bj B1).
  - rewrite div_opp; [apply times_opp; [apply Dj|apply Q1]|apply Di|apply Dh|].
    pose proof (approx_between _ _ _ _ _ _ (sh (2 * N + 1) ltac:(lia)) Bh Dh) as X. apply between_pos in X. lra.
Qed.

Definition uq : Qc := Q2Qc u.
Lemma uq_this : (this uq == u)%Q.
Proof. apply Qred_correct. Qed.
Definition er (j : nat) : Qc := (uq * ((A i j + A i j) + nat_q (2 * K + 2) * P j))%Qc.
Definition bd (j : nat) : Qc := (((A i j + A i j) + P j) + ((A i j + A i j) + P j))%Qc.
Definition rowlike (row : nat -> option T) : Prop :=
  forall j, j < N -> match mget G i j with Some x => row j = Some (tplus x x) | None => row j = None end.
Notation pull := (gpull f0 plus (FTimes CDouble) (FDiv CDouble) (FAdditiveInverse CDouble) (of_int CDouble 2) tr N G).

Lemma er_q j : (this (er j) == u * (this (A i j) + this (A i j) + (2 * inject_Z (Z.of_nat K) + 2) * this (P j)))%Q.
Proof.
  unfold er. rewrite mult_q, !plus_q, mult_q, nat_q_this, uq_this. replace (Z.of_nat (2 * K + 2)) with (2 * Z.of_nat K + 2)%Z by lia.
  rewrite inject_Z_plus, inject_Z_mult. reflexivity.
Qed.
Lemma K_u : (0 <= inject_Z (Z.of_nat K))%Q /\ (8 * (inject_Z (Z.of_nat K) + 1) * u <= 1)%Q.
Proof.
  split; [change 0%Q with (inject_Z 0); rewrite <- Zle_Qle; lia|].
  assert (X : (inject_Z (8 * (Z.of_nat K + 1)) <= inject_Z (2 ^ 53))%Q) by (rewrite <- Zle_Qle; lia).
  rewrite inject_Z_mult, inject_Z_plus in X. change (inject_Z 8) with 8%Q in X. change (inject_Z 1) with 1%Q in X.
  assert (E : (inject_Z (2 ^ 53) * u == 1)%Q) by (vm_compute; reflexivity). pose proof (u_pos CDouble).
  rewrite <- E. apply Qmult_le_compat_r; lra.
Qed.
Lemma er_bd j : (0 <= er j)%Qc /\ forall q, (Qabs q <= this (A i j) + this (A i j) + this (P j))%Q -> (Qabs q + this (er j) <= this (bd j))%Q.
Proof.
  pose proof (A_nn i j) as A0. pose proof (P_nn j) as P0. unfold Qcle in *. change (this 0%Qc) with 0%Q in *.
  pose proof (er_q j) as EE. assert (EB : (this (bd j) == this (A i j) + this (A i j) + this (P j) + (this (A i j) + this (A i j) + this (P j)))%Q) by (unfold bd; rewrite !plus_q; reflexivity).
  set (ee := this (er j)) in *. set (bb := this (bd j)) in *.
  destruct K_u as [K0 K1]. pose proof (u_pos CDouble) as UP. set (k := inject_Z (Z.of_nat K)) in *. set (a := this (A i j)) in *. set (p := this (P j)) in *.
  set (w := u) in *. clearbody k a p w ee bb.
  split; [rewrite EE; apply Qmult_le_0_compat; nra|]. intros q Hq.
  assert (w * (a + a + (2 * k + 2) * p) <= a + a + p)%Q; [|lra].
  assert ((2 * k + 2) * w <= 1)%Q by nra. assert (w <= 1)%Q by nra.
  setoid_replace (w * (a + a + (2 * k + 2) * p))%Q with (w * (a + a) + ((2 * k + 2) * w) * p)%Q by ring. nra.
Qed.

Lemma pull_ok row j : rowlike row -> j < N ->
  match pull row ki j with
  | Some x => near (this (er j)) (this (excess N A i j + excess N A i j)%Qc) x
  | None => (excess N A i j + excess N A i j)%Qc = 0%Qc
  end.
Proof.
  intros HR Hj. specialize (HR j Hj). unfold gpull.
  assert (EX : (this (excess N A i j + excess N A i j)%Qc == this (A i j) + this (A i j) - this (P j))%Q).
  { unfold excess, P. rewrite !plus_q, !minus_q. ring. }
  pose proof (A_nn i j) as A0. pose proof (P_nn j) as P0. unfold Qcle in A0, P0. change (this 0%Qc) with 0%Q in *.
  destruct K_u as [K0 K1]. pose proof (u_pos CDouble) as UP.
  pose proof (degs_ok j) as Dj. destruct (degs j) as [kj|] eqn:Ej.
  - cbn [option_map]. destruct (product_ok j kj Ej) as (AP & BP & ->). set (p := FTimes CDouble kj (FDiv CDouble ki half)) in *.
    pose proof (approx_relative CDouble K (this (P j)) p ltac:(change (prec CDouble) with 53%Z; lia) P0 AP) as (_ & RP).
    assert (NP : near (2 * inject_Z (Z.of_nat K) * u * this (P j)) (- this (P j)) (FAdditiveInverse CDouble p)).
    { destruct AP as (V & F & _). split; [apply value_opp; auto|]. split; [apply opp_finite; auto|]. rewrite opp_real.
      rewrite (Qabs_wd _ (- (real p - this (P j)))), Qabs_opp by ring. exact RP. }
    destruct (mget G i j) as [x|] eqn:Ex; rewrite HR; cbn [option_map ounion]; unfold idc.
    + destruct (DB _ _ _ Ex) as (V & F & E2). pose proof (A_some _ _ _ Ex) as EA.
      assert (NW : near 0 (this (A i j) + this (A i j)) (tr (tplus x x))).
      { split; [auto|]. split; [auto|]. rewrite E2, EA. apply Qabs_Qle_condition. lra. }
      eapply near_eq; [|eapply near_le; [|apply (near_plus _ _ _ _ _ _ (this (A i j) + this (A i j) + 2 * this (P j)) NW NP)]].
      * rewrite EX. ring.
      * rewrite er_q. lra.
      * destruct BP as [BP _]. assert (two ^ (-900) <= two ^ (-500))%Q by (apply two_le; lia). lra.
      * destruct BP as [_ BP]. pose proof (A_le i j). assert (two ^ 100 <= two ^ 900)%Q by (apply two_le; lia). assert (two ^ 500 <= two ^ 900)%Q by (apply two_le; lia).
        assert (4 * two ^ 900 <= two ^ 1000)%Q by (vm_compute; discriminate). lra.
      * rewrite Qabs_opp, !Qabs_pos by lra. set (k := inject_Z (Z.of_nat K)) in *. set (w := u) in *. clearbody k w.
        assert (2 * k * w <= 1)%Q by nra. assert (2 * k * w * this (P j) <= 1 * this (P j))%Q by (apply Qmult_le_compat_r; auto). lra.
    + eapply near_eq; [|eapply near_le; [|exact NP]].
      * rewrite EX, (A_none _ _ Ex). change (this 0%Qc) with 0%Q. ring.
      * rewrite er_q, (A_none _ _ Ex). change (this 0%Qc) with 0%Q. set (k := inject_Z (Z.of_nat K)) in *. set (w := u) in *. clearbody k w.
        assert (0 <= w * this (P j))%Q by (apply Qmult_le_0_compat; lra). lra.
  - destruct Dj as [D0 Dn]. assert (Ex : mget G i j = None) by (rewrite symG; auto). rewrite Ex in HR. rewrite HR. cbn [option_map ounion].
    unfold excess. rewrite (A_none _ _ Ex), D0. unfold Qcdiv. ring.
Qed.

(** What is computed for a cluster. *)
Definition err : Q := u * this (deg i) * inject_Z (32 * Z.of_nat N + 18).
Lemma sum_bd : (this (qsum N bd) == 8 * this (deg i))%Q.
Proof.
  unfold bd. rewrite !qsum_add.
  assert (SP : qsum N P = (deg i + deg i)%Qc).
  { unfold P. rewrite !qsum_add. rewrite (qsum_ext N (fun j => deg i * deg j / W)%Qc (fun j => deg i / W * deg j)%Qc) by (intros; unfold Qcdiv; ring).
    rewrite qsum_scale. fold W. pose proof (Qc_pos_neq _ W_pos). replace (deg i / W * W)%Qc with (deg i) by (field; auto). ring. }
  rewrite SP, !plus_q. fold (deg i). ring.
Qed.
Lemma sum_P : (this (qsum N P) == 2 * this (deg i))%Q.
Proof.
  unfold P. rewrite !qsum_add. rewrite (qsum_ext N (fun j => deg i * deg j / W)%Qc (fun j => deg i / W * deg j)%Qc) by (intros; unfold Qcdiv; ring).
  rewrite qsum_scale. fold W. pose proof (Qc_pos_neq _ W_pos). replace (deg i / W * W)%Qc with (deg i) by (field; auto). rewrite plus_q. ring.
Qed.
Lemma sum_er : (this (qsum N er) == u * this (deg i) * (4 * inject_Z (Z.of_nat K) + 6))%Q.
Proof.
  unfold er. rewrite qsum_scale, !qsum_add, qsum_scale. change (qsum N (fun j => P j)) with (qsum N P).
  rewrite mult_q, !plus_q, mult_q, sum_P, nat_q_this, uq_this. replace (Z.of_nat (2 * K + 2)) with (2 * Z.of_nat K + 2)%Z by lia.
  rewrite inject_Z_plus, inject_Z_mult. change (inject_Z 2) with 2%Q. fold (deg i). ring.
Qed.
Notation attract := (gattract f0 plus (FTimes CDouble) (FDiv CDouble) (FAdditiveInverse CDouble) double_of_bool (of_int CDouble 2) tr N G).
Lemma attract_ok row c d : rowlike row ->
  match attract row ki c i d with
  | Some x => near err (this (gain N A c i d)) x
  | None => gain N A c i d = 0%Qc
  end.
Proof.
  intro HR. unfold gattract.
  set (h := fun j => omap2 _ _ _). set (g := fun j => if negb (j =? i) && (c j =? d) then (excess N A i j + excess N A i j)%Qc else 0%Qc).
  pose proof (degs_ok i) as Di. rewrite Ei in Di. destruct Di as [_ Bi]. pose proof (between_pos _ _ _ Bi) as DP.
  assert (HM : (two ^ (-900) <= 16 * this (deg i))%Q /\ (16 * this (deg i) <= two ^ 1000)%Q).
  { destruct Bi as [B1 B2]. assert (two ^ (-900) <= two ^ (-100))%Q by (apply two_le; lia). assert (16 * two ^ 140 <= two ^ 1000)%Q by (vm_compute; discriminate). lra. }
  destruct (near_osum h g er bd (16 * this (deg i)) HM N) as (_ & _ & H).
  - intros j Hj. unfold h, g, gothers, only. pose proof (pull_ok row j HR Hj) as HP. rewrite (Nat.eqb_sym (c j) d).
    destruct (j =? i); cbn [negb andb]; [destruct (pull row ki j); reflexivity|].
    destruct (d =? c j); cbn [andb]; [|destruct (pull row ki j); reflexivity].
    destruct (pull row ki j) as [x|]; cbn [omap2]; [|exact HP]. replace (FTimes CDouble x (double_of_bool true)) with x; [exact HP|].
    symmetry. apply times_one. destruct HP as (V & F & _). split; [auto|]. intros ->. contradiction.
  - intros j Hj. destruct (er_bd j) as [E0 EB]. split; [exact E0|]. apply EB.
    pose proof (A_nn i j) as A0. pose proof (P_nn j) as P0. unfold Qcle in A0, P0. change (this 0%Qc) with 0%Q in *.
    unfold g. destruct (negb (j =? i) && (c j =? d)); [|change (Qabs (this 0%Qc)) with 0%Q; lra].
    assert (EX : (this (excess N A i j + excess N A i j)%Qc == this (A i j) + this (A i j) - this (P j))%Q).
    { unfold excess, P. rewrite !plus_q, !minus_q. ring. }
    rewrite EX. apply Qabs_Qle_condition. lra.
  - rewrite sum_bd. lra.
  - destruct K_u as [K0 K1]. pose proof (u_pos CDouble) as UP.
    assert (inject_Z (Z.of_nat N) <= inject_Z (Z.of_nat K))%Q by (rewrite <- Zle_Qle; lia). pose proof N_ge. nra.
  - change (qsum N g) with (gain N A c i d) in H. destruct (osum plus (map h (seq 0 N))) as [x|]; [|exact H].
    eapply near_le; [|exact H]. rewrite sum_er. unfold err. apply Qle_lteq. right.
    replace (Z.of_nat K) with (4 * Z.of_nat N + 3)%Z by lia. rewrite !inject_Z_plus, !inject_Z_mult.
    change (inject_Z 32) with 32%Q. change (inject_Z 18) with 18%Q. change (inject_Z 4) with 4%Q. change (inject_Z 3) with 3%Q. ring.
Qed.
End Vertex.

(** ** The greatest elements *)
Notation top := (gtop f0 (FMax CDouble) FEqual N).
Definition fins (f : nat -> option fval) : Prop := forall e z, e < N -> f e = Some z -> value CDouble z /\ finite z.
Lemma fin_number x : value CDouble x /\ finite x -> number CDouble x.
Proof. intros [V F]. split; [auto|]. intros ->. contradiction. Qed.
Lemma fins_max f : fins f -> match osum (FMax CDouble) (map f (seq 0 N)) with
  | Some m => (exists d, d < N /\ f d = Some m) /\ forall e z, e < N -> f e = Some z -> (real z <= real m)%Q
  | None => forall e, e < N -> f e = None
  end.
Proof.
  intro H. pose proof (fmax_osum (map f (seq 0 N))) as X.
  assert (HI : forall x, In (Some x) (map f (seq 0 N)) -> exists d, d < N /\ f d = Some x).
  { intros x Hx. apply in_map_iff in Hx. destruct Hx as (d & E & Hd). apply in_seq in Hd. exists d. split; [lia|auto]. }
  specialize (X ltac:(intros x Hx; destruct (HI x Hx) as (d & Hd & E); exact (H d x Hd E))).
  destruct (osum (FMax CDouble) (map f (seq 0 N))) as [m|].
  - destruct X as [I L]. split; [auto|]. intros e z He E. apply L. apply in_map_iff. exists e. split; [auto|apply in_seq; lia].
  - intros e He. apply X. apply in_map, in_seq. lia.
Qed.
Lemma equal_real x y : value CDouble x /\ finite x -> value CDouble y /\ finite y -> (FEqual x y = true <-> (real x == real y)%Q).
Proof.
  intros X Y. unfold FEqual. rewrite (eqb_sv CDouble x y) by (apply fin_number; auto). destruct X as [Vx Fx], Y as [Vy Fy].
  rewrite (real_sv CDouble x), (real_sv CDouble y) by auto. pose proof (two_pos (em CDouble)) as TP. rewrite Z.eqb_eq. split.
  - intros ->. reflexivity.
  - intro E. apply inject_Z_injective. apply (Qmult_inj_r _ _ (two ^ em CDouble)); [lra|exact E].
Qed.
Lemma top_max f d : fins f -> d < N -> top f d = Some true ->
  exists y, f d = Some y /\ forall e z, e < N -> f e = Some z -> (real z <= real y)%Q.
Proof.
  intros H Hd E. unfold gtop, geqs, ggreatest in E. destruct (f d) as [y|] eqn:Fd; [|discriminate].
  pose proof (fins_max f H) as M. destruct (osum (FMax CDouble) (map f (seq 0 N))) as [m|].
  - destruct M as ((d0 & H0 & E0) & M). destruct (FEqual y m) eqn:Q; [|discriminate].
    apply equal_real in Q; eauto. exists y. split; [auto|]. intros e z He Ez. rewrite Q. eauto.
  - rewrite M in Fd by auto. discriminate.
Qed.
Lemma top_exists f e : fins f -> e < N -> f e <> None -> exists d, d < N /\ top f d = Some true.
Proof.
  intros H He Fe. pose proof (fins_max f H) as M. unfold gtop, geqs, ggreatest.
  destruct (osum (FMax CDouble) (map f (seq 0 N))) as [m|].
  - destruct M as ((d0 & H0 & E0) & M). exists d0. split; [auto|]. rewrite E0. rewrite (proj2 (equal_real m m (H _ _ H0 E0) (H _ _ H0 E0))); [reflexivity|reflexivity].
  - exfalso. auto.
Qed.

(** ** Moves *)
Hypothesis BB : forall u v g, mget G u v = Some g -> tb (tplus g g) = true.
Notation sums := (gsums tplus G).
Lemma rowlike_row i : rowlike i (sums i).
Proof. intros j _. unfold gsums. rewrite (symG j i). destruct (mget G i j); reflexivity. Qed.
Lemma rowlike_col i : rowlike i (fun j => sums j i).
Proof. intros j _. unfold gsums. rewrite (symG j i). destruct (mget G i j); reflexivity. Qed.
Lemma near_far c i d : i < N -> otrue btrue (gnear tb tplus N G c i d) = false -> (gain N A c i d <= 0)%Qc.
Proof.
  intros Hi E. apply gain_far; [apply A_nn|auto|]. intros j Hj Nj Cj.
  destruct (mget G i j) as [x|] eqn:Ex; [|apply A_none; auto]. exfalso.
  assert (K : forall l, In (Some true) l -> osum orb l = Some true).
  { induction l as [|o l IH] using rev_ind; [intros []|]. intro I. rewrite osum_snoc'. apply in_app_or in I. destruct I as [I|[->|[]]].
    - rewrite IH by auto. destruct o; reflexivity.
    - destruct (osum orb l) as [b|]; cbn [oadd]; [rewrite orb_true_r|]; reflexivity. }
  unfold gnear in E. rewrite K in E; [discriminate|]. apply in_map_iff. exists j. split; [|apply in_seq; lia].
  pose proof (rowlike_row i j Hj) as R. rewrite Ex in R. rewrite R. unfold gothers, only.
  destruct (Nat.eqb_spec j i); [contradiction|]. subst d. rewrite Nat.eqb_refl. cbn [option_map omap2]. rewrite (BB _ _ _ Ex). reflexivity.
Qed.
Notation fqs := (gfqs f0 plus (FTimes CDouble) (FDiv CDouble) (FAdditiveInverse CDouble) double_of_bool (of_int CDouble 2) tr tb tplus N G).
Lemma fqs_ok masked c i ki d : i < N -> degs i = Some ki ->
  match fqs masked c i ki d with Some x => near (err i) (this (gain N A c i d)) x | None => (gain N A c i d <= 0)%Qc end.
Proof.
  intros Hi Ei. destruct masked; unfold gfqs, gattract_near.
  - destruct (otrue btrue (gnear tb tplus N G c i d)) eqn:En; [|apply near_far; auto].
    pose proof (attract_ok i ki Hi Ei (sums i) c d (rowlike_row i)) as Q.
    destruct (gattract _ _ _ _ _ _ _ _ _ _ _ _ _ _ _); [exact Q|rewrite Q; apply Qcle_refl].
  - pose proof (attract_ok i ki Hi Ei (fun j => sums j i) c d (rowlike_col i)) as Q.
    destruct (gattract _ _ _ _ _ _ _ _ _ _ _ _ _ _ _); [exact Q|rewrite Q; apply Qcle_refl].
Qed.
Lemma fqs_fins masked c i ki : i < N -> degs i = Some ki -> fins (fqs masked c i ki).
Proof. intros Hi Ei e z He E. pose proof (fqs_ok masked c i ki e Hi Ei) as H. rewrite E in H. destruct H as (V & F & _). auto. Qed.
Lemma fqs_some masked c i ki : (forall v, v < N -> c v < N) -> i < N -> degs i = Some ki ->
  exists d, d < N /\ fqs masked c i ki d <> None /\ (0 < gain N A c i d)%Qc.
Proof.
  intros HC Hi Ei. destruct (gain_some N A A_loop A_nn c i Hi HC (deg_pos i ki Ei)) as (d & Hd & Pd). exists d. split; [auto|]. split; [|auto].
  pose proof (fqs_ok masked c i ki d Hi Ei) as H. intro E. rewrite E in H. revert H. apply Qclt_not_le. auto.
Qed.
Lemma best_gain masked c i ki d : (forall v, v < N -> c v < N) -> i < N -> degs i = Some ki -> d < N ->
  top (fqs masked c i ki) d = Some true -> forall e, (this (gain N A c i e) <= this (gain N A c i d) + 2 * err i)%Q.
Proof.
  intros HC Hi Ei Hd HT e. destruct (top_max _ d (fqs_fins masked c i ki Hi Ei) Hd HT) as (y & Ey & My).
  pose proof (fqs_ok masked c i ki d Hi Ei) as Gd. rewrite Ey in Gd. destruct Gd as (_ & _ & Gd). apply Qabs_Qle_condition in Gd.
  destruct (fqs_some masked c i ki HC Hi Ei) as (d0 & H0 & S0 & P0). unfold Qclt in P0. change (this 0%Qc) with 0%Q in P0.
  assert (X : forall e', e' < N -> forall z, fqs masked c i ki e' = Some z -> (this (gain N A c i e') <= this (gain N A c i d) + 2 * err i)%Q).
  { intros e' He' z Ez. pose proof (fqs_ok masked c i ki e' Hi Ei) as Ge. rewrite Ez in Ge. destruct Ge as (_ & _ & Ge).
    apply Qabs_Qle_condition in Ge. specialize (My e' z He' Ez). lra. }
  assert (Y : (gain N A c i e <= 0)%Qc -> (this (gain N A c i e) <= this (gain N A c i d) + 2 * err i)%Q).
  { intro L. unfold Qcle in L. change (this 0%Qc) with 0%Q in L. destruct (fqs masked c i ki d0) as [z|] eqn:E0; [|congruence].
    specialize (X d0 H0 z E0). lra. }
  destruct (Nat.lt_ge_cases e N) as [He|He].
  - pose proof (fqs_ok masked c i ki e Hi Ei) as Ge. destruct (fqs masked c i ki e) as [z|] eqn:E1; [apply (X e He z E1)|auto].
  - apply Y. apply gain_far; [apply A_nn|auto|]. intros j Hj _ Cj. specialize (HC j Hj). lia.
Qed.

(** ** The result *)
Definition eps : Qc := Q2Qc (inject_Z (Z.of_nat N) * two ^ (-46)).
Lemma modularity_close c c' i : i < N -> (0 < W)%Qc -> (this (raw N A c') <= this (raw N A c) + 2 * err i)%Q ->
  (modularity N A c' <= modularity N A c + eps)%Qc.
Proof.
  intros Hi WP H. rewrite !modularity_raw. unfold Qcle. rewrite plus_q, !div_q. unfold eps, Q2Qc at 1. cbn [this]. rewrite Qred_correct.
  unfold Qclt in WP. change (this 0%Qc) with 0%Q in WP.
  assert (DW : (this (deg i) <= this W)%Q) by (apply (qsum_term N deg i Hi); intros; apply degree_nonneg; apply A_nn).
  pose proof (degree_nonneg N A A_nn i) as D0. unfold Qcle in D0. change (this 0%Qc) with 0%Q in D0.
  unfold err in H. pose proof (u_pos CDouble) as UP.
  assert (NN : (inject_Z (32 * Z.of_nat N + 18) <= 64 * inject_Z (Z.of_nat N))%Q).
  { rewrite inject_Z_plus, inject_Z_mult. change (inject_Z 32) with 32%Q. change (inject_Z 18) with 18%Q. pose proof N_ge. lra. }
  assert (N1 : (0 <= inject_Z (32 * Z.of_nat N + 18))%Q) by (change 0%Q with (inject_Z 0); rewrite <- Zle_Qle; lia).
  assert (UU : (two ^ (-46) == 128 * u)%Q) by (vm_compute; reflexivity). rewrite UU.
  set (nn := inject_Z (Z.of_nat N)) in *. set (n1 := inject_Z (32 * Z.of_nat N + 18)) in *. set (w := this W) in *. set (dg := this (deg i)) in *.
  set (r := this (raw N A c)) in *. set (r' := this (raw N A c')) in *. set (v := u) in *. clearbody nn n1 w dg r r' v.
  apply (Qmult_le_r _ _ w); auto. setoid_replace (r' / w * w)%Q with r' by (field; lra).
  setoid_replace ((r / w + nn * (128 * v)) * w)%Q with (r + 2 * (v * w * (64 * nn)))%Q by (field; lra).
  assert (v * dg * n1 <= v * w * (64 * nn))%Q; [|lra].
  assert (v * dg <= v * w)%Q by (apply Qmult_le_l; auto). assert (0 <= v * dg)%Q by (apply Qmult_le_0_compat; lra).
  apply Qmult_le_compat_nonneg; split; auto.
Qed.

Context (draw : nat -> nat -> fval) (fuel : nat).
(** The random numbers of one round lead to different sums. *)
Definition dists : Prop := 2 <= fuel /\ (forall r j, value CDouble (draw r j) /\ finite (draw r j) /\ (0 <= real (draw r j))%Q /\ (real (draw r j) <= 1)%Q) /\
  forall r j k, j < N -> k < N -> FEqual (FPlus CDouble (draw r j) d_small) (FPlus CDouble (draw r k) d_small) = true -> j = k.
Lemma d_small_ok : value CDouble d_small /\ finite d_small /\ (0 <= real d_small)%Q /\ (real d_small <= 1)%Q.
Proof. split; [vm_compute; reflexivity|]. split; [vm_compute; exact I|]. split; vm_compute; discriminate. Qed.
Lemma sum_fin r j : dists -> value CDouble (FPlus CDouble (draw r j) d_small) /\ finite (FPlus CDouble (draw r j) d_small).
Proof.
  intros (_ & D & _). destruct (D r j) as (V & F & L & U). destruct d_small_ok as (V' & F' & L' & U').
  assert (X : near (u * 2) (real (draw r j) + real d_small) (FPlus CDouble (draw r j) d_small)).
  { apply rounds_abs.
    - apply plus_rounds; auto.
    - change 2%Q with (two ^ 1)%Q. apply two_le. lia.
    - change 2%Q with (two ^ 1)%Q. apply two_le. lia.
    - rewrite Qabs_pos; lra. }
  destruct X as (V2 & F2 & _). auto.
Qed.
Notation broken := (rt_lv_break f0 plus (FTimes CDouble) (FMax CDouble) FEqual double_of_bool d_small draw fuel N).
Lemma break_ends t f r e : dists -> vis N t f -> trues N f -> e < N -> f e <> None -> exists s, broken t r = Ok (Some s).
Proof.
  intros D H HT He Fe. pose proof D as (Fl & Dv & Inj). unfold rt_lv_break. destruct fuel as [|[|n]]; [lia|lia|]. cbn [mwhile].
  destruct (Z.eqb_spec (vnvals t) 1) as [E|NE]; cbn [negb]; [eauto|].
  destruct (glv_tie_ok f0 plus (FTimes CDouble) (FMax CDouble) FEqual double_of_bool d_small draw N N0 t f r H) as (t' & -> & H'). cbn [bind].
  set (dr := gdrawn plus (FTimes CDouble) double_of_bool d_small draw r f) in *.
  assert (Edr : forall k, k < N -> dr k = match f k with Some _ => Some (FPlus CDouble (draw r k) d_small) | None => None end).
  { intros k Hk. unfold dr, gdrawn. destruct (HT k Hk) as [-> | ->]; [reflexivity|]. cbn [option_map]. do 2 f_equal.
    apply times_one. apply fin_number. destruct (Dv r k) as (V & F & _). auto. }
  assert (Fdr : fins dr).
  { intros k z Hk Ez. rewrite Edr in Ez by auto. destruct (f k); [|discriminate]. injection Ez as <-. apply sum_fin; auto. }
  assert (X : vnvals t' = 1%Z).
  { rewrite (vis_nvals _ _ _ H').
    destruct (top_exists dr e Fdr He) as (d & Hd & Td). { rewrite Edr by auto. destruct (f e); [discriminate|congruence]. }
    rewrite (vcount_only N _ d Hd); [reflexivity|]. intros k Hk. unfold only.
    destruct (Nat.eqb_spec k d) as [->|Nk]; auto.
    destruct (gtop_true f0 (FMax CDouble) FEqual N dr k) as [|Tk]; auto. exfalso. apply Nk.
    destruct (top_max dr d Fdr Hd Td) as (y & Ey & My), (top_max dr k Fdr Hk Tk) as (z & Ez & Mz).
    specialize (My k z Hk Ez). specialize (Mz d y Hd Ey).
    assert (Q : FEqual y z = true) by (apply equal_real; [exact (Fdr d y Hd Ey)|exact (Fdr k z Hk Ez)|lra]).
    rewrite Edr in Ey, Ez by auto. destruct (f d); [|discriminate]. destruct (f k); [|discriminate]. injection Ey as <-. injection Ez as <-.
    symmetry. apply (Inj r); auto. }
  rewrite X. change (1 =? 1)%Z with true. cbn [negb]. eauto.
Qed.

Theorem louvain_double masked max_iters :
  exists o, grun f0 plus (FTimes CDouble) (FDiv CDouble) (FAdditiveInverse CDouble) (FMax CDouble) FEqual double_of_bool (of_int CDouble 2) d_small
      tr tb tplus draw fuel G masked max_iters = Ok o /\
    match o with
    | None => ~ dists
    | Some (inl M) => exists c, assigns N M c /\ nearly_best N A eps c
    | Some (inr n) => n = Nat.max 1 max_iters
    end.
Proof.
  destruct (grun_ok f0 plus (FTimes CDouble) (FDiv CDouble) (FAdditiveInverse CDouble) (FMax CDouble) FEqual double_of_bool (of_int CDouble 2) d_small
    tr tb tplus draw fuel N N0 G WG RG CG masked (fun _ => True) max_iters) as (o & E & Ho); auto.
  exists o. split; [exact E|]. destruct o as [[M|n]|]; auto.
  - destruct Ho as (c & HM & _ & St). exists c. split; [auto|]. intros i d Hi.
    assert (HC : forall v, v < N -> c v < N) by (intros v Hv; apply HM; auto).
    destruct (degs i) as [ki|] eqn:Ei.
    + apply (modularity_close _ _ i Hi (W_pos i ki Hi Ei)).
      pose proof (best_gain masked c i ki (c i) HC Hi Ei (HC i Hi) (St i ki Hi Ei) d) as L.
      rewrite raw_move by (auto using A_sym). rewrite plus_q, minus_q. lra.
    + pose proof (degs_ok i) as D. rewrite Ei in D. destruct D as [D _].
      assert (X : (modularity N A (move c i d) <= modularity N A c)%Qc).
      { apply modularity_le; [auto using A_nn|]. rewrite raw_move by (auto using A_sym). rewrite !gain_isolated by (auto using A_nn).
        match goal with |- (?x <= _)%Qc => replace x with (raw N A c) by ring end. apply Qcle_refl. }
      assert (Y : (0 <= eps)%Qc).
      { unfold Qcle, eps, Q2Qc. cbn [this]. rewrite !Qred_correct. pose proof N_ge. pose proof (two_pos (-46)). apply Qmult_le_0_compat; lra. }
      qlra.
  - intro De. destruct Ho as (c & i & ki & HC & Hi & Ei & t & r & Ht & B).
    destruct (fqs_some masked c i ki HC Hi Ei) as (d & Hd & Sd & _).
    destruct (top_exists _ d (fqs_fins masked c i ki Hi Ei) Hd Sd) as (d1 & Hd1 & T1).
    destruct (break_ends t _ r d1 De Ht) as (s & Es); auto.
    + intros k _. apply gtop_true.
    + rewrite T1. discriminate.
    + setoid_rewrite B in Es. discriminate.
Qed.
End Double.
