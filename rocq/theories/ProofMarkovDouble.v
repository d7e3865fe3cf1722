(** Markov clustering over [double] approximates the iterates of exact arithmetic. *)
From Coq Require Import ZArith QArith Qabs Qcanon Lia Lqa Floats.SpecFloat.
From Verif Require Import Base ModelLil ModelVec ModelHelpers ModelViews ModelMul ModelElem ModelIndex ModelUtils
  ModelAlgoBase ModelRank ModelCluster ModelFloat ModelFsssp ModelConv ModelClusterTypes ModelMarkovTypes
  Spec SpecOps SpecRank SpecCluster SpecFloats SpecFpaths SpecIntPaths SpecConv SpecNormalize SpecRankTypes SpecMarkovTypes
  ProofBase ProofLil ProofVec ProofElem ProofReduce ProofUtils ProofGraph ProofRank ProofVis ProofRc ProofCluster ProofMarkov
  ProofFloat ProofConv ProofDiv ProofNormalize ProofNormalizeRows ProofApprox ProofRankApprox ProofClusterDouble ProofAbsErr.
Local Open Scope nat_scope.

Notation plus := (FPlus CDouble).
Notation minus := (FMinus CDouble).
Notation times := (FTimes CDouble).
Notation div := (FDiv CDouble).
Notation inv := (FMultiplicativeInverse CDouble).
Notation big := (2 ^ 48)%Z.

(** [M] stores approximations of [a], where these are not 0 and at least 2^-lo. *)
Definition am (N : nat) (lo : Z) (K : nat) (M : lil fval) (a : nat -> nat -> Qc) : Prop :=
  exists f, rc N N M f /\ forall i j, i < N -> j < N ->
    match f i j with Some x => approx CDouble K (this (a i j)) x /\ (two ^ (- lo) <= this (a i j))%Q | None => a i j = 0%Qc end.

Lemma half K : (Z.of_nat K <= big)%Z -> (1 # 2 <= shrink CDouble K)%Q.
Proof. intro H. apply shrink_half. cbn [prec]. lia. Qed.
Lemma this_le a b : (a <= b)%Qc <-> (this a <= this b)%Q.
Proof. reflexivity. Qed.
Lemma am_nn N lo K M a : am N lo K M a -> nn N a.
Proof.
  intros (f & _ & H) i j Hi Hj. specialize (H i j Hi Hj). destruct (f i j); [|rewrite H; apply Qcle_refl].
  destruct H as [_ H]. apply this_le. change (this 0%Qc) with 0%Q. pose proof (two_pos (- lo)). lra.
Qed.
Lemma am_le N lo lo' K K' M a : (lo <= lo')%Z -> K <= K' -> am N lo K M a -> am N lo' K' M a.
Proof.
  intros L HK (f & R & H). exists f. split; [exact R|]. intros i j Hi Hj. specialize (H i j Hi Hj). destruct (f i j); [|exact H].
  destruct H as [H1 H2]. pose proof (two_pos (- lo)). assert (two ^ (- lo') <= two ^ (- lo))%Q by (apply two_le; lia).
  split; [|lra]. apply (approx_le _ K); auto. lra.
Qed.
Lemma am_range N lo lo' K M a : am N lo K M a -> (forall i j, i < N -> j < N -> a i j = 0%Qc \/ (two ^ (- lo') <= this (a i j))%Q) -> am N lo' K M a.
Proof.
  intros (f & R & H) G. exists f. split; [exact R|]. intros i j Hi Hj. specialize (H i j Hi Hj). destruct (f i j); [|exact H].
  destruct H as [H1 H2]. split; [exact H1|]. destruct (G i j Hi Hj) as [E|]; [|auto]. exfalso. rewrite E in H2.
  pose proof (two_pos (- lo)). change (this 0%Qc) with 0%Q in H2. lra.
Qed.
Lemma am_ext N lo K M a b : (forall i j, i < N -> j < N -> a i j = b i j) -> am N lo K M a -> am N lo K M b.
Proof. intros E (f & R & H). exists f. split; [exact R|]. intros i j Hi Hj. rewrite <- E by auto. apply H; auto. Qed.
Lemma approx_true K q x : approx CDouble K q x -> (0 < q)%Q -> ftrue x = true.
Proof.
  intros (V & F & H & _) Q. pose proof (shrink_pos CDouble K). assert (0 < real x)%Q by nra. destruct x; try reflexivity.
  exfalso. cbn [real] in *. lra.
Qed.
Definition ub (N : nat) (b : Z) (a : nat -> nat -> Qc) : Prop := forall i j, i < N -> j < N -> (this (a i j) <= two ^ b)%Q.

Section Size.
Context (N : nat).

(** ** One iteration *)
Lemma am_expand1 lo K Kb A a B b : (0 <= lo <= 450)%Z -> (Z.of_nat (S (Kb + K) + N) <= big)%Z -> am N lo K A a -> am N lo Kb B b ->
  ub N 0 a -> ub N 0 b -> (forall j, j < N -> (this (qsum N (fun i => a i j)) <= 1)%Q) ->
  (forall i j, i < N -> j < N -> expand1 N a b i j = 0%Qc \/ (two ^ (- lo) <= this (expand1 N a b i j))%Q) ->
  exists B', mxm plus times times idc idc ftrue idc (NoAcc idc) (MVal B) REPLACE B (Mat B) (Mat A) = Ok B' /\
    am N lo (S (Kb + K) + N) B' (expand1 N a b) /\ ub N 0 (expand1 N a b).
Proof.
  intros L HK HA HB UA UB SA RG. pose proof (am_nn _ _ _ _ _ HA) as NA. pose proof (am_nn _ _ _ _ _ HB) as NB.
  destruct HA as (fA & RA & GA), HB as (fB & RB & GB).
  assert (UE : ub N 0 (expand1 N a b)).
  { intros i j Hi Hj. unfold expand1. change (two ^ 0)%Q with 1%Q. destruct (Qc_eq_dec (b i j) 0); [vm_compute; discriminate|].
    apply (Qle_trans _ (this (qsum N (fun k => a k j)))); [|apply SA; auto]. apply this_le, qsum_le. intros k Hk. apply this_le.
    rewrite mult_q. specialize (UB i k Hi Hk). change (two ^ 0)%Q with 1%Q in UB. pose proof (NA k j Hk Hj) as NA'. unfold Qcle in NA'. change (this 0%Qc) with 0%Q in NA'. nra. }
  destruct (rc_mxm N N N plus times times idc idc ftrue (MVal B) _ REPLACE B B A _ _ _ RB RB RA (mrc_val N N ftrue B _ RB)) as (B' & -> & RB').
  exists B'. split; [reflexivity|]. split; [|exact UE]. eexists. split; [exact RB'|]. intros i j Hi Hj. cbv beta.
  specialize (RG i j Hi Hj). specialize (UE i j Hi Hj). pose proof (GB i j Hi Hj) as Gij. unfold expand1 in *.
  destruct (fB i j) as [x|] eqn:Ex.
  2:{ destruct (Qc_eq_dec (b i j) 0); [|contradiction]. reflexivity. }
  destruct Gij as [Gx Lx]. pose proof (two_pos (- lo)). cbn [otrue]. rewrite (approx_true _ _ _ Gx) by lra. unfold wr.
  destruct (Qc_eq_dec (b i j) 0) as [F|NZ]. { exfalso. rewrite F in Lx. change (this 0%Qc) with 0%Q in Lx. lra. }
  pose proof (approx_osum CDouble (S (Kb + K)) (- lo + - lo) 0 (fun k => omap2 times (fB i k) (fA k j)) (fun k => (b i k * a k j)%Qc)
    ltac:(cbn [emax]; lia) ltac:(cbn [emax]; lia) N) as H1.
  assert (H2 : forall k, k < N -> match omap2 times (fB i k) (fA k j) with
    | Some x => approx CDouble (S (Kb + K)) (this (b i k * a k j)%Qc) x /\ (two ^ (- lo + - lo) <= this (b i k * a k j)%Qc)%Q
    | None => (b i k * a k j)%Qc = 0%Qc end).
  { intros k Hk. pose proof (GB i k Hi Hk) as G1. pose proof (GA k j Hk Hj) as G2. destruct (fB i k) as [y|]; cbn [omap2].
    2:{ rewrite G1. ring. }
    destruct (fA k j) as [z|]; [|rewrite G2; ring]. destruct G1 as [G1 L1], G2 as [G2 L2].
    assert (B1 : between (- lo) 0 (this (b i k))) by (split; [auto|apply UB; auto]).
    assert (B2 : between (- lo) 0 (this (a k j))) by (split; [auto|apply UA; auto]).
    split.
    - apply (approx_eq _ _ (this (b i k) * this (a k j))); [symmetry; apply mult_q|].
      apply (approx_times CDouble Kb K (- lo) 0 (- lo) 0); auto; try (apply half; lia); cbn [emax]; lia.
    - rewrite mult_q. apply (between_mult _ _ _ _ _ _ B1 B2). }
  specialize (H1 H2 UE (half _ HK)). clear H2.
  destruct (osum plus (map (fun k => omap2 times (fB i k) (fA k j)) (seq 0 N))) as [s|]; [|exact H1].
  destruct H1 as [H1 H3]. split; [exact H1|]. destruct RG as [RG|]; [|auto]. exfalso. rewrite RG in H3.
  pose proof (two_pos (- lo + - lo)). change (this 0%Qc) with 0%Q in H3. lra.
Qed.

Lemma am_expand lo K A a : (0 <= lo <= 450)%Z -> am N lo K A a -> ub N 0 a -> (forall j, j < N -> (this (qsum N (fun i => a i j)) <= 1)%Q) ->
  forall n Kb B b, (Z.of_nat (Kb + n * (S (K + N))) <= big)%Z -> am N lo Kb B b -> ub N 0 b ->
  (forall m i j, m <= n -> i < N -> j < N -> expand N m a b i j = 0%Qc \/ (two ^ (- lo) <= this (expand N m a b i j))%Q) ->
  exists B', ModelCluster.times n (fun Apower => mxm plus times times idc idc ftrue idc (NoAcc idc) (MVal Apower) REPLACE
                                 Apower (Mat Apower) (Mat A)) B = Ok B' /\ am N lo (Kb + n * (S (K + N))) B' (expand N n a b) /\ ub N 0 (expand N n a b).
Proof.
  intros L HA UA SA. induction n as [|n IH]; intros Kb B b HK HB UB RG.
  - exists B. cbn [Nat.mul]. rewrite Nat.add_0_r. auto.
  - cbn [ModelCluster.times expand].
    destruct (am_expand1 lo K Kb A a B b) as (B1 & E1 & H1 & U1); auto; [lia|intros i j Hi Hj; exact (RG 1 i j ltac:(lia) Hi Hj)|].
    rewrite E1. cbn [bind].
    destruct (IH (S (Kb + K) + N) B1 (expand1 N a b)) as (B' & E' & H' & U'); auto; [lia|intros m i j Hm Hi Hj; exact (RG (S m) i j ltac:(lia) Hi Hj)|].
    exists B'. split; [exact E'|]. split; [|exact U']. eapply am_le; [| |exact H']; lia.
Qed.

Lemma am_pow lo Kb B b : (0 <= lo)%Z -> am N lo Kb B b -> ub N 0 b -> forall n lop Kp P p, (0 <= lop)%Z -> (lop + Z.of_nat n * lo <= 900)%Z ->
  (Z.of_nat (Kp + n * (S Kb)) <= big)%Z -> am N lop Kp P p -> ub N 0 p ->
  exists B', ModelCluster.times n (fun Ainfl => eWiseMult times times idc ftrue idc (NoAcc idc) (MVal Ainfl) REPLACE
                                         Ainfl (Mat Ainfl) (Mat B)) P = Ok B' /\
    am N (lop + Z.of_nat n * lo) (Kp + n * (S Kb)) B' (fun i j => p i j * b i j ^ n)%Qc /\ ub N 0 (fun i j => p i j * b i j ^ n)%Qc.
Proof.
  intros L HB UB. pose proof (am_nn _ _ _ _ _ HB) as NB. induction n as [|n IH]; intros lop Kp P p L0 L1 HK HP UP.
  - exists P. split; [reflexivity|]. cbn [Nat.mul]. rewrite Nat.add_0_r. change (Z.of_nat 0) with 0%Z. rewrite Z.mul_0_l, Z.add_0_r.
    assert (E : forall i j, p i j = (p i j * b i j ^ 0)%Qc) by (intros; simpl; ring).
    split; [apply (am_ext _ _ _ _ p); auto|]. intros i j Hi Hj. rewrite <- E. auto.
  - cbn [ModelCluster.times]. pose proof (am_nn _ _ _ _ _ HP) as NP. pose proof HB as (fB & RB & GB). destruct HP as (fP & RP & GP).
    destruct (rc_mult N N times times idc ftrue (MVal P) _ REPLACE P P B _ _ _ RP RP RB (mrc_val N N ftrue P _ RP)) as (P1 & -> & RP1).
    cbn [bind].
    assert (U1 : ub N 0 (fun i j => p i j * b i j)%Qc).
    { intros i j Hi Hj. rewrite mult_q. specialize (UP i j Hi Hj). specialize (UB i j Hi Hj). specialize (NP i j Hi Hj). specialize (NB i j Hi Hj).
      change (two ^ 0)%Q with 1%Q in *. unfold Qcle in NP, NB. change (this 0%Qc) with 0%Q in *. nra. }
    destruct (IH (lop + lo)%Z (S (Kp + Kb)) P1 (fun i j => p i j * b i j)%Qc) as (B' & E & H & U); auto; try lia.
    { eexists. split; [exact RP1|]. intros i j Hi Hj. cbv beta. specialize (GP i j Hi Hj). specialize (GB i j Hi Hj). unfold wr.
      destruct (fP i j) as [x|]; cbn [otrue omap2].
      2:{ rewrite GP. ring. }
      destruct GP as [G1 L2]. pose proof (two_pos (- lop)). rewrite (approx_true _ _ _ G1) by lra.
      destruct (fB i j) as [y|]; [|rewrite GB; ring]. destruct GB as [G2 L3].
      assert (B1 : between (- lop) 0 (this (p i j))) by (split; [auto|apply UP; auto]).
      assert (B2 : between (- lo) 0 (this (b i j))) by (split; [auto|apply UB; auto]).
      split.
      - apply (approx_eq _ _ (this (p i j) * this (b i j))); [symmetry; apply mult_q|].
        apply (approx_times CDouble Kp Kb (- lop) 0 (- lo) 0); auto; try (apply half; lia); cbn [emax]; lia.
      - rewrite mult_q. replace (- (lop + lo))%Z with (- lop + - lo)%Z by lia. apply (between_mult _ _ _ _ _ _ B1 B2). }
    exists B'. split; [exact E|].
    assert (Q : forall i j, (p i j * b i j * b i j ^ n = p i j * b i j ^ S n)%Qc) by (intros; simpl; ring).
    split.
    + apply (am_ext _ _ _ _ (fun i j => p i j * b i j * b i j ^ n)%Qc); [auto|]. eapply am_le; [| |exact H]; lia.
    + intros i j Hi Hj. rewrite <- Q. apply U; auto.
Qed.

Lemma N_le K : (Z.of_nat (K + N) <= big)%Z -> (inject_Z (Z.of_nat N) <= two ^ 48)%Q.
Proof. intro H. change (two ^ 48)%Q with (inject_Z big). rewrite <- Zle_Qle. lia. Qed.
Lemma am_normal lo b K M a : N <> 0 -> (0 <= lo)%Z -> (0 <= b)%Z -> (lo + b <= 950)%Z -> (Z.of_nat (2 * K + N + 2) <= big)%Z -> am N lo K M a -> ub N b a ->
  exists M', normalize_cols f0 plus times inv M = Ok M' /\ am N (lo + b + 48) (2 * K + N + 2) M' (normal N a).
Proof.
  intros N0 L1 L2 L3 HK HA UA. pose proof (am_nn _ _ _ _ _ HA) as NA. destruct HA as (f & (W & R & C & G) & H).
  destruct (normalize_cols_ok f0 plus times inv M W) as (M' & E & W' & R' & C' & G'); [congruence|congruence|].
  exists M'. split; [exact E|]. rewrite R, C in *. exists (fun i j => mget M' i j). split; [split; auto|].
  intros i j Hi Hj. rewrite G', G by auto. pose proof (H i j Hi Hj) as Gij. unfold normal.
  destruct (f i j) as [x|].
  2:{ rewrite Gij. destruct (osum _ _); cbn [omap2]; unfold Qcdiv; ring. }
  destruct Gij as [Gx Lx].
  assert (Us : (this (qsum N (fun k => a k j)) <= two ^ (b + 48))%Q).
  { apply (Qle_trans _ (this (qsum N (fun _ => Q2Qc (two ^ b))))).
    - apply this_le, qsum_le. intros k Hk. apply this_le. unfold Q2Qc. cbn [this]. rewrite Qred_correct. apply UA; auto.
    - rewrite qsum_const, mult_q, nat_q_this. unfold Q2Qc. cbn [this]. rewrite Qred_correct. rewrite two_plus.
      pose proof (N_le (2 * K + 2) ltac:(lia)). pose proof (two_pos b). nra. }
  pose proof (approx_osum CDouble K (- lo) (b + 48) (fun k => mget M k j) (fun k => a k j) ltac:(cbn [emax]; lia) ltac:(cbn [emax]; lia) N) as S.
  assert (S1 : forall k, k < N -> match mget M k j with Some y => approx CDouble K (this (a k j)) y /\ (two ^ (- lo) <= this (a k j))%Q | None => a k j = 0%Qc end).
  { intros k Hk. rewrite G by auto. apply H; auto. }
  specialize (S S1 Us (half (K + N) ltac:(lia))). clear S1.
  pose proof (two_pos (- lo)) as TP.
  assert (Sp : (this (a i j) <= this (qsum N (fun k => a k j)))%Q) by (apply (qsum_term N (fun k => a k j) i Hi); intros; apply NA; auto).
  destruct (osum plus (map (fun k => mget M k j) (seq 0 N))) as [s|].
  2:{ exfalso. rewrite S in Sp. change (this 0%Qc) with 0%Q in Sp. lra. }
  destruct S as [Gs Ls]. cbn [omap2].
  assert (Bs : between (- lo) (b + 48) (this (qsum N (fun k => a k j)))) by (split; auto).
  assert (Bx : between (- lo) b (this (a i j))) by (split; [auto|apply UA; auto]).
  assert (D : approx CDouble (Datatypes.S (0 + (K + N))) (1 / this (qsum N (fun k => a k j))) (inv s)).
  { apply (approx_div CDouble 0 (K + N) 0 0 (- lo) (b + 48)); auto; try (apply half; lia); try (cbn [emax]; lia).
    - split; vm_compute; discriminate.
    - apply (approx_eq _ _ (real (f1 CDouble))); [vm_compute; reflexivity|]. apply approx_exact; [vm_compute; reflexivity|exact I]. }
  assert (Bi : between (- (b + 48)) lo (1 / this (qsum N (fun k => a k j)))).
  { apply (between_eq _ _ (/ this (qsum N (fun k => a k j)))); [unfold Qdiv; ring|]. replace lo with (- - lo)%Z at 1 by lia. apply between_inv; auto. }
  split.
  - apply (approx_eq _ _ (this (a i j) * (1 / this (qsum N (fun k => a k j))))); [rewrite div_q; unfold Qdiv; ring|].
    replace (2 * K + N + 2) with (Datatypes.S (K + Datatypes.S (0 + (K + N)))) by lia.
    apply (approx_times CDouble K _ (- lo) b (- (b + 48)) lo); auto; try (apply half; lia); cbn [emax]; lia.
  - rewrite div_q. apply (Qle_trans _ (this (a i j) * (1 / this (qsum N (fun k => a k j))))); [|apply Qle_lteq; right; unfold Qdiv; ring].
    replace (- (lo + b + 48))%Z with (- lo + - (b + 48))%Z by lia. apply (between_mult _ _ _ _ _ _ Bx Bi).
Qed.
End Size.

(** ** The mean squared difference *)
Section Error.
Context (N : nat) (N0 : N <> 0) (K : nat) (HN : N <= K) (HK : (Z.of_nat K <= big)%Z).
Notation nq := (inject_Z (Z.of_nat N)).
Definition delta : Q := (2 * inject_Z (Z.of_nat K) * u)%Q.

Lemma delta_le : (0 < u)%Q /\ (2 * nq * u <= delta)%Q /\ (2 * u <= delta)%Q /\ (delta <= 1 # 16)%Q /\ (1 <= nq)%Q /\ (nq <= two ^ 48)%Q.
Proof.
  pose proof (u_pos CDouble) as UP. assert (1 <= nq)%Q by (change 1%Q with (inject_Z 1); rewrite <- Zle_Qle; lia).
  assert (nq <= inject_Z (Z.of_nat K))%Q by (rewrite <- Zle_Qle; lia).
  assert (inject_Z (Z.of_nat K) <= two ^ 48)%Q by (change (two ^ 48)%Q with (inject_Z big); rewrite <- Zle_Qle; lia).
  assert (E : (two ^ 48 * u == 1 # 32)%Q) by reflexivity.
  unfold delta. set (k := inject_Z (Z.of_nat K)) in *. set (n := nq) in *. set (b := (two ^ 48)%Q) in *. set (v := u) in *.
  clearbody k n b v. repeat split; auto; try nra; lra.
Qed.

Lemma near_times_self e D x : near e D x -> (Qabs D <= 1)%Q -> (e <= 1)%Q -> (e <= (1#4))%Q -> near (3 * e + 2 * u) (D * D) (times x x).
Proof.
  intros (V & F & H) HD _ He. apply Qabs_Qle_condition in H, HD. pose proof (times_rounds CDouble x x V V F F) as R.
  set (y := real x) in *.
  assert (S : (- (3 * e) <= y * y - D * D <= 3 * e)%Q).
  { setoid_replace (y * y - D * D)%Q with ((y - D) * (y + D))%Q by ring. set (p := (y - D)%Q) in *. assert (S2 : (-3 <= y + D <= 3)%Q) by (unfold p in *; lra).
    set (s := (y + D)%Q) in *. clearbody p s. nra. }
  destruct (rounds_abs (y * y) (times x x) 2 R) as (V' & F' & H').
  - vm_compute; discriminate.
  - change 2%Q with (two ^ 1)%Q. apply two_le; lia.
  - apply Qabs_Qle_condition. assert (-1 * (5#4) <= y <= 5#4)%Q by lra. clearbody y. clear - H0. nra.
  - split; [exact V'|]. split; [exact F'|]. apply Qabs_Qle_condition. apply Qabs_Qle_condition in H'. lra.
Qed.
Lemma near_minus e D1 D2 x y : near e D1 x -> near e D2 y -> (0 <= D1 <= 1)%Q -> (0 <= D2 <= 1)%Q -> (e <= 1 # 4)%Q -> near (2 * e + 2 * u) (D1 - D2) (minus x y).
Proof.
  intros (V1 & F1 & H1) (V2 & F2 & H2) B1 B2 He. apply Qabs_Qle_condition in H1, H2.
  destruct (rounds_abs (real x - real y) (minus x y) 2 (minus_rounds CDouble x y V1 V2 F1 F2)) as (V' & F' & H').
  - vm_compute; discriminate.
  - change 2%Q with (two ^ 1)%Q. apply two_le; lia.
  - apply Qabs_Qle_condition. lra.
  - split; [exact V'|]. split; [exact F'|]. apply Qabs_Qle_condition. apply Qabs_Qle_condition in H'. lra.
Qed.
Lemma near_square a b x y : (0 <= this a <= 1)%Q -> (0 <= this b <= 1)%Q ->
  match x with Some x => near delta (this a) x | None => a = 0%Qc end -> match y with Some y => near delta (this b) y | None => b = 0%Qc end ->
  match omap2 times (ounion minus idc idc x y) (ounion minus idc idc x y) with
  | Some s => near (10 * delta) (this ((a - b) * (a - b))%Qc) s
  | None => ((a - b) * (a - b) = 0)%Qc
  end.
Proof.
  intros Ha Hb Hx Hy. destruct delta_le as (UP & _ & UD & D1 & _).
  assert (M2 : (this ((a - b) * (a - b))%Qc == (this a - this b) * (this a - this b))%Q) by (rewrite mult_q, minus_q; reflexivity).
  destruct x as [x|], y as [y|]; cbn [ounion omap2]; unfold idc.
  - eapply near_eq; [symmetry; exact M2|]. eapply near_le; [|apply (near_times_self (2 * delta + 2 * u))].
    + lra.
    + apply near_minus; auto; lra.
    + apply Qabs_Qle_condition. lra.
    + lra.
    + lra.
  - rewrite Hy in *. change (this 0%Qc) with 0%Q in *. eapply near_eq; [symmetry; rewrite M2; change (this 0%Qc) with 0%Q; instantiate (1 := (this a * this a)%Q); ring|].
    eapply near_le; [|apply (near_times_self delta); [eassumption|apply Qabs_Qle_condition; lra|lra|lra]]. lra.
  - rewrite Hx in *. change (this 0%Qc) with 0%Q in *. eapply near_eq; [symmetry; rewrite M2; change (this 0%Qc) with 0%Q; instantiate (1 := (this b * this b)%Q); ring|].
    eapply near_le; [|apply (near_times_self delta); [eassumption|apply Qabs_Qle_condition; lra|lra|lra]]. lra.
  - rewrite Hx, Hy. ring.
Qed.
Lemma sq_bound a b : (0 <= this a <= 1)%Q -> (0 <= this b <= 1)%Q -> (0 <= this ((a - b) * (a - b))%Qc <= 1)%Q.
Proof. intros H1 H2. rewrite mult_q, minus_q. set (x := this a) in *. set (y := this b) in *. clearbody x y. split; [destruct (Qlt_le_dec x y)|]; nra. Qed.

Lemma near_row (h : nat -> option fval) (g : nat -> Qc) :
  (forall j, j < N -> match h j with Some s => near (10 * delta) (this (g j)) s | None => g j = 0%Qc end) ->
  (forall j, j < N -> (0 <= this (g j) <= 1)%Q) ->
  match osum plus (map h (seq 0 N)) with
  | Some s => near (nq * (12 * delta)) (this (qsum N g)) s
  | None => qsum N g = 0%Qc
  end.
Proof.
  intros Hh Hg. destruct delta_le as (UP & ND & UD & D1 & N1 & N2).
  assert (E0 : (this (Q2Qc (10 * delta)) == 10 * delta)%Q) by (unfold Q2Qc; cbn [this]; apply Qred_correct).
  assert (E2 : (this (Q2Qc 2) == 2)%Q) by reflexivity.
  destruct (near_osum h g (fun _ => Q2Qc (10 * delta)) (fun _ => Q2Qc 2) (4 * nq)%Q) with (n := N) as (_ & _ & H).
  - split.
    + apply (Qle_trans _ 1); [vm_compute; discriminate|lra].
    + apply (Qle_trans _ (two ^ 2 * two ^ 48)); [change (two ^ 2)%Q with 4%Q; lra|]. rewrite <- two_plus. apply two_le; lia.
  - intros j Hj. specialize (Hh j Hj). destruct (h j); [|exact Hh]. eapply near_le; [|exact Hh]. rewrite E0. lra.
  - intros j Hj. specialize (Hg j Hj). split; [apply this_le; change (this 0%Qc) with 0%Q; rewrite E0; lra|]. rewrite Qabs_pos by lra. rewrite E0, E2. lra.
  - rewrite qsum_const, mult_q, nat_q_this, E2. lra.
  - lra.
  - destruct (osum plus (map h (seq 0 N))) as [s|]; [|exact H]. eapply near_le; [|exact H]. rewrite qsum_const, mult_q, nat_q_this, E0.
    set (n := nq) in *. set (d := delta) in *. set (v := u) in *. clearbody n d v. nra.
Qed.

Lemma near_rows (h : nat -> option fval) (g : nat -> Qc) : 
  (forall i, i < N -> match h i with Some s => near (nq * (12 * delta)) (this (g i)) s | None => g i = 0%Qc end) ->
  (forall i, i < N -> (0 <= this (g i) <= nq)%Q) -> forall n, n <= N ->
  (0 <= this (qsum n g) <= inject_Z (Z.of_nat n) * nq)%Q /\
  near (inject_Z (Z.of_nat n) * (nq * (13 * delta))) (this (qsum n g)) (fold_left (fun t i => match h i with Some x => plus t x | None => t end) (seq 0 n) f0).
Proof.
  intros Hh Hg. destruct delta_le as (UP & ND & UD & D1 & N1 & N2). induction n as [|n IH]; intro Hn.
  - cbn [qsum]. change (this 0%Qc) with 0%Q. change (inject_Z (Z.of_nat 0)) with 0%Q. split; [lra|]. cbn [seq fold_left].
    split; [reflexivity|]. split; [exact I|]. change (real f0) with 0%Q. rewrite Qabs_pos; lra.
  - destruct (IH ltac:(lia)) as (B & H). rewrite seq_S, fold_left_app. cbn [fold_left Nat.add qsum].
    set (s := fold_left _ _ _) in *. clearbody s. specialize (Hh n ltac:(lia)). specialize (Hg n ltac:(lia)).
    assert (QN : (inject_Z (Z.of_nat (S n)) == inject_Z (Z.of_nat n) + 1)%Q) by (rewrite Nat2Z.inj_succ, <- Z.add_1_r, inject_Z_plus; reflexivity).
    assert (NN : (0 <= inject_Z (Z.of_nat n))%Q) by (change 0%Q with (inject_Z 0); rewrite <- Zle_Qle; lia).
    assert (NL : (inject_Z (Z.of_nat n) + 1 <= nq)%Q) by (rewrite <- QN, <- Zle_Qle; lia).
    assert (PQ : (this (qsum n g + g n)%Qc == this (qsum n g) + this (g n))%Q) by apply plus_q.
    set (m := inject_Z (Z.of_nat n)) in *. set (m' := inject_Z (Z.of_nat (S n))) in *. set (d := delta) in *. 
    assert (DP : (0 <= nq * d)%Q) by nra.
    assert (E1 : (m' * (nq * (13 * d)) == m * (nq * (13 * d)) + nq * (13 * d))%Q) by (rewrite QN; ring).
    split.
    { rewrite PQ, QN. clear - B Hg. split; [lra|]. setoid_replace ((m + 1) * nq)%Q with (m * nq + nq)%Q by ring. lra. }
    destruct (h n) as [x|].
    + eapply near_eq; [symmetry; exact PQ|]. eapply near_le; [|apply (near_plus _ _ _ _ s x (2 * (nq * nq)) H Hh)].
      * rewrite E1. assert (u * (2 * (nq * nq)) <= nq * d)%Q. { setoid_replace (u * (2 * (nq * nq)))%Q with (nq * (2 * nq * u))%Q by ring. apply Qmult_le_l; lra. }
        lra.
      * apply (Qle_trans _ 1); [vm_compute; discriminate|]. set (k := nq) in *. clearbody k. clear - N1. nra.
      * apply (Qle_trans _ (two ^ 1 * (two ^ 48 * two ^ 48))); [|rewrite <- !two_plus; apply two_le; lia].
        change (two ^ 1)%Q with 2%Q. apply Qmult_le_l; [reflexivity|]. apply Qmult_le_compat_nonneg; split; lra.
      * rewrite !Qabs_pos by lra. set (k := nq) in *. clearbody k d m. clear - B Hg N1 NL NN D1 UP UD DP.
        assert (this (qsum n g) <= m * k)%Q by lra. assert (this (g n) <= k)%Q by lra. set (a := this (qsum n g)) in *. set (b := this (g n)) in *. clearbody a b.
        assert (A1 : (k * d <= k * (1 # 16))%Q) by (apply Qmult_le_l; lra).
        assert (A2 : (m * (k * (13 * d)) <= m * (k * (13 # 16)))%Q). { destruct (Qeq_dec m 0) as [->|]; [lra|]. apply Qmult_le_l; [lra|]. lra. }
        assert (A3 : (k * (m + 1) <= k * k)%Q) by (apply Qmult_le_l; lra).
        assert (A4 : (0 <= m * k)%Q) by nra. lra.
    + rewrite Hh in *. eapply near_le; [|eapply near_eq; [|exact H]].
      * rewrite E1. lra.
      * rewrite PQ. change (this 0%Qc) with 0%Q. lra.
Qed.

Lemma index_approx : approx CDouble 1 nq (double_of_index N).
Proof.
  destruct delta_le as (UP & ND & UD & D1 & N1 & N2).
  apply (approx_round CDouble 0 _ nq); [apply of_int_rounds|lra|lra| |rewrite shrink_0; lra|rewrite shrink_0; lra].
  apply (between_wide CDouble 0 48); [cbn [emax]; lia|cbn [emax]; lia|]. split; [exact N1|exact N2].
Qed.
Lemma index_square : exists w, approx CDouble 3 (nq * nq) w /\ w = times (double_of_index N) (double_of_index N).
Proof.
  destruct delta_le as (UP & ND & UD & D1 & N1 & N2). eexists. split; [|reflexivity]. pose proof index_approx.
  apply (approx_times CDouble 1 1 0 48 0 48); auto; try (apply half; lia); try (cbn [emax]; lia); split; auto.
Qed.

Lemma near_mean (T : Qc) s : (0 <= this T <= nq * nq)%Q -> near (nq * (nq * (13 * delta))) (this T) s ->
  near (32 * delta) (this (T / (nat_q N * nat_q N))%Qc) (div s (times (double_of_index N) (double_of_index N))).
Proof.
  intros B (V & F & H). destruct delta_le as (UP & ND & UD & D1 & N1 & N2). destruct index_square as (w & Aw & <-).
  assert (EQ : (this (T / (nat_q N * nat_q N))%Qc == this T / (nq * nq))%Q) by (rewrite div_q, mult_q, nat_q_this; reflexivity).
  eapply near_eq; [symmetry; exact EQ|]. clear EQ.
  pose proof (approx_relative CDouble 3 (nq * nq) w ltac:(vm_compute; discriminate) ltac:(set (k := nq) in *; clearbody k; nra) Aw) as (Fw & Hw).
  destruct Aw as (Vw & _). change (inject_Z (Z.of_nat 3)) with 3%Q in Hw.
  assert (PK : (1 <= nq * nq)%Q) by (set (k := nq) in *; clearbody k; clear - N1; nra).
  assert (H' : (Qabs (real s - this T) <= (nq * nq) * (13 * delta))%Q) by (eapply Qle_trans; [exact H|]; apply Qle_lteq; right; ring). clear H.
  set (k := (nq * nq)%Q) in *. set (t := this T) in *. apply Qabs_Qle_condition in H', Hw.
  assert (UV : (u <= 1 # 1000)%Q) by (vm_compute; discriminate).
  set (S := real s) in *. set (W := real w) in *. set (d := delta) in *. set (v := u) in *.
  assert (WP : (k * (99 # 100) <= W /\ W <= k * (101 # 100))%Q).
  { assert (k * v <= k * (1 # 1000))%Q by (apply Qmult_le_l; lra). lra. }
  assert (W0 : (0 < W)%Q) by lra.
  assert (SB : (- (14 * d + 7 * v) <= S / W - t / k <= 14 * d + 7 * v)%Q).
  { assert (X : (S / W - t / k == (S * k - t * W) / (W * k))%Q) by (field; split; lra). rewrite X. clear X.
    assert (WK : (0 < W * k)%Q) by (clearbody W k; clear - W0 PK; nra).
    assert (Y : (S * k - t * W == (S - t) * k - t * (W - k))%Q) by ring.
    assert (Y1 : (- (k * k * (13 * d)) <= (S - t) * k <= k * k * (13 * d))%Q).
    { destruct H' as [P1 P2]. apply (Qmult_le_compat_r _ _ k) in P1; [|lra]. apply (Qmult_le_compat_r _ _ k) in P2; [|lra]. lra. }
    assert (Y2 : (- (k * k * (6 * v)) <= t * (W - k) <= k * k * (6 * v))%Q).
    { assert (Q1 : (0 <= k * v)%Q) by (clearbody k v; clear - PK UP; nra).
      assert (Z1 : (Qabs (t * (W - k)) <= k * (6 * (k * v)))%Q).
      { rewrite Qabs_Qmult. apply Qmult_le_compat_nonneg; (split; [apply Qabs_nonneg|]).
        - rewrite Qabs_pos; lra.
        - apply Qabs_Qle_condition. lra. }
      apply Qabs_Qle_condition in Z1. setoid_replace (k * k * (6 * v))%Q with (k * (6 * (k * v)))%Q by ring. exact Z1. }
    assert (Y3 : (k * k * (99 # 100) <= W * k)%Q).
    { destruct WP as [P1 _]. apply (Qmult_le_compat_r _ _ k) in P1; [|lra]. lra. }
    assert (DV : (0 <= 14 * d + 7 * v)%Q) by lra.
    assert (Y4 : (k * k * (13 * d + 6 * v) <= (14 * d + 7 * v) * (W * k))%Q).
    { apply (Qle_trans _ ((14 * d + 7 * v) * (k * k * (99 # 100)))).
      - assert (KK : (0 <= k * k)%Q) by (clearbody k; clear - PK; nra).
        setoid_replace ((14 * d + 7 * v) * (k * k * (99 # 100)))%Q with (k * k * ((14 * d + 7 * v) * (99 # 100)))%Q by ring.
        apply Qmult_le_compat_nonneg; split; lra.
      - apply Qmult_le_compat_nonneg; split; try lra. clearbody k; clear - PK; nra. }
    split; [apply Qle_shift_div_l|apply Qle_shift_div_r]; auto; rewrite Y; lra. }
  assert (TB : (0 <= t / k <= 1)%Q).
  { split; [apply Qle_shift_div_l; lra|apply Qle_shift_div_r; lra]. }
  destruct (rounds_abs (S / W) (div s w) 3) as (V' & F' & H'').
  - apply div_rounds; auto. fold W. lra.
  - vm_compute; discriminate.
  - apply (Qle_trans _ (two ^ 2)); [vm_compute; discriminate|apply two_le; lia].
  - apply Qabs_Qle_condition. lra.
  - split; [exact V'|]. split; [exact F'|]. apply Qabs_Qle_condition. apply Qabs_Qle_condition in H''. fold v in H''. lra.
Qed.

Lemma am_error loa lob Ka Kb A a B b : Ka <= K -> Kb <= K -> am N loa Ka A a -> am N lob Kb B b -> ub N 0 a -> ub N 0 b ->
  exists x, rt_mk_error f0 plus minus times div double_of_index N A B = Ok x /\ near (32 * delta) (this (mean_diff N a b)) x.
Proof.
  intros La Lb HA HB UA UB. pose proof (am_nn _ _ _ _ _ HA) as NA. pose proof (am_nn _ _ _ _ _ HB) as NB.
  apply (am_le _ _ loa _ K) in HA; [|lia|auto]. apply (am_le _ _ lob _ K) in HB; [|lia|auto].
  assert (ND : forall lo c M, am N lo K M c -> nn N c -> ub N 0 c -> exists f, rc N N M f /\ (forall i j, i < N -> j < N ->
    (0 <= this (c i j) <= 1)%Q /\ match f i j with Some x => near delta (this (c i j)) x | None => c i j = 0%Qc end)).
  { intros lo c M (f & R & H) NC UC. exists f. split; [exact R|]. intros i j Hi Hj. specialize (H i j Hi Hj). specialize (NC i j Hi Hj). specialize (UC i j Hi Hj).
    unfold Qcle in NC. change (this 0%Qc) with 0%Q in NC. change (two ^ 0)%Q with 1%Q in UC. split; [lra|]. destruct (f i j) as [x|]; [|exact H].
    destruct H as [H _]. destruct (approx_relative CDouble K _ _ ltac:(cbn [prec]; lia) NC H) as (F & E). split; [apply H|]. split; [exact F|].
    refine (Qle_trans _ _ _ E _). fold delta. destruct delta_le as (UP & _ & UD & _). set (d := delta) in *. set (y := this (c i j)) in *. clearbody d y. nra. }
  destruct (ND _ _ _ HA NA UA) as (fA & RA & GA), (ND _ _ _ HB NB UB) as (fB & RB & GB). clear ND.
  unfold rt_mk_error.
  destruct (rc_add N N minus idc idc minus idc idc btrue mnomask _ MERGE (lil_new N N) A B _ _ _ (rc_new N N) RA RB (mrc_none N N btrue))
    as (E & -> & HE). cbn [bind].
  destruct (rc_mult N N times times idc btrue mnomask _ MERGE E E E _ _ _ HE HE HE (mrc_none N N btrue)) as (E' & -> & HE'). cbn [bind].
  rewrite (reduce_ms_rows f0 idc plus plus plus) by (try reflexivity; apply HE'). cbn [bind]. eexists. split; [reflexivity|].
  rewrite (proj1 (rc_dims _ _ _ _ HE')), (proj2 (rc_dims _ _ _ _ HE')). unfold idc at 1 2. unfold rows_sum, mean_diff.
  set (sq := fun i j => ((a i j - b i j) * (a i j - b i j))%Qc).
  assert (SQ : forall i j, i < N -> j < N -> (0 <= this (sq i j) <= 1)%Q) by (intros; apply sq_bound; [apply GA|apply GB]; auto).
  assert (G : forall i, i < N -> match ofold idc plus (map (mget E' i) (seq 0 N)) with Some s => near (nq * (12 * delta)) (this (qsum N (sq i))) s | None => qsum N (sq i) = 0%Qc end).
  { intros i Hi. change (ofold idc plus) with (ofold (fun x : fval => x) plus). rewrite ProofInts.ofold_osum. apply near_row; [|auto].
    intros j Hj. rewrite (rc_get _ _ _ _ _ _ HE') by auto. cbv beta. unfold wr, sq.
    destruct (GA i j Hi Hj) as [A1 A2], (GB i j Hi Hj) as [B1 B2].
    pose proof (near_square (a i j) (b i j) (fA i j) (fB i j) A1 B1 A2 B2) as X. exact X. }
  assert (S : forall i, i < N -> (0 <= this (qsum N (sq i)) <= nq)%Q).
  { intros i Hi. split.
    - apply (qsum_nonneg N (sq i)). intros j Hj. apply this_le. apply SQ; auto.
    - apply (Qle_trans _ (this (qsum N (fun _ => 1%Qc)))).
      + apply (qsum_le N (sq i) (fun _ => 1%Qc)). intros j Hj. apply this_le. apply SQ; auto.
      + rewrite qsum_const, mult_q, nat_q_this. change (this 1%Qc) with 1%Q. lra. }
  destruct (near_rows _ _ G S N (le_n N)) as (T1 & T2). apply near_mean; auto.
Qed.
End Error.

(** ** The iteration *)
Lemma stoch_ub N a : nn N a -> stochastic N a -> ub N 0 a /\ (forall j, j < N -> (this (qsum N (fun i => a i j)) <= 1)%Q).
Proof.
  intros P S. assert (C : forall j, j < N -> (this (qsum N (fun i => a i j)) <= 1)%Q).
  { intros j Hj. destruct (S j Hj) as [H|H]; [|rewrite H; vm_compute; discriminate].
    rewrite (qsum_ext N _ (fun _ => 0%Qc)) by auto. rewrite qsum_const, mult_q. change (this 0%Qc) with 0%Q. lra. }
  split; [|exact C]. intros i j Hi Hj. change (two ^ 0)%Q with 1%Q. refine (Qle_trans _ _ _ _ (C j Hj)).
  apply (qsum_term N (fun i => a i j) i Hi). intros; apply P; auto.
Qed.
Lemma grow_le N e r K : 1 <= e -> 1 <= r -> K <= mcl_grow N e r K /\ N <= mcl_grow N e r K.
Proof. intros He Hr. unfold mcl_grow. split; nia. Qed.
Lemma after_le N e r k : 1 <= e -> 1 <= r -> forall K, K <= mcl_after N e r k K.
Proof.
  intros He Hr. induction k as [|k IH]; intro K; cbn [mcl_after]; [lia|]. pose proof (grow_le N e r K He Hr). specialize (IH (mcl_grow N e r K)). lia.
Qed.
Lemma step_am N e r l K A a : N <> 0 -> 1 <= e -> 1 <= r -> (0 <= l <= 450)%Z -> (Z.of_nat r * l <= 900)%Z -> (Z.of_nat (mcl_grow N e r K) <= big)%Z ->
  am N l K A a -> stochastic N a ->
  (forall m i j, m < e -> i < N -> j < N -> expand N m a a i j = 0%Qc \/ (two ^ (- l) <= this (expand N m a a i j))%Q) ->
  exists P Q, rt_mk_expand plus times ftrue e A = Ok P /\ rt_mk_inflate f0 plus times inv ftrue r P = Ok Q /\
    am N (Z.of_nat r * l + 48) (mcl_grow N e r K) Q (mcl_step N e r a).
Proof.
  intros N0 He Hr L RL HK HA ST RG. pose proof (am_nn _ _ _ _ _ HA) as NA. destruct (stoch_ub N a NA ST) as [UA SA].
  assert (K1 : K + (e - 1) * S (K + N) <= e * (K + N + 1)) by nia.
  set (Kb := K + (e - 1) * S (K + N)) in *.
  assert (K2 : Kb + (r - 1) * S Kb <= r * (e * (K + N + 1) + 1)) by nia.
  set (Kp := Kb + (r - 1) * S Kb) in *.
  assert (K3 : Kb <= Kp) by (unfold Kp; nia).
  assert (K4 : 2 * Kp + N + 2 <= mcl_grow N e r K) by (unfold mcl_grow; lia).
  destruct (am_expand N l K A a L HA UA SA (e - 1) K A a) as (P & E1 & HP & UP); auto.
  { fold Kb. lia. }
  { intros m i j Hm. apply RG. lia. }
  fold Kb in HP.
  assert (R1 : (l + Z.of_nat (r - 1) * l = Z.of_nat r * l)%Z) by (rewrite Nat2Z.inj_sub by auto; ring).
  assert (R2 : (0 <= Z.of_nat r * l)%Z) by (apply Z.mul_nonneg_nonneg; lia).
  destruct (am_pow N l Kb P (expand N (e - 1) a a) ltac:(lia) HP UP (r - 1) l Kb P (expand N (e - 1) a a)) as (I & E2 & HI & UI); [lia|rewrite R1; exact RL|fold Kp; lia|exact HP|exact UP|].
  fold Kp in HI. rewrite R1 in HI.
  destruct (am_normal N (Z.of_nat r * l) 0 Kp I (fun i j => expand N (e - 1) a a i j * expand N (e - 1) a a i j ^ (r - 1))%Qc) as (Q & E3 & HQ); auto; try lia.
  exists P, Q. split; [exact E1|]. split; [unfold rt_mk_inflate; rewrite E2; exact E3|].
  apply (am_le _ (Z.of_nat r * l + 0 + 48) _ (2 * Kp + N + 2)); [lia|auto|].
  eapply am_ext; [|exact HQ]. intros i j Hi Hj. unfold mcl_step, normal.
  assert (E : forall x, (x * x ^ (r - 1) = x ^ r)%Qc) by (intro x; destruct r; [lia|]; simpl; rewrite Nat.sub_0_r; auto).
  rewrite E. f_equal. apply qsum_ext. intros. apply E.
Qed.

(** The stopping rule decides about the exact mean squared difference up to [K 2^-47]. *)
Definition mk_tol (K : nat) : Q := (inject_Z (Z.of_nat K) * two ^ (-47))%Q.
Lemma tol_delta K : (32 * delta K == mk_tol K)%Q.
Proof. unfold delta, mk_tol. assert (E : (64 * u == two ^ (-47))%Q) by reflexivity. rewrite <- E. ring. Qed.

Lemma dmk_loop N e r l t n : N <> 0 -> 1 <= e -> 1 <= r -> (0 <= l <= 450)%Z -> (Z.of_nat r * l <= 900)%Z -> value CDouble t -> finite t ->
  forall K lo A a, N <= K -> (Z.of_nat (mcl_after N e r n K) <= big)%Z -> (lo <= 948)%Z -> am N lo K A a -> stochastic N a -> mcl_range N e r n l a ->
  exists B k, rt_mk_loop f0 plus minus times div inv FLessThan ftrue double_of_index n N e r t A = Ok B /\ k <= n /\
    am N 948 (mcl_after N e r k K) B (mcl N e r k a) /\
    (forall j, 1 <= j -> j < k -> (real t <= this (mean_diff N (mcl N e r (j - 1) a) (mcl N e r j a)) + mk_tol (mcl_after N e r j K))%Q) /\
    (k = n \/ 1 <= k /\ (this (mean_diff N (mcl N e r (k - 1) a) (mcl N e r k a)) < real t + mk_tol (mcl_after N e r k K))%Q).
Proof.
  intros N0 He Hr L RL Vt Ft. induction n as [|n IH]; intros K lo A a NK HK Llo HA ST RG.
  - exists A, 0. split; [reflexivity|]. split; [auto|]. split; [eapply am_le; [| |exact HA]; auto|]. split; [intros; lia|auto].
  - cbn [rt_mk_loop mcl_after] in *. pose proof (after_le N e r n He Hr (mcl_grow N e r K)) as AL. destruct (grow_le N e r K He Hr) as [GL1 GL2].
    assert (RG0 : forall m i j, m < e -> i < N -> j < N -> expand N m a a i j = 0%Qc \/ (two ^ (- l) <= this (expand N m a a i j))%Q).
    { intros m i j Hm Hi Hj. exact (RG 0 m i j ltac:(lia) Hm Hi Hj). }
    pose proof HA as HA0. apply (am_range _ _ l) in HA0; [|intros i j Hi Hj; exact (RG0 0 i j ltac:(lia) Hi Hj)].
    destruct (step_am N e r l K A a N0 He Hr L RL ltac:(lia) HA0 ST RG0) as (P & Q & EP & EQ & HQ).
    rewrite EP. cbn [bind]. rewrite EQ. cbn [bind].
    pose proof (am_nn _ _ _ _ _ HA) as NA. pose proof (am_nn _ _ _ _ _ HQ) as NQ.
    assert (ST' : stochastic N (mcl_step N e r a)).
    { unfold mcl_step. apply normal_stoch. intros i j Hi Hj. apply qpow_nonneg. apply (expand_nn N (e - 1) a NA a NA); auto. }
    destruct (am_error N N0 (mcl_grow N e r K) GL2 ltac:(lia) _ _ K (mcl_grow N e r K) A a Q _ GL1 (le_n _) HA HQ
      (proj1 (stoch_ub N a NA ST)) (proj1 (stoch_ub N _ NQ ST'))) as (x & Ex & (Vx & Fx & Hx)).
    rewrite Ex. cbn [bind]. rewrite tol_delta in Hx. apply Qabs_Qle_condition in Hx.
    pose proof (real_ltb x t Vx Vt Fx Ft) as LT. change (FLessThan x t) with (SFltb x t).
    destruct (SFltb x t).
    + exists Q, 1. split; [reflexivity|]. split; [lia|]. split; [eapply am_le; [| |exact HQ]; [lia|auto]|]. split; [intros; lia|]. right. split; [lia|].
      assert (real x < real t)%Q by (apply LT; auto). cbn [mcl Nat.sub mcl_after]. lra.
    + assert (GE : (real t <= real x)%Q). { apply Qnot_lt_le. intro C. apply LT in C. discriminate. }
      destruct HA as (fA & RA & _). pose proof HQ as (fQ & RQ & _).
      rewrite (lil_assign_ok N A Q _ _ RA RQ). cbn [bind].
      destruct (IH (mcl_grow N e r K) (Z.of_nat r * l + 48)%Z Q _ GL2 HK ltac:(lia) HQ ST') as (B & k & EB & Hk & HB & H1 & H2).
      { intros k m i j Hk Hm Hi Hj. exact (RG (S k) m i j ltac:(lia) Hm Hi Hj). }
      exists B, (S k). split; [exact EB|]. split; [lia|]. split; [exact HB|]. split.
      * intros j J1 J2. destruct j as [|[|j]]; [lia|cbn [mcl Nat.sub mcl_after]; lra|]. specialize (H1 (S j) ltac:(lia) ltac:(lia)).
        simpl in *. rewrite Nat.sub_0_r in H1. exact H1.
      * destruct H2 as [->|(K1 & H2)]; [auto|]. right. split; [lia|]. destruct k as [|k]; [lia|]. simpl in *. rewrite Nat.sub_0_r in H2. exact H2.
Qed.

Lemma dmarkov_ok {T} (tr : T -> fval) (G : lil T) N e r l t n :
  wfm G -> N <> 0 -> nrows G = N -> ncols G = N ->
  (forall i j x, mget G i j = Some x -> value CDouble (tr x) /\ finite (tr x) /\ (two ^ (-100) <= real (tr x) <= two ^ 100)%Q) ->
  1 <= e -> 1 <= r -> (0 <= l <= 450)%Z -> (Z.of_nat r * l <= 900)%Z -> value CDouble t -> finite t ->
  let s := normal N (weight (fun x => exact_q (tr x)) G) in
  (Z.of_nat (mcl_roundings N e r n) <= big)%Z -> mcl_range N e r n l s ->
  exists B k, dmarkov_cluster tr G e r t n = Ok B /\ k <= n /\ am N 948 (mcl_roundings N e r k) B (mcl N e r k s) /\
    (forall j, 1 <= j -> j < k -> (real t <= this (mean_diff N (mcl N e r (j - 1) s) (mcl N e r j s)) + mk_tol (mcl_roundings N e r j))%Q) /\
    (k = n \/ 1 <= k /\ (this (mean_diff N (mcl N e r (k - 1) s) (mcl N e r k s)) < real t + mk_tol (mcl_roundings N e r k))%Q).
Proof.
  intros WG N0 RG CG Pos He Hr L RL Vt Ft s HK RGE. unfold dmarkov_cluster, rt_markov_cluster. rewrite RG, CG, Nat.eqb_refl. cbn [negb].
  assert (HG : rc N N G (mget G)) by (split; auto).
  destruct (rc_apply N N tr btrue mnomask _ MERGE (lil_new N N) G _ _ (rc_new N N) HG (mrc_none N N btrue)) as (M & -> & HM). cbn [bind].
  assert (HM' : am N 100 0 M (weight (fun x => exact_q (tr x)) G) /\ ub N 100 (weight (fun x => exact_q (tr x)) G)).
  { split.
    - eexists. split; [exact HM|]. intros i j Hi Hj. cbv beta. unfold wr, weight. destruct (mget G i j) as [x|] eqn:E; cbn [option_map]; [|reflexivity].
      destruct (Pos i j x E) as (V & F & B). split.
      + apply (approx_eq _ _ (real (tr x))); [symmetry; apply exact_q_this|]. apply approx_exact; auto.
      + rewrite exact_q_this. apply B.
    - intros i j Hi Hj. unfold weight. destruct (mget G i j) as [x|] eqn:E; [|vm_compute; discriminate]. rewrite exact_q_this. apply (Pos i j x E). }
  destruct HM' as [HM' UM]. pose proof (am_nn _ _ _ _ _ HM') as NM.
  pose proof (after_le N e r n He Hr (N + 2)) as AL. unfold mcl_roundings in *.
  destruct (am_normal N 100 100 0 M (weight (fun x => exact_q (tr x)) G)) as (A & EA & HA); auto; try lia.
  rewrite EA. cbn [bind].
  apply (dmk_loop N e r l t n N0 He Hr L RL Vt Ft (N + 2) (100 + 100 + 48) A s); auto; try lia. apply normal_stoch. exact NM.
Qed.

(** ** Consequences *)
Lemma after_mono N e r n : 1 <= e -> 1 <= r -> forall k K, k <= n -> mcl_after N e r k K <= mcl_after N e r n K.
Proof.
  intros He Hr. induction n as [|n IH]; intros k K H; [replace k with 0 by lia; auto|]. destruct k as [|k]; cbn [mcl_after].
  - pose proof (after_le N e r n He Hr (mcl_grow N e r K)). destruct (grow_le N e r K He Hr). lia.
  - apply IH. lia.
Qed.
Lemma am_element N e r k n : 1 <= e -> 1 <= r -> k <= n -> (Z.of_nat (mcl_roundings N e r n) <= big)%Z ->
  forall (q : Qc) x, approx CDouble (mcl_roundings N e r k) (this q) x /\ (two ^ (- 948) <= this q)%Q ->
  (0 < q)%Qc /\ relative (inject_Z (Z.of_nat (mcl_roundings N e r k)) * two ^ (-52)) (this q) x.
Proof.
  intros He Hr Hk HK q x [H1 H2]. pose proof (two_pos (-948)) as TP. change (- 948)%Z with (-948)%Z in H2.
  split; [unfold Qclt; change (this 0%Qc) with 0%Q; lra|].
  pose proof (after_mono N e r n He Hr k (N + 2) Hk) as M. unfold mcl_roundings in *.
  destruct (approx_relative CDouble (mcl_after N e r k (N + 2)) (this q) x ltac:(cbn [prec]; lia) ltac:(lra) H1) as [F B]. split; [exact F|]. refine (Qle_trans _ _ _ B _).
  assert (E : (2 * u == two ^ (-52))%Q) by reflexivity. rewrite <- E. apply Qle_lteq. right. ring.
Qed.
Lemma am_sum N (q : nat -> Qc) (x : nat -> Qc) (e : Q) : (forall i, i < N -> (Qabs (this (x i) - this (q i)) <= e * this (q i))%Q) ->
  (Qabs (this (qsum N x) - this (qsum N q)) <= e * this (qsum N q))%Q.
Proof.
  induction N as [|N IH]; intro H.
  - cbn [qsum]. change (this 0%Qc) with 0%Q. rewrite Qabs_pos; lra.
  - cbn [qsum]. assert (E1 : (this (qsum N x + x N)%Qc == this (qsum N x) + this (x N))%Q) by apply plus_q.
    assert (E2 : (this (qsum N q + q N)%Qc == this (qsum N q) + this (q N))%Q) by apply plus_q.
    specialize (IH ltac:(intros; apply H; lia)). specialize (H N ltac:(lia)). apply Qabs_Qle_condition in IH, H. apply Qabs_Qle_condition.
    rewrite E1, E2. lra.
Qed.
Lemma am_loops {T} (tr : T -> fval) (G : lil T) N e r n k B : wfm G -> N <> 0 -> nrows G = N -> ncols G = N -> (forall v, v < N -> mget G v v <> None) ->
  (forall i j x, mget G i j = Some x -> value CDouble (tr x) /\ finite (tr x) /\ (two ^ (-100) <= real (tr x) <= two ^ 100)%Q) ->
  1 <= e -> 1 <= r -> k <= n -> (Z.of_nat (mcl_roundings N e r n) <= big)%Z ->
  am N 948 (mcl_roundings N e r k) B (mcl N e r k (normal N (weight (fun x => exact_q (tr x)) G))) ->
  (forall i j, mget B i j <> None <-> mget G i j <> None) /\
  forall j, j < N -> (Qabs (this (qsum N (fun i => weight exact_q B i j)) - 1) <= inject_Z (Z.of_nat (mcl_roundings N e r n)) * two ^ (-52))%Q.
Proof.
  intros WG N0 RG CG Lp Pos He Hr Hk HK (f & (WB & RB & CB & GB) & HF).
  set (w := weight (fun x => exact_q (tr x)) G) in *.
  assert (PW : forall i j x, mget G i j = Some x -> (0 < exact_q (tr x))%Qc).
  { intros i j x E. destruct (Pos i j x E) as (_ & _ & H & _). unfold Qclt. rewrite exact_q_this. change (this 0%Qc) with 0%Q. pose proof (two_pos (-100)). lra. }
  assert (Nw : nn N w) by (intros i j _ _; apply weight_nonneg; auto).
  assert (Nz : forall i j, w i j <> 0%Qc <-> mget G i j <> None).
  { intros i j. unfold w, weight. destruct (mget G i j) as [x|] eqn:Ex; [|split; congruence]. split; [discriminate|].
    intros _ Z. specialize (PW i j x Ex). rewrite Z in PW. discriminate PW. }
  assert (Z : forall i j, i < N -> j < N -> (mcl N e r k (normal N w) i j <> 0%Qc <-> mget G i j <> None)).
  { intros i j Hi Hj. rewrite <- Nz, <- (normal_nz N w i j) by auto. apply mcl_nz; auto.
    - apply normal_nn; auto.
    - intros v Hv. apply normal_nz; auto. apply Nz; auto. }
  assert (HE : forall i j, i < N -> j < N -> match mget B i j with
     Some x => (0 < mcl N e r k (normal N w) i j)%Qc /\ relative (inject_Z (Z.of_nat (mcl_roundings N e r k)) * two ^ (-52)) (this (mcl N e r k (normal N w) i j)) x
     | None => mcl N e r k (normal N w) i j = 0%Qc end).
  { intros i j Hi Hj. rewrite GB by auto. specialize (HF i j Hi Hj). destruct (f i j); [|exact HF]. exact (am_element N e r k n He Hr Hk HK _ _ HF). }
  assert (P : forall i j, mget B i j <> None <-> mget G i j <> None).
  { intros i j. destruct (Nat.lt_ge_cases i N) as [Hi|Hi]; [|rewrite !mget_oob by (auto; lia); tauto].
    destruct (Nat.lt_ge_cases j N) as [Hj|Hj]; [|rewrite !mget_oob by (auto; lia); tauto].
    rewrite <- Z by auto. specialize (HE i j Hi Hj). destruct (mget B i j); [|split; congruence]. split; [|discriminate].
    intros _ E. destruct HE as [HE _]. rewrite E in HE. discriminate HE. }
  split; [exact P|]. intros j Hj.
  assert (S : qsum N (fun i => mcl N e r k (normal N w) i j) = 1%Qc).
  { destruct (mcl_stoch N e r k _ (normal_nn N _ Nw) (normal_stoch N _ Nw) j Hj) as [F|S]; [|exact S].
    exfalso. apply (proj2 (Z j j Hj Hj) (Lp j Hj)). apply F; auto. }
  pose proof (am_sum N (fun i => mcl N e r k (normal N w) i j) (fun i => weight exact_q B i j) (inject_Z (Z.of_nat (mcl_roundings N e r k)) * two ^ (-52))) as A.
  rewrite S in A. change (this 1%Qc) with 1%Q in A. eapply Qle_trans; [apply A|].
  - intros i Hi. specialize (HE i j Hi Hj). cbv beta. unfold weight. destruct (mget B i j) as [x|].
    + rewrite exact_q_this. apply HE.
    + rewrite HE. change (this 0%Qc) with 0%Q. rewrite Qabs_pos; lra.
  - pose proof (after_mono N e r n He Hr k (N + 2) Hk) as M. fold (mcl_roundings N e r k) (mcl_roundings N e r n) in M.
    rewrite Qmult_1_r. apply Qmult_le_compat_r; [rewrite <- Zle_Qle; lia|]. pose proof (two_pos (-52)). lra.
Qed.
Lemma same_code {T} (tq : T -> Qc) (G : lil T) e r n t :
    rt_markov_cluster 0%Qc Qcplus Qcminus Qcmult Qcdiv Qcinv (fun x y => if Qclt_le_dec x y then true else false) qtrue qn tq G e r t n =
    markov_cluster tq G e r t n.
Proof.
  unfold rt_markov_cluster, markov_cluster. destruct (negb _); [reflexivity|].
  destruct (apply _ _ _ _ _ _ _ _) as [A| |]; cbn [bind]; try reflexivity. destruct (normalize_cols _ _ _ _ A) as [M| |]; cbn [bind]; try reflexivity.
  revert M. induction n as [|n IH]; intro M; [reflexivity|]. cbn [rt_mk_loop mk_loop].
  change (rt_mk_expand Qcplus Qcmult qtrue e M) with (mk_expand e M). destruct (mk_expand e M) as [P| |]; cbn [bind]; try reflexivity.
  change (rt_mk_inflate 0%Qc Qcplus Qcmult Qcinv qtrue r P) with (mk_inflate r P). destruct (mk_inflate r P) as [Q| |]; cbn [bind]; try reflexivity.
  change (rt_mk_error 0%Qc Qcplus Qcminus Qcmult Qcdiv qn (nrows G) M Q) with (mk_error (nrows G) M Q).
  destruct (mk_error (nrows G) M Q) as [x| |]; cbn [bind]; try reflexivity. destruct (Qclt_le_dec x t); [reflexivity|].
  destruct (lil_assign M Q) as [M'| |]; cbn [bind]; try reflexivity. apply IH.
Qed.
