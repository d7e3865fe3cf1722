(** Peer pressure clustering over [double]. *)
From Coq Require Import Lia Lqa ZArith QArith Qcanon Floats.SpecFloat.
From Verif Require Import Base ModelLil ModelVec ModelHelpers ModelViews ModelMul ModelElem ModelIndex ModelUtils
  ModelAlgoBase ModelRank ModelCluster ModelFloat ModelClusterTypes Spec SpecOps SpecRank SpecCluster SpecFloats SpecConv SpecRankTypes SpecClusterTypes
  ProofBase ProofLil ProofVec ProofElem ProofReduce ProofRound ProofFloat ProofConv ProofDiv
  ProofUtils ProofContainers ProofGraph ProofRank ProofVis ProofRc ProofCluster ProofClusterTypes.
From Verif Require ProofFsssp.
Local Open Scope nat_scope.

Definition dgood (x : fval) : Prop := number CDouble x /\ nonnegative x.
Definition dkey (x : fval) : Z := sv CDouble x.

Lemma dgood_cases x : dgood x -> x = S754_infinity false \/ (value CDouble x /\ finite x /\ nonnegative x).
Proof.
  intros [[V NN] P]. destruct x as [s|[|]| |s m e]; try congruence; auto.
  - right. repeat split; auto.
  - discriminate P.
  - right. repeat split; auto.
Qed.
Lemma dgood_inf : dgood (S754_infinity false).
Proof. split; [apply inf_number|reflexivity]. Qed.
Lemma nonneg_real x : finite x -> (nonnegative x <-> (0 <= real x)%Q).
Proof.
  intro F. destruct x as [s|s| |s m e]; try contradiction.
  - split; [intros _; apply Qle_refl|reflexivity].
  - cbn [real]. pose proof (two_pos e) as P. unfold two in P. destruct s; cbn [cond_Zopp].
    + split; [discriminate|]. intro L. exfalso. assert (inject_Z (- Zpos m) <= -1)%Q by (change (-1)%Q with (inject_Z (-1)); rewrite <- Zle_Qle; lia). nra.
    + split; [intros _|reflexivity]. assert (0 <= inject_Z (Zpos m))%Q by (change 0%Q with (inject_Z 0); rewrite <- Zle_Qle; lia). nra.
Qed.
Lemma real_fle x y : value CDouble x -> value CDouble y -> finite x -> finite y -> (fle x y <-> (real x <= real y)%Q).
Proof.
  intros Vx Vy Fx Fy. rewrite (fle_sv CDouble) by (split; [auto|intros Q; rewrite Q in *; contradiction]).
  rewrite (real_sv CDouble x), (real_sv CDouble y) by auto. pose proof (two_pos (em CDouble)) as P.
  rewrite Zle_Qle. split; intro H; [apply Qmult_le_compat_r; lra|]. apply (Qmult_le_r _ _ _ P). exact H.
Qed.
Lemma real_ltb x y : value CDouble x -> value CDouble y -> finite x -> finite y -> (SFltb x y = true <-> (real x < real y)%Q).
Proof.
  intros Vx Vy Fx Fy. rewrite (ltb_sv CDouble) by (split; [auto|intros Q; rewrite Q in *; contradiction]).
  rewrite (real_sv CDouble x), (real_sv CDouble y) by auto. pose proof (two_pos (em CDouble)) as P.
  rewrite Z.ltb_lt, Zlt_Qlt. split; intro H; [apply Qmult_lt_compat_r; auto|]. apply (Qmult_lt_r _ _ _ P). exact H.
Qed.
Lemma rounds_nonneg q x : (0 <= q)%Q -> rounds_to CDouble q x -> dgood x.
Proof. intros P (N & H & _). split; [auto|]. apply (H f0); [reflexivity|exact I|exact P]. Qed.

Lemma dgood_plus a b : dgood a -> dgood b -> dgood (FPlus CDouble a b).
Proof.
  intros A B. destruct (dgood_cases a A) as [->|(Va & Fa & Pa)], (dgood_cases b B) as [->|(Vb & Fb & Pb)].
  - exact dgood_inf.
  - replace (FPlus CDouble (S754_infinity false) b) with (S754_infinity false) by (destruct b; try contradiction; reflexivity). exact dgood_inf.
  - replace (FPlus CDouble a (S754_infinity false)) with (S754_infinity false) by (destruct a; try contradiction; reflexivity). exact dgood_inf.
  - apply (rounds_nonneg (real a + real b)%Q); [|apply plus_rounds; auto]. apply nonneg_real in Pa, Pb; auto. lra.
Qed.
Lemma dmax_key a b : dgood a -> dgood b -> dkey (FMax CDouble a b) = Z.max (dkey a) (dkey b).
Proof. intros [A _] [B _]. apply max_sv; auto. Qed.
Lemma deqb_key a b : dgood a -> dgood b -> FEqual a b = (dkey a =? dkey b)%Z.
Proof. intros [A _] [B _]. apply eqb_sv; auto. Qed.
Lemma done_times a : dgood a -> FTimes CDouble (double_of_bool true) a = a.
Proof. intros [A _]. apply times_one; auto. Qed.
Lemma dtimes_one a : dgood a -> FTimes CDouble a (double_of_bool true) = a.
Proof. intros [A _]. apply times_one; auto. Qed.

Section Index.
Context (N : nat) (NB : (Z.of_nat N <= 2 ^ 53)%Z).
Lemma dgood_index k : k <= N -> dgood (double_of_index k).
Proof.
  intro Hk. apply (rounds_nonneg (inject_Z (Z.of_nat k))); [|apply of_int_rounds]. change 0%Q with (inject_Z 0). rewrite <- Zle_Qle. lia.
Qed.
Lemma dindex_mono j k : j < k -> k <= N -> (dkey (double_of_index j) < dkey (double_of_index k))%Z.
Proof.
  intros Hj Hk. unfold dkey, double_of_index.
  destruct (int_ok CDouble (Z.of_nat j)) as (_ & _ & ->); [change (prec CDouble) with 53%Z; lia|].
  destruct (int_ok CDouble (Z.of_nat k)) as (_ & _ & ->); [change (prec CDouble) with 53%Z; lia|].
  pose proof (unit_pos CDouble). nia.
Qed.
End Index.

(** The rounds of the generic proof and those of the specification. *)
Section Link.
Context (N : nat) {TA : Type} (ta : TA -> fval) (fA : nat -> nat -> option TA) (w : nat -> nat -> option fval).
Hypothesis posA : forall u v x, u < N -> v < N -> fA u v = Some x -> dgood (ta x).
Hypothesis Hw : forall u v, u < N -> v < N -> option_map ta (fA u v) = w u v.
Let gv := gvotes (FPlus CDouble) N ta fA.

Lemma gvotes_f m i v : v < N -> gv m i v = fvotes N w m i v.
Proof.
  intros Hv. unfold gv, gvotes, fvotes. f_equal. apply map_ext_in. intros u Hu. apply in_seq in Hu. rewrite Hw by lia. reflexivity.
Qed.
Lemma fvotes_good m i v x : v < N -> fvotes N w m i v = Some x -> dgood x.
Proof.
  intros Hv E. rewrite <- gvotes_f in E by auto. revert E. apply (gvotes_good (FPlus CDouble) dgood N dgood_plus ta fA posA). auto.
Qed.
Lemma gwins_f m i v : v < N -> (gwins (FPlus CDouble) dkey N ta fA m i v <-> fwins N w m i v).
Proof.
  intros Hv. unfold gwins, fwins.
  assert (L : forall x y i', i' < N -> fvotes N w m i v = Some x -> fvotes N w m i' v = Some y ->
    ((dkey y < dkey x)%Z \/ (dkey y = dkey x /\ i' <= i) <-> SFltb y x = true \/ (feq y x /\ i' <= i))).
  { intros x y i' Hi' Ex Ey. apply fvotes_good in Ex, Ey; auto. destruct Ex as [Nx _], Ey as [Ny _].
    rewrite (ltb_sv CDouble) by auto. rewrite (feq_sv CDouble) by auto. rewrite Z.ltb_lt. reflexivity. }
  fold gv. split; intros (x & E & M); exists x.
  - rewrite gvotes_f in E by auto. split; [auto|]. intros i' y Hi' Ey. apply (L x y); auto. apply M; auto. rewrite gvotes_f by auto. auto.
  - split; [rewrite gvotes_f by auto; auto|]. intros i' y Hi' Ey. rewrite gvotes_f in Ey by auto. apply (L x y i'); auto.
Qed.
Lemma ground_f m m' : ground (FPlus CDouble) dkey N ta fA m m' <-> fround N w m m'.
Proof. split; intros H i v Hi Hv; rewrite (H i v Hi Hv); [|symmetry]; apply gwins_f; auto. Qed.
Lemma grounds_f k : forall m m', grounds (FPlus CDouble) dkey N ta fA k m m' <-> frounds N w k m m'.
Proof.
  induction k as [|k IH]; intros m m'; [reflexivity|]. cbn [grounds frounds].
  split; intros (m1 & R1 & R2); exists m1; (split; [apply ground_f; auto|apply IH; auto]).
Qed.
End Link.

Definition foutcome (N : nat) (w : nat -> nat -> option fval) (n : nat) (C : lil bool) (r : res (lil bool)) : Prop :=
  exists C' k, r = Ok C' /\ clustering N C' /\ k <= n /\ frounds N w k (member C) (member C') /\
    (k = n \/ fround N w (member C') (member C')).
Lemma dpp_run_ok {T TA} (makeA : res (lil TA)) (ta : TA -> fval) (G : lil T) C n N A fA w :
  (Z.of_nat N <= 2 ^ 53)%Z ->
  N <> 0 -> nrows G = N -> ncols G = N -> clustering N C -> makeA = Ok A -> rc N N A fA ->
  (forall u v x, u < N -> v < N -> fA u v = Some x -> dgood (ta x)) ->
  (forall u v, u < N -> v < N -> option_map ta (fA u v) = w u v) ->
  foutcome N w n C (rt_pp_run f0 (FPlus CDouble) (FTimes CDouble) (FMax CDouble) FEqual double_of_bool double_of_index makeA ta G C n).
Proof.
  intros NB N0 RG CG HC EA HA Pos Hw.
  destruct (rt_pp_run_ok (FPlus CDouble) (FTimes CDouble) (FMax CDouble) FEqual double_of_bool double_of_index dgood dkey N (max_cases CDouble) dmax_key
    deqb_key done_times dtimes_one dgood_plus (dgood_index N) (dindex_mono N NB) ta fA Pos f0 makeA G C n A N0 RG CG HC EA HA)
    as (C' & k & E & S & Hk & R & St).
  exists C', k. split; [exact E|]. split; [auto|]. split; [auto|]. split; [apply (grounds_f N ta fA w Pos Hw); auto|].
  destruct St as [|St]; [auto|]. right. apply (ground_f N ta fA w Pos Hw); auto.
Qed.

Section Calls.
Context {T : Type} (tr : T -> fval) (rt : fval -> T) (G : lil T) (N : nat).
Hypothesis WG : wfm G.
Hypothesis N0 : N <> 0.
Hypothesis RG : nrows G = N.
Hypothesis CG : ncols G = N.
Hypothesis NB : (Z.of_nat N <= 2 ^ 53)%Z.
Hypothesis pos : forall u v x, mget G u v = Some x -> value CDouble (tr x) /\ finite (tr x) /\ (0 < real (tr x))%Q.

Lemma weight_good u v x : mget G u v = Some x -> dgood (tr x).
Proof.
  intro E. destruct (pos u v x E) as (V & F & P). split; [split; [auto|intros Q; rewrite Q in F; exact F]|].
  apply nonneg_real; auto. apply Qlt_le_weak; auto.
Qed.
(** The sum of positive numbers is positive. *)
Definition dpos (x : fval) : Prop := x = S754_infinity false \/ (value CDouble x /\ finite x /\ (0 < real x)%Q).
Lemma dpos_good x : dpos x -> dgood x.
Proof.
  intros [->|(V & F & P)]; [exact dgood_inf|]. split; [split; [auto|intros Q; rewrite Q in F; exact F]|].
  apply nonneg_real; auto. apply Qlt_le_weak; auto.
Qed.
Lemma rounds_pos q x y : rounds_to CDouble q x -> value CDouble y -> finite y -> (0 < real y)%Q -> (real y <= q)%Q -> dpos x.
Proof.
  intros (Nx & H & _) Vy Fy Py L. destruct (H y Vy Fy) as (H1 & _). specialize (H1 L).
  destruct (finite_dec x) as [F|[->|(s & ->)]].
  - right. split; [apply Nx|]. split; [auto|]. eapply Qlt_le_trans; [exact Py|]. 
    apply real_fle; auto; apply Nx.
  - destruct Nx. congruence.
  - destruct s; [|left; auto]. exfalso. destruct y; try contradiction; discriminate H1.
Qed.
Lemma dpos_plus a b : dpos a -> dpos b -> dpos (FPlus CDouble a b).
Proof.
  intros [->|(Va & Fa & Pa)] [->|(Vb & Fb & Pb)].
  - left. reflexivity.
  - left. destruct b; try contradiction; reflexivity.
  - left. destruct a; try contradiction; reflexivity.
  - apply (rounds_pos (real a + real b)%Q _ a); auto; [apply plus_rounds; auto|lra].
Qed.
Lemma dpos_osum (l : list (option fval)) : (forall x, In (Some x) l -> dpos x) -> forall x, osum (FPlus CDouble) l = Some x -> dpos x.
Proof. apply good_osum. exact dpos_plus. Qed.
Lemma inv_good s : dpos s -> dgood (FDiv CDouble (f1 CDouble) s).
Proof.
  intros [->|(V & F & P)].
  - split; [split; [reflexivity|discriminate]|reflexivity].
  - apply (rounds_nonneg (real (f1 CDouble) / real s)%Q).
    + apply Qlt_le_weak, Qlt_shift_div_l; [auto|]. rewrite Qmult_0_l. reflexivity.
    + apply div_rounds; auto; [reflexivity|exact I|lra].
Qed.
Lemma times_good a x : dgood a -> value CDouble x -> finite x -> (0 < real x)%Q -> dgood (FTimes CDouble a x).
Proof.
  intros A V F P. destruct (dgood_cases a A) as [->|(Va & Fa & Pa)].
  - destruct x as [s| | |s m e]; try contradiction; [exfalso; revert P; apply Qlt_irrefl|]. destruct s.
    + exfalso. assert (nonnegative (S754_finite true m e)) as X by (apply nonneg_real; [exact I|apply Qlt_le_weak; auto]). discriminate X.
    + exact dgood_inf.
  - apply (rounds_nonneg (real a * real x)%Q); [|apply times_rounds; auto]. apply nonneg_real in Pa; auto. nra.
Qed.
Lemma fshare_good u v x : fshare N tr G u v = Some x -> dgood x.
Proof.
  unfold fshare. destruct (osum (FPlus CDouble) (map (fweight tr G u) (seq 0 N))) as [s|] eqn:Es; [|discriminate].
  unfold fweight at 1. destruct (mget G u v) as [g|] eqn:Eg; [|discriminate]. cbn [option_map]. intro E.
  assert (X : FTimes CDouble (FDiv CDouble (f1 CDouble) s) (tr g) = x) by congruence. rewrite <- X. clear X E.
  destruct (pos u v g Eg) as (V & F & P). apply times_good; auto. apply inv_good. revert Es. apply dpos_osum.
  intros y Hy. apply in_map_iff in Hy. destruct Hy as (k & Ek & _). unfold fweight in Ek. destruct (mget G u k) as [h|] eqn:Eh; [|discriminate].
  injection Ek as <-. right. exact (pos u k h Eh).
Qed.

Lemma fshares_ok : exists A,
  (A0 <- apply tr btrue idc (NoAcc idc) mnomask MERGE (lil_new N N) (Mat G) ;;
   normalize_rows f0 (FPlus CDouble) (FTimes CDouble) (FMultiplicativeInverse CDouble) A0) = Ok A /\ rc N N A (fshare N tr G).
Proof.
  assert (HG : rc N N G (mget G)) by (split; auto).
  destruct (rc_apply N N tr btrue mnomask _ MERGE (lil_new N N) G _ _ (rc_new N N) HG (mrc_none N N btrue)) as (m1 & -> & (W1 & R1 & C1 & G1)).
  cbn [bind].
  destruct (normalize_rows_ok f0 (FPlus CDouble) (FTimes CDouble) (FMultiplicativeInverse CDouble) m1 W1) as (m2 & E2 & W2 & R2 & C2 & G2); [congruence|].
  rewrite R1, C1 in *. exists m2. split; [exact E2|].
  split; [auto|split; [auto|split; [auto|]]]. intros u v Hu Hv. rewrite G2, G1 by auto. unfold wr, fshare.
  rewrite (map_ext_in (mget m1 u) (fweight tr G u)).
  2:{ intros k Hk. apply in_seq in Hk. rewrite G1 by lia. reflexivity. }
  unfold fweight at 2 3. destruct (osum _ _); [|reflexivity]. destruct (mget G u v); reflexivity.
Qed.

Lemma dpeer_pressure_ok C n : clustering N C -> foutcome N (fshare N tr G) n C (dpeer_pressure_cluster tr G C n).
Proof.
  intro HC. unfold dpeer_pressure_cluster, rt_peer_pressure. rewrite CG. destruct fshares_ok as (A & EA & HA).
  refine (dpp_run_ok _ idc G C n N A _ _ NB N0 RG CG HC EA HA _ _).
  - intros u v x Hu Hv E. apply (fshare_good u v); auto.
  - intros u v Hu Hv. destruct (fshare N tr G u v); reflexivity.
Qed.
Lemma dpeer_pressure_v2_ok C n : (forall u v x, mget G u v = Some x -> tr (rt (tr x)) = tr x) ->
  clustering N C -> foutcome N (fweight tr G) n C (dpeer_pressure_cluster_v2 tr rt G C n).
Proof.
  intros Rt HC. unfold dpeer_pressure_cluster_v2, rt_peer_pressure_v2. rewrite CG.
  assert (HG : rc N N G (mget G)) by (split; auto).
  destruct (rc_apply_cast N N tr rt btrue mnomask _ MERGE (lil_new N N) G _ _ (rc_new N N) HG (mrc_none N N btrue)) as (A & EA & HA).
  refine (dpp_run_ok _ tr G C n N A _ _ NB N0 RG CG HC EA HA _ _).
  - intros u v x Hu Hv E. cbv beta in E. unfold wr in E. destruct (mget G u v) as [g|] eqn:Eg; [|discriminate]. injection E as <-.
    rewrite (Rt u v) by auto. apply (weight_good u v); auto.
  - intros u v Hu Hv. cbv beta. unfold wr, fweight. destruct (mget G u v) as [g|] eqn:Eg; simpl; [f_equal; apply (Rt u v); auto|auto].
Qed.
End Calls.

(** ** Consequences *)
Lemma fwins_unique N w m i i' v : (forall j x, j < N -> fvotes N w m j v = Some x -> number CDouble x) -> i < N -> i' < N ->
  fwins N w m i v -> fwins N w m i' v -> i = i'.
Proof.
  intros Nu Hi Hi' (x & Ex & H) (y & Ey & H'). specialize (H i' y Hi' Ey). specialize (H' i x Hi Ex).
  apply Nu in Ex, Ey; auto. rewrite (ltb_sv CDouble), Z.ltb_lt, (feq_sv CDouble) in H, H' by auto. lia.
Qed.
