(** Property theorems: peer pressure clustering over [double] (C169, C170). *)
From Coq Require Import ZArith QArith Qcanon Lia Floats.SpecFloat.
From Verif Require Import Base ModelLil ModelVec ModelViews ModelUtils ModelAlgoBase ModelRank ModelBc ModelCluster ModelFloat ModelClusterTypes
  Spec SpecOps SpecRank SpecCluster SpecFloats SpecConv SpecRankTypes SpecClusterTypes
  ProofBase ProofLil ProofUtils ProofViews ProofFloat ProofConv ProofRank ProofVis ProofCluster ProofRankApprox ProofClusterTypes ProofClusterDouble ProofClusterExact.
Local Open Scope nat_scope.

(** ** C169: the rounds of voting in [double] *)

(** The vote of [u] for [v] is [fshare N tr G u v]; [clustering], [member]: see C89.  The weights are positive and finite. *)
Theorem C169_peer_pressure :
  forall (T : Type) (tr : T -> fval) (G : lil T) (C : lil bool) (N n : nat),
    wfm G -> N <> 0 -> nrows G = N -> ncols G = N -> (Z.of_nat N <= 2 ^ 53)%Z ->
    (forall u v x, mget G u v = Some x -> value CDouble (tr x) /\ finite (tr x) /\ (0 < real (tr x))%Q) ->
    clustering N C ->
    let w := fshare N tr G in
    exists C' k, dpeer_pressure_cluster tr G C n = Ok C' /\ clustering N C' /\ k <= n /\
      frounds N w k (member C) (member C') /\ (k = n \/ fround N w (member C') (member C')).
Proof. intros. apply dpeer_pressure_ok; auto. Qed.
Print Assumptions C169_peer_pressure.

(** The second version adds the weights themselves. *)
Theorem C169_peer_pressure_v2 :
  forall (T : Type) (tr : T -> fval) (rt : fval -> T) (G : lil T) (C : lil bool) (N n : nat),
    wfm G -> N <> 0 -> nrows G = N -> ncols G = N -> (Z.of_nat N <= 2 ^ 53)%Z ->
    (forall u v x, mget G u v = Some x -> value CDouble (tr x) /\ finite (tr x) /\ (0 < real (tr x))%Q) ->
    (forall u v x, mget G u v = Some x -> tr (rt (tr x)) = tr x) ->
    clustering N C ->
    let w := fweight tr G in
    exists C' k, dpeer_pressure_cluster_v2 tr rt G C n = Ok C' /\ clustering N C' /\ k <= n /\
      frounds N w k (member C) (member C') /\ (k = n \/ fround N w (member C') (member C')).
Proof. intros. apply dpeer_pressure_v2_ok; auto. Qed.
Print Assumptions C169_peer_pressure_v2.

(** Without initial clusters every vertex starts in its own. *)
Theorem C169_peer_pressure_start :
  forall (T : Type) (tr : T -> fval) (G : lil T) (N n : nat),
    wfm G -> N <> 0 -> nrows G = N -> ncols G = N -> (Z.of_nat N <= 2 ^ 53)%Z ->
    (forall u v x, mget G u v = Some x -> value CDouble (tr x) /\ finite (tr x) /\ (0 < real (tr x))%Q) ->
    let w := fshare N tr G in
    exists C' k, dpeer_pressure_cluster_start tr G n = Ok C' /\ clustering N C' /\ k <= n /\
      frounds N w k Nat.eqb (member C') /\ (k = n \/ fround N w (member C') (member C')).
Proof.
  intros T tr G N n WG N0 RG CG NB Pos w. unfold dpeer_pressure_cluster_start. rewrite RG.
  destruct (scaled_identity_ok N true) as (C & -> & WC & RC & CC & GC). cbn [bind].
  destruct (dpeer_pressure_ok tr G N WG N0 RG CG NB Pos C n) as (C' & k & E & S & Hk & R & St).
  { split; [auto|split; [auto|split; [auto|]]]. intros i v. rewrite GC. destruct ((i =? v) && (i <? N)); discriminate. }
  exists C', k. split; [auto|split; [auto|split; [auto|split; [|auto]]]].
  eapply frounds_ext; [| |exact R]; [|reflexivity]. intros i v Hi Hv. unfold member. rewrite GC.
  rewrite (proj2 (Nat.ltb_lt i N) Hi), andb_true_r. destruct (i =? v); auto.
Qed.
Print Assumptions C169_peer_pressure_start.

(** At most one cluster wins a vertex. *)
Theorem C169_one_winner :
  forall (T : Type) (tr : T -> fval) (G : lil T) (N : nat) (m : nat -> nat -> bool) (i i' v : nat),
    (forall u v x, mget G u v = Some x -> value CDouble (tr x) /\ finite (tr x) /\ (0 < real (tr x))%Q) ->
    i < N -> i' < N -> v < N ->
    (fwins N (fshare N tr G) m i v -> fwins N (fshare N tr G) m i' v -> i = i') /\
    (fwins N (fweight tr G) m i v -> fwins N (fweight tr G) m i' v -> i = i').
Proof.
  intros T tr G N m i i' v Pos Hi Hi' Hv. split; apply fwins_unique; auto; intros j x Hj E.
  - apply (fvotes_good N (fun x : fval => x) (fshare N tr G) (fshare N tr G)) in E; [apply E| | |auto].
    + intros u v' y Hu Hv' Ey. apply (fshare_good tr G N Pos u v'); auto.
    + intros u v' _ _. destruct (fshare N tr G u v'); reflexivity.
  - apply (fvotes_good N (fun x : fval => x) (fweight tr G) (fweight tr G)) in E; [apply E| | |auto].
    + intros u v' y Hu Hv' Ey. unfold fweight in Ey. destruct (mget G u v') as [g|] eqn:Eg; [|discriminate]. injection Ey as <-. apply (weight_good tr G Pos u v'); auto.
    + intros u v' _ _. destruct (fweight tr G u v'); reflexivity.
Qed.
Print Assumptions C169_one_winner.

(** The second version with integer weights whose sums stay within 2^53: the clusters of exact arithmetic (C89). *)
Theorem C169_v2_integers :
  forall (T : Type) (tr : T -> fval) (rt : fval -> T) (tz : T -> Z) (qt : Qc -> T) (G : lil T) (C : lil bool) (N n : nat) (M : Z),
    wfm G -> N <> 0 -> nrows G = N -> ncols G = N -> (Z.of_nat N * M <= 2 ^ 53)%Z -> (Z.of_nat N <= 2 ^ 53)%Z ->
    (forall u v g, mget G u v = Some g -> (0 < tz g <= M)%Z /\ value CDouble (tr g) /\ finite (tr g) /\ (real (tr g) == inject_Z (tz g))%Q) ->
    (forall u v g, mget G u v = Some g -> tr (rt (tr g)) = tr g /\ tz (qt (Q2Qc (inject_Z (tz g)))) = tz g) ->
    clustering N C ->
    dpeer_pressure_cluster_v2 tr rt G C n = peer_pressure_cluster_v2 (fun g => Q2Qc (inject_Z (tz g))) qt G C n.
Proof.
  intros T tr rt tz qt G C N n M WG N0 RG CG MB NB Int Rt HC.
  apply (same_clusters N (fweight tr G) (weight (fun g => Q2Qc (inject_Z (tz g))) G) n C).
  - apply dpeer_pressure_v2_ok; auto.
    + intros u v x E. destruct (Int u v x E) as (P & V & F & R). split; [auto|]. split; [auto|]. rewrite R. change 0%Q with (inject_Z 0). rewrite <- Zlt_Qlt. lia.
    + intros u v x E. apply (Rt u v x E).
  - apply peer_pressure_v2_ok; auto.
    + intros u v x E. destruct (Int u v x E) as (P & _). unfold Qclt, Q2Qc. cbn [this]. rewrite !Qred_correct. apply (Qlt_le_trans _ (inject_Z 1)); [reflexivity|]. rewrite <- Zle_Qle. lia.
    + intros u v x E. rewrite (proj2 (Rt u v x E)). reflexivity.
  - intros k m1 _ _ i v Hi Hv. apply (int_wins tr tz G N M); auto.
Qed.
Print Assumptions C169_v2_integers.

(** The same code over the rational numbers is the pair of functions of C89. *)
Theorem C169_same_code :
  forall (T : Type) (tq : T -> Qc) (qt : Qc -> T) (G : lil T) (C : lil bool) (n : nat),
    rt_peer_pressure 0%Qc Qcplus Qcmult Qcinv qmax qeqb bq qn tq G C n = peer_pressure_cluster tq G C n /\
    rt_peer_pressure_v2 0%Qc Qcplus Qcmult qmax qeqb bq qn tq qt G C n = peer_pressure_cluster_v2 tq qt G C n.
Proof. intros. split; reflexivity. Qed.
Print Assumptions C169_same_code.

Theorem C169_dimensions :
  forall (T : Type) (tr : T -> fval) (rt : fval -> T) (G : lil T) (C : lil bool) (n : nat),
    nrows G <> ncols G \/ nrows G <> nrows C \/ ncols G <> ncols C ->
    dpeer_pressure_cluster tr G C n = Throw DimensionException /\
    dpeer_pressure_cluster_v2 tr rt G C n = Throw DimensionException.
Proof.
  intros T tr rt G C n H. unfold dpeer_pressure_cluster, dpeer_pressure_cluster_v2, rt_peer_pressure, rt_peer_pressure_v2, rt_pp_run.
  destruct (Nat.eqb_spec (nrows G) (ncols G)); [|auto]. cbn [negb].
  destruct (Nat.eqb_spec (nrows G) (nrows C)); [|auto]. destruct (Nat.eqb_spec (ncols G) (ncols C)); [tauto|auto].
Qed.
Print Assumptions C169_dimensions.

(** 0 and 1 vote for each other and for themselves, 1 also for 2, and 2 for itself. *)
Definition e169_G : lil Z := mkLil 3 3 6%Z [[(0, 1%Z); (1, 1%Z)]; [(0, 1%Z); (1, 1%Z); (2, 1%Z)]; [(2, 1%Z)]].
Definition e169_C : lil bool := mkLil 3 3 3%Z [[(0, true); (1, true)]; []; [(2, true)]].
Definition e169_rt (x : fval) : Z := Qnum (Qred (real x)).
Definition e169_qt (q : Qc) : Z := Qnum q.
Lemma e169_vals (P : Z -> Prop) : P 1%Z -> forall u v x, mget e169_G u v = Some x -> P x.
Proof.
  intros P1 u v x. do 3 (destruct u as [|u]; [do 3 (destruct v as [|v];
    [let E := fresh in intro E; vm_compute in E; (discriminate E || (injection E as <-; exact P1))|]);
    let E := fresh in intro E; vm_compute in E; destruct v; discriminate E|]).
  intro E. destruct u; vm_compute in E; discriminate E.
Qed.
Lemma e169_clustering : clustering 3 e169_C.
Proof.
  split; [wf_mat|]. split; [auto|split; [auto|]]. intros i v.
  do 3 (destruct i as [|i]; [do 3 (destruct v as [|v]; [vm_compute; discriminate|]); vm_compute; discriminate|]).
  destruct i; vm_compute; discriminate.
Qed.
Example C169_example :
  wfm e169_G /\ clustering 3 e169_C /\
  (forall u v g, mget e169_G u v = Some g -> (0 < g <= 1)%Z /\ value CDouble (of_int CDouble g) /\ finite (of_int CDouble g) /\ (real (of_int CDouble g) == inject_Z g)%Q) /\
  (forall u v g, mget e169_G u v = Some g -> of_int CDouble (e169_rt (of_int CDouble g)) = of_int CDouble g /\ e169_qt (Q2Qc (inject_Z g)) = g) /\
  fshare 3 (of_int CDouble) e169_G 1 2 = Some (S754_finite false 6004799503160661 (-54)) /\
  dpeer_pressure_cluster (of_int CDouble) e169_G e169_C 10 = Ok e169_C /\
  (exists C, dpeer_pressure_cluster_v2 (of_int CDouble) e169_rt e169_G e169_C 10 = Ok C /\
     lil_extractTuples C = [(0, 0, true); (0, 1, true); (2, 2, true)]) /\
  exists C, dpeer_pressure_cluster_start (of_int CDouble) e169_G 10 = Ok C /\ lil_extractTuples C = [(0, 0, true); (0, 1, true); (2, 2, true)].
Proof.
  split; [wf_mat|]. split; [apply e169_clustering|].
  split; [apply e169_vals; repeat split; vm_compute; try reflexivity; discriminate|].
  split; [apply e169_vals; split; vm_compute; reflexivity|].
  split; [vm_compute; reflexivity|]. split; [vm_compute; reflexivity|]. split; (eexists; split; [vm_compute; reflexivity|vm_compute; reflexivity]).
Qed.

(** ** C170: the clusters are those of exact arithmetic *)

(** Proved when in every round the winner of every vertex leads by more than 4 N + 4 roundings.  For weights from 2^-100 to 2^100. *)
Theorem C170_clear_winners_partial :
  forall (T : Type) (tr : T -> fval) (G : lil T) (C : lil bool) (N n : nat),
    wfm G -> N <> 0 -> nrows G = N -> ncols G = N -> (2 * Z.of_nat (2 * N + 2) <= 2 ^ 53)%Z ->
    (forall u v g, mget G u v = Some g -> value CDouble (tr g) /\ finite (tr g) /\ ((2 # 1) ^ (-100) <= real (tr g) <= (2 # 1) ^ 100)%Q) ->
    clustering N C ->
    let w := share N (weight (fun g => exact_q (tr g)) G) in
    (forall k m, k < n -> rounds N w k (member C) m -> clear_round N (4 * N + 4) w m) ->
    dpeer_pressure_cluster tr G C n = peer_pressure_cluster (fun g => exact_q (tr g)) G C n.
Proof.
  intros T tr G C N n WG N0 RG CG NB WB HC w CL.
  apply (same_clusters N (fshare N tr G) w n C).
  - apply dpeer_pressure_ok; auto; [lia|]. intros u v x E. destruct (WB u v x E) as (V & F & B & _). split; [auto|]. split; [auto|].
    eapply Qlt_le_trans; [|exact B]. reflexivity.
  - apply peer_pressure_ok; auto. intros u v x E. exact (W_pos tr G WB u v x E).
  - intros k m1 Hk R i v Hi Hv. apply (share_wins tr G N RG CG N0 WB NB); auto. apply (CL k); auto.
Qed.
Print Assumptions C170_clear_winners_partial.

(** In general they are not: with an undirected graph of 8 vertices and equal weights, the default start and until nothing changes, exact arithmetic
    finds one cluster and [double] finds two. *)
Definition e170_row (l : list nat) : list (nat * Z) := map (fun v => (v, 1%Z)) l.
Definition e170_G : lil Z := mkLil 8 8 50%Z (map e170_row
  [[0; 1; 3; 4; 5; 6; 7]; [0; 1; 2; 3; 4; 5; 7]; [1; 2; 5; 6]; [0; 1; 3; 4; 5; 6; 7]; [0; 1; 3; 4; 5; 6]; [0; 1; 2; 3; 4; 5; 7]; [0; 2; 3; 4; 6; 7]; [0; 1; 3; 5; 6; 7]]).
Theorem C170_peer_pressure_refuted :
  exists G : lil Z, wfm G /\ nrows G = 8 /\ ncols G = 8 /\ (forall u v, mget G u v = mget G v u) /\ (forall u v x, mget G u v = Some x -> x = 1%Z) /\
    (exists C, peer_pressure_cluster_start zq G 100 = Ok C /\ (forall v, v < 8 -> member C 7 v = true)) /\
    (exists C, dpeer_pressure_cluster_start (of_int CDouble) G 100 = Ok C /\ member C 7 0 = true /\ member C 2 1 = true /\ member C 7 1 = false).
Proof.
  exists e170_G. split; [wf_mat|]. split; [reflexivity|]. split; [reflexivity|].
  assert (O : forall u v, 8 <= u \/ 8 <= v -> mget e170_G u v = None) by (intros; apply mget_oob; [wf_mat|simpl; lia]).
  split; [|split; [|split]].
  - intros u v. destruct (Nat.lt_ge_cases u 8) as [Hu|Hu]; [|rewrite !O by auto; reflexivity].
    destruct (Nat.lt_ge_cases v 8) as [Hv|Hv]; [|rewrite !O by auto; reflexivity].
    do 8 (destruct u as [|u]; [do 8 (destruct v as [|v]; [reflexivity|]); lia|]). lia.
  - intros u v x. destruct (Nat.lt_ge_cases u 8) as [Hu|Hu]; [|rewrite O by auto; discriminate].
    destruct (Nat.lt_ge_cases v 8) as [Hv|Hv]; [|rewrite O by auto; discriminate].
    do 8 (destruct u as [|u]; [do 8 (destruct v as [|v]; [vm_compute; congruence|]); lia|]). lia.
  - eexists. split; [vm_compute; reflexivity|]. intros v Hv. do 8 (destruct v as [|v]; [reflexivity|]). lia.
  - eexists. split; [vm_compute; reflexivity|]. repeat split.
Qed.
Print Assumptions C170_peer_pressure_refuted.

(** The clusters of C169's example lead clearly in every round. *)
Definition e170_w := share 3 (weight (fun g => exact_q (of_int CDouble g)) e169_G).
Example C170_example :
  (forall u v g, mget e169_G u v = Some g -> value CDouble (of_int CDouble g) /\ finite (of_int CDouble g) /\ ((2 # 1) ^ (-100) <= real (of_int CDouble g) <= (2 # 1) ^ 100)%Q) /\
  (2 * Z.of_nat (2 * 3 + 2) <= 2 ^ 53)%Z /\
  forall k m, k < 10 -> rounds 3 e170_w k (member e169_C) m -> clear_round 3 (4 * 3 + 4) e170_w m.
Proof.
  split; [apply e169_vals; repeat split; vm_compute; try reflexivity; discriminate|]. split; [vm_compute; discriminate|].
  assert (V : forall i v, i < 3 -> v < 3 -> votes 3 e170_w (member e169_C) i v =
    nth v (nth i [[Q2Qc (5 # 6); Q2Qc (5 # 6); Q2Qc (1 # 3)]; [0%Qc; 0%Qc; 0%Qc]; [0%Qc; 0%Qc; 1%Qc]] []) 0%Qc).
  { intros i v Hi Hv. apply Qc_is_canon. do 3 (destruct i as [|i]; [do 3 (destruct v as [|v]; [vm_compute; reflexivity|]); lia|]). lia. }
  assert (WN : forall i v, i < 3 -> v < 3 -> (wins 3 e170_w (member e169_C) i v -> i = nth v [0; 0; 2] 0)).
  { intros i v Hi Hv (P & Q). assert (Hw : nth v [0; 0; 2] 0 < 3) by (do 3 (destruct v as [|v]; [simpl; lia|]); lia). specialize (Q _ Hw). rewrite !V in * by auto.
    do 3 (destruct v as [|v]; [do 3 (destruct i as [|i]; [first [reflexivity | exfalso; vm_compute in P; discriminate P | exfalso; destruct Q as [Q|(Q & _)]; vm_compute in Q; discriminate Q]|]); lia|]). lia. }
  assert (ST : round 3 e170_w (member e169_C) (member e169_C)).
  { intros i v Hi Hv. split.
    - intros M. assert (i = 0 \/ i = 1 \/ i = 2) as Ci by (clear - Hi; lia). assert (v = 0 \/ v = 1 \/ v = 2) as Cv by (clear - Hv; lia).
      split; [rewrite V by auto|intros i' Hi'; assert (i' = 0 \/ i' = 1 \/ i' = 2) as Ci' by (clear - Hi'; lia); rewrite !V by auto; destruct Ci' as [->|[->| ->]]];
        destruct Ci as [->|[->| ->]], Cv as [->|[->| ->]]; vm_compute in M; try discriminate M; clear; first [left; vm_compute; reflexivity | right; split; [reflexivity|lia] | vm_compute; reflexivity].
    - intro Wn. apply WN in Wn; auto. subst i. do 3 (destruct v as [|v]; [reflexivity|]). lia. }
  intros k m _ R. pose proof (rounds_det 3 e170_w k (member e169_C) m (member e169_C) R (rounds_still _ _ _ k ST)) as EM.
  intros i i' v Hi Hi' Hv Ne Wn. apply (proj1 (wins_ext 3 e170_w e170_w m (member e169_C) i v Hi Hv (fun _ _ _ _ => eq_refl) EM)) in Wn. apply (WN i v Hi Hv) in Wn.
  rewrite (votes_ext 3 e170_w e170_w m (member e169_C) i v Hi Hv (fun _ _ _ _ => eq_refl) EM).
  rewrite (votes_ext 3 e170_w e170_w m (member e169_C) i' v Hi' Hv (fun _ _ _ _ => eq_refl) EM).
  rewrite (V i v Hi Hv), (V i' v Hi' Hv). subst i. clear - Ne Hi' Hv.
  do 3 (destruct v as [|v]; [do 3 (destruct i' as [|i']; [first [exfalso; simpl in Ne; lia | vm_compute; reflexivity]|]); lia|]). lia.
Qed.
