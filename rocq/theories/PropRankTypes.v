(** Property theorems: page rank over [double] (C156). *)
From Coq Require Import ZArith QArith Qabs Qcanon Lia Lqa Floats.SpecFloat.
From Coq Require Qcabs.
From Verif Require Import Base ModelLil ModelVec ModelViews ModelRank ModelFloat ModelFsssp ModelConv ModelRankTypes
  Spec SpecOps SpecRank SpecFloats SpecFpaths SpecConv SpecNormalize SpecRankTypes
  ProofBase ProofLil ProofVec ProofRank ProofConv ProofNormalize ProofApprox ProofRankTypes ProofRankApprox ProofViews.
Local Open Scope nat_scope.

(** The graph: weights from 2^-100 to 2^100, at most 2^53 vertices and an edge to every vertex; the damping factor is at least 2^-53 and
    at most 1 - 2^-53, [max] iterations are allowed and 2 + max (4 N + 10) <= 2^53.
    Every rank is positive and within a relative error of (2 + k (4 N + 10)) u of the [k]-th exact iterate, where u = 2^-53, and the number [k]
    of iterations is decided by the mean squared change as computed.  The total distance to any stationary distribution [s] is then at most
    2 d^k plus that error. *)
Theorem C156_page_rank :
  forall (T : Type) (tr : T -> fval) (rt : nat -> fval) (G : lil T) (N : nat) (p : bvec fval) (d thr : fval) (max : nat),
    wfm G -> nrows G = N -> ncols G = N -> N <> 0 -> (Z.of_nat N <= 2 ^ 53)%Z -> wfv p -> vsize p = N ->
    (forall u v g, mget G u v = Some g -> value CDouble (tr g) /\ finite (tr g) /\ ((2 # 1) ^ (-100) <= real (tr g) <= (2 # 1) ^ 100)%Q) ->
    value CDouble d -> finite d -> ((2 # 1) ^ (-53) <= real d <= 1 - (2 # 1) ^ (-53))%Q ->
    is_int CDouble (Z.of_nat N) (rt N) -> (forall v, v < N -> exists u, mget G u v <> None) ->
    (2 * Z.of_nat (1 + max * (2 * N + 5)) <= 2 ^ 53)%Z ->
    let r := rank_iter N (weight (fun g => exact_q (tr g)) G) (exact_q d) in
    exists p' k (R : nat -> nat -> fval), dpage_rank tr rt G p d thr max = Ok p' /\ wfv p' /\ vsize p' = N /\ k <= max /\
      (forall v, v < N -> vget p' v = Some (R k v)) /\
      (forall j v, j <= max -> v < N -> value CDouble (R j v) /\ (0 < real (R j v))%Q /\
         relative (2 * inject_Z (Z.of_nat (1 + j * (2 * N + 5))) * unit_roundoff CDouble) (this (r j v)) (R j v)) /\
      (forall j (s : nat -> Qc), j <= max -> (forall v, v < N -> (0 <= s v)%Qc) -> (qsum N s <= 1)%Qc ->
         (forall v, v < N -> s v = rank_step N (weight (fun g => exact_q (tr g)) G) (exact_q d) s v) ->
         (qsum N (fun v => Qcabs.Qcabs (exact_q (R j v) - s v)) <=
          Q2Qc (2 # 1) * Qcpower (exact_q d) j + Q2Qc (2 * inject_Z (Z.of_nat (1 + j * (2 * N + 5))) * unit_roundoff CDouble))%Qc) /\
      (k < max -> 0 < k /\ FLessThan (computed_change CDouble N (R (k - 1)) (R k)) thr = true) /\
      (forall i, i + 1 < k -> FLessThan (computed_change CDouble N (R i) (R (i + 1))) thr = false).
Proof.
  intros T tr rt G N p d thr max WG RG CG N0 NB Wp Sp WB Vd Fd [D0 D1] Hrt IE MB r.
  pose proof (dpage_rank_ok tr rt G N d max WG RG CG N0 NB WB Vd Fd D0 D1 Hrt IE MB p thr Wp Sp) as H.
  destruct H as (p' & k & E & W & S & Hk & V & L & M). eexists p', k, _. do 4 (split; [eassumption|]). split; [exact V|].
  match goal with |- (forall j v, _ -> _ -> value CDouble (?f j v) /\ _) /\ _ => set (R := f) in * end.
  assert (REL : forall j v, j <= max -> v < N -> value CDouble (R j v) /\ (0 < real (R j v))%Q /\
         relative (2 * inject_Z (Z.of_nat (1 + j * (2 * N + 5))) * unit_roundoff CDouble) (this (r j v)) (R j v)).
  { intros j v Hj Hv. pose proof (iter_approx tr rt G N d max WG RG CG N0 NB WB Vd Fd D0 D1 Hrt IE MB j Hj v Hv) as X.
    assert (HB : (2 * Z.of_nat (1 + j * (2 * N + 5)) <= 2 ^ prec CDouble)%Z).
    { change (prec CDouble) with 53%Z. assert (j * (2 * N + 5) <= max * (2 * N + 5)) by (apply Nat.mul_le_mono_r; auto). lia. }
    pose proof (iter_between tr G N d max WG RG CG N0 NB WB D0 D1 MB j v Hv) as B.
    pose proof (approx_between _ _ _ _ _ _ (shrink_half _ _ HB) B X) as BX. apply between_pos in B, BX.
    split; [apply X|]. split; [exact BX|]. apply approx_relative; auto. apply Qlt_le_weak; auto. }
  split; [exact REL|]. split; [|split; [exact L|exact M]].
  intros j s Hj S0 S1 FX. set (A := weight (fun g => exact_q (tr g)) G) in *. set (dq := exact_q d) in *.
  set (e := (2 * inject_Z (Z.of_nat (1 + j * (2 * N + 5))) * unit_roundoff CDouble)%Q).
  pose proof (P0 tr G N WG RG CG N0 WB : forall u v, (0 <= A u v / qsum N (A u))%Qc) as P0'. pose proof (P1 tr G N : forall u, (qsum N (fun v => A u v / qsum N (A u)) <= 1)%Qc) as P1'.
  pose proof (dq0 d D0 : (0 <= dq)%Qc) as d0. pose proof (dq1 d D1 : (dq <= 1)%Qc) as d1.
  destruct (iter_total N A dq j N0 P0' P1' d0 d1) as [I0 I1]. destruct (iter_total N A dq 0 N0 P0' P1' d0 d1) as [J0 J1].
  assert (E0 : (0 <= e)%Q). { unfold e. pose proof (u_pos CDouble). assert (0 <= inject_Z (Z.of_nat (1 + j * (2 * N + 5))))%Q by (change 0%Q with (inject_Z 0); rewrite <- Zle_Qle; lia). nra. }
  pose proof (l1_relative N e (r j) (R j) E0 (fun v Hv => proj2 (proj2 (REL j v Hj Hv))) I1) as L1.
  pose proof (iter_fixed N A dq s P0' P1' d0 FX j) as L2. pose proof (l1_two N (rank_iter N A dq 0) s J0 S0 J1 S1) as L3.
  assert (PW : (0 <= Qcpower dq j)%Qc) by (clear - d0; induction j; cbn [Qcpower]; [discriminate|apply Qc_mult_nonneg; auto]).
  assert (L4 : (l1 N (rank_iter N A dq 0) s * Qcpower dq j <= Q2Qc (2 # 1) * Qcpower dq j)%Qc) by (apply Qc_mult_le; auto).
  pose proof (l1_triangle N (fun v => exact_q (R j v)) (r j) s) as TR. fold (l1 N (fun v => exact_q (R j v)) s).
  eapply Qcle_trans; [exact TR|]. rewrite Qcplus_comm. apply Qcplus_le_compat; [|exact L1]. eapply Qcle_trans; [exact L2|]. rewrite Qcmult_comm. exact L4.
Qed.
Print Assumptions C156_page_rank.

(** The same code over the rational numbers is the function of C70. *)
Theorem C156_same_code :
  forall (T : Type) (tr : T -> Qc) (rt : nat -> Qc) (G : lil T) (p : bvec Qc) (d thr : Qc) (max : nat),
    rt_page_rank 0%Qc 1%Qc Qcplus Qcminus Qcmult Qcdiv Qcinv (fun x y => if Qclt_le_dec x y then true else false) qtrue qn tr rt G p d thr max =
    page_rank tr rt G p d thr max.
Proof. intros. exact (rt_page_rank_q tr rt G p d thr max). Qed.
Print Assumptions C156_same_code.

(** Other shapes are rejected. *)
Theorem C156_dimension_exception :
  forall (T : Type) (tr : T -> fval) (rt : nat -> fval) (G : lil T) (p : bvec fval) (d thr : fval) (max : nat),
    (nrows G <> ncols G \/ vsize p <> nrows G) -> dpage_rank tr rt G p d thr max = Throw DimensionException.
Proof.
  intros T tr rt G p d thr max H. unfold dpage_rank, rt_page_rank.
  destruct (Nat.eqb_spec (nrows G) (ncols G)), (Nat.eqb_spec (vsize p) (nrows G)); try reflexivity. lia.
Qed.
Print Assumptions C156_dimension_exception.

(** The graph of C70's example with the default arguments 0.85 and 1.e-5: 0 -> 1, 0 -> 2 (three times as heavy), 1 -> 2, 2 -> 0. *)
Definition e156_G : lil Z := mkLil 3 3 4%Z [[(1, 1%Z); (2, 3%Z)]; [(2, 5%Z)]; [(0, 1%Z)]].
Definition e156_tr (z : Z) : fval := of_int CDouble z.
Definition e156_rt (n : nat) : fval := of_int CDouble (Z.of_nat n).
Definition e156_d : fval := S754_finite false 7656119366529843 (-53).
Definition e156_thr : fval := S754_finite false 5902958103587057 (-69).
Definition e156_p : bvec fval := mkVec 3 0%Z (repeat f0 3) (repeat false 3).
Example C156_example :
  (wfm e156_G /\ wfv e156_p /\ (forall v, v < 3 -> exists u, mget e156_G u v <> None)) /\
  (forall u v g, mget e156_G u v = Some g -> value CDouble (e156_tr g) /\ finite (e156_tr g) /\ ((2 # 1) ^ (-100) <= real (e156_tr g) <= (2 # 1) ^ 100)%Q) /\
  (value CDouble e156_d /\ finite e156_d /\ ((2 # 1) ^ (-53) <= real e156_d <= 1 - (2 # 1) ^ (-53))%Q /\ is_int CDouble 3 (e156_rt 3)) /\
  (2 * Z.of_nat (1 + 50 * (2 * 3 + 5)) <= 2 ^ 53)%Z /\
  match dpage_rank e156_tr e156_rt e156_G e156_p e156_d e156_thr 50 with
  | Ok p => match map (vget p) (seq 0 3) with
            | [Some x; Some y; Some z] => (Qabs (real x - (42110974404921 # 100000000000000)) < 1 # 1000000000000)%Q /\ (Qabs (real y - (14025486125241 # 100000000000000)) < 1 # 1000000000000)%Q /\ (Qabs (real z - (43863539469837 # 100000000000000)) < 1 # 1000000000000)%Q
            | _ => False
            end
  | _ => False
  end.
Proof.
  split; [split; [wf_mat|split; [repeat split; reflexivity|]]|].
  { intros v Hv. destruct v as [|[|[|v]]]; [exists 2|exists 0|exists 0|lia]; discriminate. }
  split. { intros u v g. destruct (Nat.lt_ge_cases u 3), (Nat.lt_ge_cases v 3).
    2, 3, 4: rewrite mget_oob by (try wf_mat; simpl; lia); discriminate.
    do 3 (destruct u as [|u]; [do 3 (destruct v as [|v]; [intros Q; vm_compute in Q; try discriminate; injection Q as <-;
       repeat split; vm_compute; try reflexivity; discriminate|]); lia|]). lia. }
  split; [repeat split; vm_compute; try reflexivity; discriminate|]. split; [vm_compute; discriminate|]. vm_compute. repeat split.
Qed.
