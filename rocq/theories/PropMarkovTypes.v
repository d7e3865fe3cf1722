(** Property theorems: Markov clustering over [double] (C173, C174). *)
From Coq Require Import ZArith QArith Qabs Qcanon Lia Lqa Floats.SpecFloat.
From Verif Require Import Base ModelLil ModelVec ModelViews ModelUtils ModelAlgoBase ModelRank ModelCluster ModelFloat ModelConv ModelClusterTypes ModelMarkovTypes
  Spec SpecOps SpecRank SpecCluster SpecFloats SpecConv SpecNormalize SpecRankTypes SpecMarkovTypes
  ProofBase ProofLil ProofViews ProofRank ProofRc ProofMarkov ProofConv ProofNormalize ProofApprox ProofRankApprox ProofMarkovDouble ModelBc  PropCluster.
Local Open Scope nat_scope.

(** ** C173: the result in [double] is close to an iterate of exact arithmetic *)

(** [tr] converts a weight to [double]; [s] is the matrix of the exact weights after this conversion, divided by the sums of the columns.
    The elements of the exact computation up to the inflation are 0 or at least 2^-l.  The result has an element exactly where the iterate
    [mcl N e r k s] of C92 is not 0, within a relative error of [K 2^-52], where [K] is the number [mcl_roundings N e r k] of roundings.
    The iteration stops according to the mean squared difference of the exact iterates, up to [K 2^-47]. *)
Theorem C173_markov_double_accurate :
  forall (T : Type) (tr : T -> fval) (G : lil T) (N e r n : nat) (l : Z) (t : fval),
    wfm G -> N <> 0 -> nrows G = N -> ncols G = N ->
    (forall i j x, mget G i j = Some x -> value CDouble (tr x) /\ finite (tr x) /\ (2 ^ (-100) <= real (tr x) <= 2 ^ 100)%Q) ->
    1 <= e -> 1 <= r -> (0 <= l <= 450)%Z -> (Z.of_nat r * l <= 900)%Z -> value CDouble t -> finite t ->
    let s := normal N (weight (fun x => exact_q (tr x)) G) in
    let K k := inject_Z (Z.of_nat (mcl_roundings N e r k)) in
    (Z.of_nat (mcl_roundings N e r n) <= 2 ^ 48)%Z -> mcl_range N e r n l s ->
    exists B k, dmarkov_cluster tr G e r t n = Ok B /\ wfm B /\ nrows B = N /\ ncols B = N /\ k <= n /\
      (forall i j, i < N -> j < N ->
        match mget B i j with
        | Some x => (0 < mcl N e r k s i j)%Qc /\ relative (K k * 2 ^ (-52)) (this (mcl N e r k s i j)) x
        | None => mcl N e r k s i j = 0%Qc
        end) /\
      (forall j, 1 <= j -> j < k -> (real t <= this (mean_diff N (mcl N e r (j - 1) s) (mcl N e r j s)) + K j * 2 ^ (-47))%Q) /\
      (k = n \/ 1 <= k /\ (this (mean_diff N (mcl N e r (k - 1) s) (mcl N e r k s)) < real t + K k * 2 ^ (-47))%Q).
Proof.
  intros T tr G N e r n l t W N0 R C Pos He Hr L RL Vt Ft s K HK RG.
  destruct (dmarkov_ok tr G N e r l t n W N0 R C Pos He Hr L RL Vt Ft HK RG) as (B & k & E & Hk & HB & H1 & H2).
  pose proof HB as (f & (WB & RB & CB & GB) & HF).
  exists B, k. split; [exact E|]. split; [auto|]. split; [auto|]. split; [auto|]. split; [auto|]. split; [|split; [exact H1|exact H2]].
  intros i j Hi Hj. rewrite GB by auto. specialize (HF i j Hi Hj). destruct (f i j) as [x|]; [|exact HF].
  exact (am_element N e r k n He Hr Hk HK _ _ HF).
Qed.
Print Assumptions C173_markov_double_accurate.

(** With loops at all vertices, as recommended, the result has the edges of the graph and all sums are 1 up to rounding errors. *)
Theorem C173_markov_double_loops :
  forall (T : Type) (tr : T -> fval) (G : lil T) (N e r n : nat) (l : Z) (t : fval),
    wfm G -> N <> 0 -> nrows G = N -> ncols G = N -> (forall v, v < N -> mget G v v <> None) ->
    (forall i j x, mget G i j = Some x -> value CDouble (tr x) /\ finite (tr x) /\ (2 ^ (-100) <= real (tr x) <= 2 ^ 100)%Q) ->
    1 <= e -> 1 <= r -> (0 <= l <= 450)%Z -> (Z.of_nat r * l <= 900)%Z -> value CDouble t -> finite t ->
    let s := normal N (weight (fun x => exact_q (tr x)) G) in
    let K := inject_Z (Z.of_nat (mcl_roundings N e r n)) in
    (Z.of_nat (mcl_roundings N e r n) <= 2 ^ 48)%Z -> mcl_range N e r n l s ->
    exists B, dmarkov_cluster tr G e r t n = Ok B /\ (forall i j, mget B i j <> None <-> mget G i j <> None) /\
      forall j, j < N -> (Qabs (this (qsum N (fun i => weight exact_q B i j)) - 1) <= K * 2 ^ (-52))%Q.
Proof.
  intros T tr G N e r n l t W N0 R C Lp Pos He Hr L RL Vt Ft s K HK RG.
  destruct (dmarkov_ok tr G N e r l t n W N0 R C Pos He Hr L RL Vt Ft HK RG) as (B & k & E & Hk & HB & H1 & H2).
  exists B. split; [exact E|]. exact (am_loops tr G N e r n k B W N0 R C Lp Pos He Hr Hk HK HB).
Qed.
Print Assumptions C173_markov_double_loops.

Theorem C173_markov_double_dimensions :
  forall (T : Type) (tr : T -> fval) (G : lil T) (e r n : nat) (t : fval),
    nrows G <> ncols G -> dmarkov_cluster tr G e r t n = Throw DimensionException.
Proof.
  intros T tr G e r n t H. unfold dmarkov_cluster, rt_markov_cluster. rewrite (proj2 (Nat.eqb_neq _ _) H). reflexivity.
Qed.
Print Assumptions C173_markov_double_dimensions.

(** The function over [double] and the one of C92 over the rational numbers are the same code. *)
Theorem C173_markov_same_code :
  forall (T : Type) (tq : T -> Qc) (G : lil T) (e r n : nat) (t : Qc),
    rt_markov_cluster 0%Qc Qcplus Qcminus Qcmult Qcdiv Qcinv (fun x y => if Qclt_le_dec x y then true else false) qtrue qn tq G e r t n =
    markov_cluster tq G e r t n.
Proof. exact @same_code. Qed.
Print Assumptions C173_markov_same_code.

(** The path 0 - 1 - 2 with loops of C92, at most two iterations. *)
Definition dmk_tr (x : Z) : fval := of_int CDouble x.
Example C173_example :
  wfm ecl_p /\ (forall v, v < 3 -> mget ecl_p v v <> None) /\
  (forall i j x, mget ecl_p i j = Some x -> value CDouble (dmk_tr x) /\ finite (dmk_tr x) /\ (2 ^ (-100) <= real (dmk_tr x) <= 2 ^ 100)%Q) /\
  value CDouble mk_threshold /\ finite mk_threshold /\ (Z.of_nat (mcl_roundings 3 2 2 2) <= 2 ^ 48)%Z /\
  mcl_range 3 2 2 2 10 (normal 3 (weight (fun x => exact_q (dmk_tr x)) ecl_p)) /\
  exists B, dmarkov_cluster dmk_tr ecl_p 2 2 mk_threshold 2 = Ok B /\ map (fun '(i, j, _) => (i, j)) (lil_extractTuples B) =
    [(0, 0); (0, 1); (1, 0); (1, 1); (1, 2); (2, 1); (2, 2)].
Proof.
  split; [wf_mat|]. split. { intros v Hv. do 3 (destruct v as [|v]; [vm_compute; discriminate|]). lia. }
  split. { intros u v x E. rewrite (ecl_p_one u v x E). split; [vm_compute; reflexivity|]. split; [vm_compute; exact I|]. split; vm_compute; discriminate. }
  split; [vm_compute; reflexivity|]. split; [vm_compute; exact I|]. split; [vm_compute; discriminate|]. split.
  - intros k m i j Hk Hm Hi Hj.
    do 2 (destruct k as [|k]; [do 2 (destruct m as [|m]; [do 3 (destruct i as [|i]; [do 3 (destruct j as [|j];
      [cbv zeta; first [right; vm_compute; discriminate|left; apply Qc_is_canon; vm_compute; reflexivity]|]); lia|]); lia|]); lia|]). lia.
  - eexists. split; vm_compute; reflexivity.
Qed.

(** ** C174: with loops at all vertices, the result in [double] has the edges of the graph *)

(** Two cycles of three vertices with loops and small integer weights.  With the default threshold and 11 iterations, the columns of the
    first cycle are empty in [double]; in exact arithmetic they have the sum 1. *)
Theorem C174_markov_double_refuted :
  exists (G : lil Z) (B : lil fval) (B' : lil Qc),
    wfm G /\ nrows G = 6 /\ ncols G = 6 /\ (forall v, v < 6 -> mget G v v <> None) /\
    (forall u v x, mget G u v = Some x -> (0 < x <= 4097)%Z) /\
    dmarkov_cluster dmk_tr G 2 2 mk_threshold 11 = Ok B /\ (forall i j, j < 3 -> mget B i j = None) /\
    markov_cluster zq G 2 2 (exact_q mk_threshold) 11 = Ok B' /\
    forall j, j < 6 -> mget B' j j <> None /\ qsum 6 (fun i => weight (fun x => x) B' i j) = 1%Qc.
Proof.
  set (G := mkLil 6 6 12%Z [[(0, 1%Z); (2, 1%Z)]; [(0, 1%Z); (1, 1%Z)]; [(1, 1%Z); (2, 1%Z)];
    [(3, 4097%Z); (5, 1024%Z)]; [(3, 1024%Z); (4, 4097%Z)]; [(4, 1024%Z); (5, 4097%Z)]]).
  assert (W : wfm G) by wf_mat.
  assert (Lp : forall v, v < 6 -> mget G v v <> None) by (intros v Hv; do 6 (destruct v as [|v]; [discriminate|]); lia).
  assert (Wt : forall u v x, mget G u v = Some x -> (0 < x <= 4097)%Z).
  { intros u v x E. do 6 (destruct u as [|u]; [do 6 (destruct v as [|v]; [try discriminate E; injection E as <-; lia|]); destruct v; discriminate E|]).
    destruct u; discriminate E. }
  destruct (C92_markov_loops Z zq G 6 2 2 11 (exact_q mk_threshold) W ltac:(lia) eq_refl eq_refl) as (B' & E & H1 & H2); try lia; auto.
  { intros u v x H. apply Wt in H. unfold Qclt, zq, Q2Qc. cbn [this]. rewrite !Qred_correct. change 0%Q with (inject_Z 0). rewrite <- Zlt_Qlt. lia. }
  exists G. eexists. exists B'. split; [exact W|]. split; [reflexivity|]. split; [reflexivity|]. split; [exact Lp|]. split; [exact Wt|].
  split; [vm_compute; reflexivity|]. split.
  - intros i j Hj. do 3 (destruct j as [|j]; [do 6 (destruct i as [|i]; [reflexivity|]); destruct i; reflexivity|]). lia.
  - split; [exact E|]. intros j Hj. split; [apply H1; auto|auto].
Qed.
Print Assumptions C174_markov_double_refuted.

(** A cycle with loops whose weights are 2^-540 and 1: after one iteration all elements are NaN. *)
Theorem C174_markov_double_nan_refuted :
  exists (G : lil fval) (B : lil fval),
    wfm G /\ nrows G = 3 /\ ncols G = 3 /\ (forall v, v < 3 -> mget G v v <> None) /\
    (forall u v x, mget G u v = Some x -> value CDouble x /\ finite x /\ (2 ^ (-540) <= real x <= 1)%Q) /\
    dmarkov_cluster (fun x => x) G 2 2 mk_threshold 1 = Ok B /\ mget B 0 0 = None /\
    mget B 1 0 = Some S754_nan /\ mget B 2 1 = Some S754_nan /\ mget B 0 2 = Some S754_nan.
Proof.
  exists (mkLil 3 3 6%Z [[(0, S754_finite false 4503599627370496 (-592)); (2, f1 CDouble)];
    [(0, f1 CDouble); (1, S754_finite false 4503599627370496 (-592))]; [(1, f1 CDouble); (2, S754_finite false 4503599627370496 (-592))]]).
  eexists. split; [wf_mat|]. split; [reflexivity|]. split; [reflexivity|].
  split. { intros v Hv; do 3 (destruct v as [|v]; [discriminate|]); lia. }
  split. { intros u v x E. do 3 (destruct u as [|u]; [do 3 (destruct v as [|v]; [try discriminate E; injection E as <-;
             (split; [vm_compute; reflexivity|split; [exact I|split; vm_compute; discriminate]])|]); destruct v; discriminate E|]). destruct u; discriminate E. }
  split; [vm_compute; reflexivity|]. repeat split.
Qed.
Print Assumptions C174_markov_double_nan_refuted.
