(** Properties C70 to C72: page rank. *)
From Coq Require Import Lia QArith Qcanon.
From Coq Require Qcabs.
From Verif Require Import Base ModelLil ModelVec ModelViews ModelAlgoBase ModelRank Spec SpecOps SpecRank
  ProofBase ProofLil ProofVec ProofViews ProofVis ProofRank.
Local Open Scope nat_scope.
Local Open Scope Qc_scope.

(** ** C70: graphs in which an edge leads to every vertex.
    [tr] and [rt] are the conversions through the scalar type of the graph. *)

(** The result is an iterate of the random surfer; it is the first one that differs from its
    predecessor by less than the threshold, or the last one allowed. *)
Theorem C70_page_rank :
  forall (T : Type) (tr : T -> Qc) (rt : nat -> Qc) (G : lil T) (N : nat) (p : bvec Qc) (d thr : Qc) (max : nat),
    wfm G -> nrows G = N -> ncols G = N -> N <> 0%nat -> wfv p -> vsize p = N ->
    (forall u v g, mget G u v = Some g -> 0 < tr g) -> rt N = nat_q N ->
    (forall v, (v < N)%nat -> exists u, mget G u v <> None) -> 0 <= d -> d <= 1 ->
    let r := rank_iter N (weight tr G) d in
    exists p', page_rank tr rt G p d thr max = Ok p' /\ wfv p' /\ vsize p' = N /\
      exists k, (k <= max)%nat /\ (forall v, (v < N)%nat -> vget p' v = Some (r k v) /\ 0 < r k v) /\
        ((k < max)%nat -> (0 < k)%nat /\ mean_square N (r (k - 1)%nat) (r k) < thr) /\
        (forall i, (i + 1 < k)%nat -> thr <= mean_square N (r i) (r (i + 1)%nat)).
Proof.
  intros T tr rt G N p d thr max WG RG CG N0 Wp Sp HA Hrt HI d0 d1 r.
  destruct (page_rank_ok tr G N d WG RG CG N0 HA d0 d1 HI rt p thr max Hrt Wp Sp)
    as (p' & E & W' & S' & k & Hk & G' & H1 & H2).
  exists p'. split; [exact E|]. split; [auto|]. split; [auto|]. exists k. split; [auto|]. split; [|split; auto].
  intros v Hv. split; [auto|]. apply (iter_pos tr G N d); auto.
Qed.
Print Assumptions C70_page_rank.

(** If moreover every vertex has an outgoing edge, the ranks are probabilities. *)
Theorem C70_ranks_sum_to_one :
  forall (T : Type) (tr : T -> Qc) (rt : nat -> Qc) (G : lil T) (N : nat) (p : bvec Qc) (d thr : Qc) (max : nat),
    wfm G -> nrows G = N -> ncols G = N -> N <> 0%nat -> wfv p -> vsize p = N ->
    (forall u v g, mget G u v = Some g -> 0 < tr g) -> rt N = nat_q N ->
    (forall v, (v < N)%nat -> exists u, mget G u v <> None) ->
    (forall u, (u < N)%nat -> exists v, mget G u v <> None) -> 0 <= d -> d <= 1 ->
    exists p', page_rank tr rt G p d thr max = Ok p' /\
      qsum N (fun v => match vget p' v with Some x => x | None => 0 end) = 1.
Proof.
  intros T tr rt G N p d thr max WG RG CG N0 Wp Sp HA Hrt HI HO d0 d1.
  destruct (page_rank_ok tr G N d WG RG CG N0 HA d0 d1 HI rt p thr max Hrt Wp Sp)
    as (p' & E & W' & S' & k & Hk & G' & _).
  exists p'. split; [exact E|]. rewrite <- (iter_sum N (weight tr G) d N0 k).
  - apply qsum_ext. intros v Hv. rewrite G' by auto. reflexivity.
  - intros u Hu. destruct (HO u Hu) as (v & Ev). destruct (mget G u v) as [g|] eqn:Eg; [|congruence].
    apply Qc_pos_neq. eapply (out_pos tr G N WG RG CG); eauto.
Qed.
Print Assumptions C70_ranks_sum_to_one.

(** With a positive threshold the loop ends by itself, whatever [max_iters] is. *)
Theorem C70_page_rank_converges :
  forall (T : Type) (tr : T -> Qc) (rt : nat -> Qc) (G : lil T) (N : nat) (d thr : Qc),
    wfm G -> nrows G = N -> ncols G = N -> N <> 0%nat ->
    (forall u v g, mget G u v = Some g -> 0 < tr g) -> rt N = nat_q N ->
    (forall v, (v < N)%nat -> exists u, mget G u v <> None) -> 0 <= d -> d < 1 -> 0 < thr ->
    let r := rank_iter N (weight tr G) d in
    exists K, forall (p : bvec Qc) (max : nat), wfv p -> vsize p = N -> (K < max)%nat ->
      exists p', page_rank tr rt G p d thr max = Ok p' /\
        exists k, (0 < k <= K)%nat /\ (forall v, (v < N)%nat -> vget p' v = Some (r k v)) /\
          mean_square N (r (k - 1)%nat) (r k) < thr.
Proof.
  intros T tr rt G N d thr WG RG CG N0 HA Hrt HI d0 d1 Ht r.
  destruct (iter_converges N (weight tr G) d (prob_nonneg tr G N WG RG CG N0 HA) (prob_sum tr G N) d0 d1 N0 thr Ht)
    as (K & HK). exists (K + 1)%nat. intros p max Wp Sp Hm.
  destruct (page_rank_ok tr G N d WG RG CG N0 HA d0 (Qclt_le_weak _ _ d1) HI rt p thr max Hrt Wp Sp)
    as (p' & E & W' & S' & k & Hk & G' & H1 & H2).
  exists p'. split; [exact E|]. exists k.
  assert (k <= K + 1)%nat.
  { destruct (Nat.lt_ge_cases (K + 1) k) as [L|]; [|lia]. exfalso. specialize (H2 K L).
    apply (Qcle_not_lt _ _ H2 HK). }
  destruct H1 as (? & ?); [lia|]. split; [lia|]. split; auto.
Qed.
Print Assumptions C70_page_rank_converges.

(** How far the iterate returned then is from a stationary distribution [s]. *)
Theorem C70_accuracy :
  forall (T : Type) (tr : T -> Qc) (G : lil T) (N k : nat) (d thr : Qc) (s : nat -> Qc),
    wfm G -> nrows G = N -> ncols G = N -> N <> 0%nat ->
    (forall u v g, mget G u v = Some g -> 0 < tr g) -> 0 <= d -> d < 1 ->
    let A := weight tr G in
    let r := rank_iter N A d in
    (forall v, (v < N)%nat -> s v = rank_step N A d s v) -> (0 < k)%nat ->
    mean_square N (r (k - 1)%nat) (r k) < thr ->
    let gap := (1 - d) * qsum N (fun v => Qcabs.Qcabs (r k v - s v)) in
    gap * gap <= d * nat_q N * (d * nat_q N) * thr.
Proof.
  intros T tr G N k d thr s WG RG CG N0 HA d0 d1 A r Hs Hk HT.
  exact (iter_accuracy N A d (prob_nonneg tr G N WG RG CG N0 HA) (prob_sum tr G N) d0 d1 N0 s k thr Hs Hk HT).
Qed.
Print Assumptions C70_accuracy.

(** Other shapes are rejected. *)
Theorem C70_dimension_exception :
  forall (T : Type) (tr : T -> Qc) (rt : nat -> Qc) (G : lil T) (p : bvec Qc) (d thr : Qc) (max : nat),
    (nrows G <> ncols G \/ vsize p <> nrows G) ->
    page_rank tr rt G p d thr max = Throw DimensionException.
Proof.
  intros T tr rt G p d thr max H. unfold page_rank.
  destruct (Nat.eqb_spec (nrows G) (ncols G)), (Nat.eqb_spec (vsize p) (nrows G)); try reflexivity. lia.
Qed.
Print Assumptions C70_dimension_exception.

Definition qf (a : Z) (b : positive) : Qc := Q2Qc (a # b).
Definition er_tr (z : Z) : Qc := Q2Qc (z # 1).
Definition er_v (n : nat) : bvec Qc := mkVec n 0%Z (repeat 0 n) (repeat false n).
Definition er_vals (r : res (bvec Qc)) : option (list (option Q)) :=
  match r with Ok p => Some (map (fun i => option_map this (vget p i)) (seq 0 (vsize p))) | _ => None end.
(** 0 -> 1, 0 -> 2 (three times as heavy), 1 -> 2, 2 -> 0 *)
Definition er_G : lil Z := mkLil 3 3 4%Z [[(1%nat, 1%Z); (2%nat, 3%Z)]; [(2%nat, 5%Z)]; [(0%nat, 1%Z)]].
Example C70_example :
  wfm er_G /\ wfv (er_v 3) /\
  (forall v, (v < 3)%nat -> exists u, mget er_G u v <> None) /\
  er_vals (page_rank er_tr nat_q er_G (er_v 3) (qf 1 2) (qf 1 50) 9) =
    Some [Some (1 # 3); Some (5 # 24); Some (11 # 24)]%Q /\
  er_vals (page_rank er_tr nat_q er_G (er_v 3) (qf 1 2) (qf 1 1000) 9) =
    Some [Some (35 # 96); Some (83 # 384); Some (161 # 384)]%Q.
Proof.
  split; [wf_mat|]. split; [repeat split; reflexivity|]. split.
  - intros v Hv. destruct v as [|[|[|v]]]; [exists 2%nat|exists 0%nat|exists 0%nat|lia]; discriminate.
  - split; vm_compute; reflexivity.
Qed.
Print Assumptions C70_example.

(** The stationary distribution of that graph. *)
Definition er_s (v : nat) : Qc := match v with O => qf 28 75 | 1%nat => qf 16 75 | _ => qf 31 75 end.
Example C70_example_stationary :
  (forall v, (v < 3)%nat -> er_s v = rank_step 3 (weight er_tr er_G) (qf 1 2) er_s v) /\
  mean_square 3 (rank_iter 3 (weight er_tr er_G) (qf 1 2) (3 - 1)) (rank_iter 3 (weight er_tr er_G) (qf 1 2) 3) < qf 1 1000.
Proof.
  split; [|reflexivity]. intros v Hv. destruct v as [|[|[|v]]]; [| | |lia]; apply Qc_is_canon; vm_compute; reflexivity.
Qed.
Print Assumptions C70_example_stationary.

(** ** C71: graphs with a vertex that no edge leads to *)

(** 0 -> 1 -> 2 with the default arguments: vertex 0 drops out after the first iteration, and the
    rank of vertex 1 grows by 1/20 in every further iteration, without bound and without ever
    meeting the threshold.  The rank of vertex 1 should be 37/400 from the second iteration on. *)
Theorem C71_page_rank_source_refuted :
  exists (G : lil Z) (d thr : Qc),
    wfm G /\ nrows G = 3%nat /\ ncols G = 3%nat /\ 0 <= d /\ d < 1 /\ 0 < thr /\
    (forall u v g, mget G u v = Some g -> g = 1%Z) /\
    forall (max : nat) (p : bvec Qc), wfv p -> vsize p = 3%nat -> (2 <= max)%nat ->
      exists p', page_rank er_tr nat_q G p d thr max = Ok p' /\
        vget p' 1%nat = Some (qf 1 3 + nat_q (max - 1) * qf 1 20) /\
        rank_iter 3 (weight er_tr G) d max 1%nat = qf 37 400.
Proof.
  exists chain3, (qf 17 20), (qf 1 100000).
  split; [wf_mat|]. split; [reflexivity|]. split; [reflexivity|].
  split; [discriminate|]. split; [reflexivity|]. split; [reflexivity|]. split.
  { intros u v g. destruct (Nat.lt_ge_cases u 3), (Nat.lt_ge_cases v 3).
    2, 3, 4: rewrite mget_oob by (try wf_mat; simpl; lia); discriminate.
    do 3 (destruct u as [|u]; [do 3 (destruct v as [|v]; [vm_compute; congruence|]); lia|]). lia. }
  intros max p Wp Sp Hm. destruct max as [|[|k]]; [lia|lia|].
  destruct (chain3_rank (S k) p Wp Sp) as (p' & E & G). exists p'. split; [exact E|]. split; [exact G|].
  apply (chain3_true k).
Qed.
Print Assumptions C71_page_rank_source_refuted.

(** ** C72: graphs of boolean scalars *)

(** [static_cast<bool>(2)] is [true], which is 1 as a number: on the cycle 0 <-> 1 the ranks tend to
    1 each, instead of 1/2. *)
Definition er_B : lil bool := mkLil 2 2 2%Z [[(1%nat, true)]; [(0%nat, true)]].
Definition er_btr (b : bool) : Qc := if b then 1 else 0.
Definition er_brt (n : nat) : Qc := er_btr (negb (Nat.eqb n 0)).
Theorem C72_page_rank_bool_refuted :
  exists (G : lil bool) (d thr : Qc),
    wfm G /\ nrows G = 2%nat /\ ncols G = 2%nat /\ 0 <= d /\ d < 1 /\ 0 < thr /\
    (forall u v g, mget G u v = Some g -> g = true) /\
    (forall v, (v < 2)%nat -> exists u, mget G u v <> None) /\
    exists p x, page_rank er_btr er_brt G (er_v 2) d thr 100 = Ok p /\
      vget p 0%nat = Some x /\ vget p 1%nat = Some x /\ qf 9 10 < x.
Proof.
  exists er_B, (qf 17 20), (qf 1 100000).
  split; [wf_mat|]. split; [reflexivity|]. split; [reflexivity|].
  split; [discriminate|]. split; [reflexivity|]. split; [reflexivity|]. split.
  { intros u v g. destruct (Nat.lt_ge_cases u 2), (Nat.lt_ge_cases v 2).
    2, 3, 4: rewrite mget_oob by (try wf_mat; simpl; lia); discriminate.
    do 2 (destruct u as [|u]; [do 2 (destruct v as [|v]; [vm_compute; congruence|]); lia|]). lia. }
  split.
  { intros v Hv. destruct v as [|[|v]]; [exists 1%nat|exists 0%nat|lia]; discriminate. }
  do 2 eexists. split; [vm_compute; reflexivity|]. split; [reflexivity|]. split; reflexivity.
Qed.
Print Assumptions C72_page_rank_bool_refuted.
