(** Properties C89 to C95: peer pressure and Markov clustering. *)
From Coq Require Import Lia QArith Qcanon.
From Verif Require Import Base ModelLil ModelVec ModelHelpers ModelViews ModelUtils ModelAlgoBase ModelRank ModelBc ModelCluster
  Spec SpecOps SpecRank SpecCluster ProofBase ProofLil ProofUtils ProofViews ProofRank ProofVis ProofCluster ProofMarkov ProofClusterIds.
Local Open Scope nat_scope.

(** ** C89: peer pressure clustering votes in rounds until nothing changes *)
Theorem C89_peer_pressure :
  forall (T : Type) (tq : T -> Qc) (G : lil T) (C : lil bool) (N n : nat),
    wfm G -> N <> 0 -> nrows G = N -> ncols G = N -> (forall u v x, mget G u v = Some x -> (0 < tq x)%Qc) ->
    clustering N C ->
    let w := share N (weight tq G) in
    exists C' k, peer_pressure_cluster tq G C n = Ok C' /\ clustering N C' /\ k <= n /\
      rounds N w k (member C) (member C') /\ (k = n \/ round N w (member C') (member C')).
Proof. intros. apply peer_pressure_ok; auto. Qed.
Print Assumptions C89_peer_pressure.

(** The second version counts the weights themselves. *)
Theorem C89_peer_pressure_v2 :
  forall (T : Type) (tq : T -> Qc) (qt : Qc -> T) (G : lil T) (C : lil bool) (N n : nat),
    wfm G -> N <> 0 -> nrows G = N -> ncols G = N -> (forall u v x, mget G u v = Some x -> (0 < tq x)%Qc) ->
    (forall u v x, mget G u v = Some x -> tq (qt (tq x)) = tq x) ->
    clustering N C ->
    let w := weight tq G in
    exists C' k, peer_pressure_cluster_v2 tq qt G C n = Ok C' /\ clustering N C' /\ k <= n /\
      rounds N w k (member C) (member C') /\ (k = n \/ round N w (member C') (member C')).
Proof. intros. apply peer_pressure_v2_ok; auto. Qed.
Print Assumptions C89_peer_pressure_v2.

(** Without initial clusters every vertex starts in its own. *)
Theorem C89_peer_pressure_start :
  forall (T : Type) (tq : T -> Qc) (G : lil T) (N n : nat),
    wfm G -> N <> 0 -> nrows G = N -> ncols G = N -> (forall u v x, mget G u v = Some x -> (0 < tq x)%Qc) ->
    let w := share N (weight tq G) in
    exists C' k, peer_pressure_cluster_start tq G n = Ok C' /\ clustering N C' /\ k <= n /\
      rounds N w k Nat.eqb (member C') /\ (k = n \/ round N w (member C') (member C')).
Proof.
  intros T tq G N n WG N0 RG CG Pos w. unfold peer_pressure_cluster_start. rewrite RG.
  destruct (scaled_identity_ok N true) as (C & -> & WC & RC & CC & GC). cbn [bind].
  destruct (peer_pressure_ok tq G N WG N0 RG CG Pos C n) as (C' & k & E & S & Hk & R & St).
  { split; [auto|split; [auto|split; [auto|]]]. intros i v. rewrite GC. destruct ((i =? v) && (i <? N)); discriminate. }
  exists C', k. split; [auto|split; [auto|split; [auto|split; [|auto]]]].
  eapply rounds_ext; [| | |exact R]; try reflexivity. intros i v Hi Hv. unfold member. rewrite GC.
  rewrite (proj2 (Nat.ltb_lt i N) Hi), andb_true_r. destruct (i =? v); auto.
Qed.
Print Assumptions C89_peer_pressure_start.

Theorem C89_peer_pressure_dimensions :
  forall (T : Type) (tq : T -> Qc) (qt : Qc -> T) (G : lil T) (C : lil bool) (n : nat),
    nrows G <> ncols G \/ nrows G <> nrows C \/ ncols G <> ncols C ->
    peer_pressure_cluster tq G C n = Throw DimensionException /\
    peer_pressure_cluster_v2 tq qt G C n = Throw DimensionException.
Proof.
  intros T tq qt G C n H. unfold peer_pressure_cluster, peer_pressure_cluster_v2, pp_run.
  destruct (Nat.eqb_spec (nrows G) (ncols G)); [|auto]. cbn [negb].
  destruct (Nat.eqb_spec (nrows G) (nrows C)); [|auto]. destruct (Nat.eqb_spec (ncols G) (ncols C)); [tauto|auto].
Qed.
Print Assumptions C89_peer_pressure_dimensions.

(** Two triangles with loops joined by one edge: two clusters. *)
Definition ecl_g : lil Z := mkLil 6 6 20%Z
  [[(0, 1%Z); (1, 1%Z); (2, 1%Z)]; [(0, 1%Z); (1, 1%Z); (2, 1%Z)]; [(0, 1%Z); (1, 1%Z); (2, 1%Z); (3, 1%Z)];
   [(2, 1%Z); (3, 1%Z); (4, 1%Z); (5, 1%Z)]; [(3, 1%Z); (4, 1%Z); (5, 1%Z)]; [(3, 1%Z); (4, 1%Z); (5, 1%Z)]].
Definition ecl_i : lil bool := mkLil 6 6 6%Z [[(0, true)]; [(1, true)]; [(2, true)]; [(3, true)]; [(4, true)]; [(5, true)]].
Lemma ecl_pos : forall u v x, mget ecl_g u v = Some x -> (0 < zq x)%Qc.
Proof.
  intros u v x. do 6 (destruct u as [|u]; [do 6 (destruct v as [|v];
    [let E := fresh in intro E; vm_compute in E; (discriminate E || (injection E as <-; reflexivity))|]);
    let E := fresh in intro E; vm_compute in E; discriminate E|]).
  intro E. destruct u; vm_compute in E; discriminate E.
Qed.
Example C89_example :
  wfm ecl_g /\ (forall u v x, mget ecl_g u v = Some x -> (0 < zq x)%Qc) /\ clustering 6 ecl_i /\
  (exists C, peer_pressure_cluster zq ecl_g ecl_i 10 = Ok C /\ lil_extractTuples C = [(1, 0, true); (1, 1, true); (1, 2, true); (5, 3, true); (5, 4, true); (5, 5, true)]) /\
  exists C, peer_pressure_cluster_v2 zq (fun q => Qnum q) ecl_g ecl_i 10 = Ok C /\ lil_extractTuples C <> [].
Proof.
  split; [wf_mat|]. split; [apply ecl_pos|]. split.
  - split; [wf_mat|]. split; [auto|split; [auto|]]. intros i v.
    do 6 (destruct i as [|i]; [do 6 (destruct v as [|v]; [vm_compute; discriminate|]); vm_compute; discriminate|]).
    destruct i; vm_compute; discriminate.
  - split; eexists; (split; [vm_compute; reflexivity|vm_compute]); [reflexivity|discriminate].
Qed.

(** ** C90: every vertex is in exactly one cluster *)

(** After at least one iteration no vertex is in two clusters. *)
Theorem C90_peer_pressure_one_cluster :
  forall (T : Type) (tq : T -> Qc) (G : lil T) (C : lil bool) (N n : nat),
    wfm G -> N <> 0 -> nrows G = N -> ncols G = N -> (forall u v x, mget G u v = Some x -> (0 < tq x)%Qc) ->
    clustering N C -> 1 <= n ->
    exists C', peer_pressure_cluster tq G C n = Ok C' /\
      forall v i i', v < N -> i < N -> i' < N -> member C' i v = true -> member C' i' v = true -> i = i'.
Proof.
  intros T tq G C N n WG N0 RG CG Pos HC Hn.
  destruct (outcome_round N _ n C _ Hn (peer_pressure_ok tq G N WG N0 RG CG Pos C n HC)) as (C' & m & E & _ & R & _).
  exists C'. split; [auto|]. intros v i i' Hv Hi Hi' M M'. apply R in M; auto. apply R in M'; auto. eapply wins_unique; eauto.
Qed.
Print Assumptions C90_peer_pressure_one_cluster.

(** When an edge enters every vertex, no vertex loses its cluster. *)
Theorem C90_peer_pressure_all_vertices :
  forall (T : Type) (tq : T -> Qc) (G : lil T) (C : lil bool) (N n : nat),
    wfm G -> N <> 0 -> nrows G = N -> ncols G = N -> (forall u v x, mget G u v = Some x -> (0 < tq x)%Qc) ->
    (forall v, v < N -> exists u, mget G u v <> None) ->
    clustering N C -> (forall v, v < N -> exists i, i < N /\ member C i v = true) ->
    exists C', peer_pressure_cluster tq G C n = Ok C' /\
      forall v, v < N -> exists i, i < N /\ member C' i v = true.
Proof.
  intros T tq G C N n WG N0 RG CG Pos In HC Cl.
  destruct (peer_pressure_ok tq G N WG N0 RG CG Pos C n HC) as (C' & k & E & _ & _ & R & _). exists C'. split; [auto|].
  apply (rounds_total N (share N (weight tq G)) k (member C)); auto.
  - intros u v Hu Hv. apply share_nonneg; auto. intros. apply weight_nonneg; auto.
  - intros v Hv. destruct (In v Hv) as (u & Hu). destruct (mget G u v) as [x|] eqn:Ex; [|congruence].
    assert (Lu : u < N). { apply Nat.nle_gt. intro. rewrite mget_oob in Ex by (auto; lia). discriminate. }
    exists u. split; [auto|]. apply share_pos; [intros; apply weight_nonneg; auto|auto|]. unfold weight. rewrite Ex. eauto.
Qed.
Print Assumptions C90_peer_pressure_all_vertices.

Example C90_example :
  (forall v, v < 6 -> exists u, mget ecl_g u v <> None) /\ (forall v, v < 6 -> exists i, i < 6 /\ member ecl_i i v = true).
Proof.
  split; intros v Hv; exists v; do 6 (destruct v as [|v]; [vm_compute; auto; try discriminate|]); try lia; split; auto; lia.
Qed.

(** ** C91: convergence, and vertices without incoming edges *)

(** A vertex that no edge enters is in no cluster. *)
Theorem C91_peer_pressure_no_votes :
  forall (T : Type) (tq : T -> Qc) (G : lil T) (C : lil bool) (N n v : nat),
    wfm G -> N <> 0 -> nrows G = N -> ncols G = N -> (forall u v x, mget G u v = Some x -> (0 < tq x)%Qc) ->
    clustering N C -> 1 <= n -> v < N -> (forall u, mget G u v = None) ->
    exists C', peer_pressure_cluster tq G C n = Ok C' /\ forall i, i < N -> member C' i v = false.
Proof.
  intros T tq G C N n v WG N0 RG CG Pos HC Hn Hv Z.
  destruct (outcome_round N _ n C _ Hn (peer_pressure_ok tq G N WG N0 RG CG Pos C n HC)) as (C' & m & E & _ & R & _).
  exists C'. split; [auto|]. apply (round_none N (share N (weight tq G)) m); auto.
  intros u Hu. apply share_zero. unfold weight. rewrite Z. auto.
Qed.
Print Assumptions C91_peer_pressure_no_votes.

(** An edge from 0 to 1, both vertices in their own clusters: 0 loses its cluster. *)
Theorem C91_peer_pressure_all_vertices_refuted :
  exists (G : lil Z) (n : nat) (C : lil bool),
    wfm G /\ nrows G = 2 /\ ncols G = 2 /\ (forall u v x, mget G u v = Some x -> x = 1%Z) /\
    peer_pressure_cluster_start zq G n = Ok C /\ forall i, i < 2 -> member C i 0 = false.
Proof.
  exists (mkLil 2 2 1%Z [[(1, 1%Z)]; []]), 5, (lil_new 2 2). split; [wf_mat|]. split; [auto|]. split; [auto|]. split; [|split].
  - intros u v x E. destruct u as [|[|[|u]]]; [destruct v as [|[|v]]| | |]; vm_compute in E; try discriminate. congruence.
  - vm_compute. reflexivity.
  - intros i Hi. destruct i as [|[|i]]; [reflexivity|reflexivity|lia].
Qed.
Print Assumptions C91_peer_pressure_all_vertices_refuted.

(** Two vertices with an edge in each direction exchange their clusters in every round. *)
Theorem C91_peer_pressure_converges_refuted :
  exists G : lil Z, wfm G /\ nrows G = 2 /\ ncols G = 2 /\ (forall u v x, mget G u v = Some x -> x = 1%Z) /\
    forall n, exists C, peer_pressure_cluster_start zq G n = Ok C /\
      ~ round 2 (share 2 (weight zq G)) (member C) (member C).
Proof.
  exists (mkLil 2 2 2%Z [[(1, 1%Z)]; [(0, 1%Z)]]). set (G := mkLil 2 2 2%Z [[(1, 1%Z)]; [(0, 1%Z)]]).
  assert (W : wfm G) by wf_mat.
  assert (One : forall u v x, mget G u v = Some x -> x = 1%Z).
  { intros u v x E. destruct u as [|[|[|u]]]; [destruct v as [|[|v]]|destruct v as [|[|v]]| |]; vm_compute in E; try discriminate; congruence. }
  split; [auto|]. split; [auto|]. split; [auto|]. split; [auto|]. intro n.
  destruct (C89_peer_pressure_start Z zq G 2 n W ltac:(auto) eq_refl eq_refl) as (C & k & E & _ & _ & R & _).
  { intros u v x Ex. rewrite (One u v x Ex). reflexivity. }
  exists C. split; [auto|].
  assert (w00 : share 2 (weight zq G) 0 0 = 0%Qc) by (vm_compute; reflexivity).
  assert (w01 : share 2 (weight zq G) 0 1 = 1%Qc) by (apply Qc_is_canon; vm_compute; reflexivity).
  assert (w10 : share 2 (weight zq G) 1 0 = 1%Qc) by (apply Qc_is_canon; vm_compute; reflexivity).
  assert (w11 : share 2 (weight zq G) 1 1 = 0%Qc) by (vm_compute; reflexivity).
  apply (swap_unstable _ w00 w01 w10 w11). apply (swap_rounds _ w00 w01 w10 w11 k Nat.eqb); auto. repeat split.
Qed.
Print Assumptions C91_peer_pressure_converges_refuted.

Example C91_example :
  let G := mkLil 3 3 3%Z [[(1, 2%Z)]; [(1, 1%Z)]; [(1, 1%Z)]] in
  wfm G /\ (forall u, mget G u 0 = None) /\ exists C, peer_pressure_cluster_start zq G 4 = Ok C /\ lil_extractTuples C <> [].
Proof.
  intro G. split; [wf_mat|]. split.
  - intro u. destruct u as [|[|[|[|u]]]]; reflexivity.
  - eexists. split; [vm_compute; reflexivity|vm_compute; discriminate].
Qed.

(** ** C92: Markov clustering *)

(** The result is an iterate of expansion, inflation and normalisation: the first that differs from the
    one before by less than the threshold, or the last allowed.  The elements that are 0 are not stored. *)
Theorem C92_markov :
  forall (T : Type) (tq : T -> Qc) (G : lil T) (N e r n : nat) (t : Qc),
    wfm G -> N <> 0 -> nrows G = N -> ncols G = N -> (forall u v x, mget G u v = Some x -> (0 < tq x)%Qc) -> 1 <= e -> 1 <= r ->
    let s := normal N (weight tq G) in
    exists B k, markov_cluster tq G e r t n = Ok B /\ wfm B /\ nrows B = N /\ ncols B = N /\
      (forall i j x, mget B i j = Some x -> (0 < x)%Qc) /\
      (forall i j, i < N -> j < N -> weight (fun x => x) B i j = mcl N e r k s i j) /\
      k <= n /\
      (forall j, 1 <= j -> j < k -> (t <= mean_diff N (mcl N e r (j - 1) s) (mcl N e r j s))%Qc) /\
      (k = n \/ 1 <= k /\ (mean_diff N (mcl N e r (k - 1) s) (mcl N e r k s) < t)%Qc).
Proof.
  intros T tq G N e r n t WG N0 RG CG Pos _ Hr s.
  destruct (markov_ok tq G N e r t n WG N0 RG CG Pos Hr) as (B & k & E & HB & Hk & H1 & H2).
  exists B, k. split; [auto|]. pose proof HB as ((WB & RB & CB & GB) & NB). split; [auto|]. split; [auto|]. split; [auto|]. split.
  { intros i j x Ex. assert (i < N /\ j < N) as (Hi & Hj).
    { split; apply Nat.nle_gt; intro; rewrite mget_oob in Ex by (auto; lia); discriminate. }
    rewrite GB in Ex by auto. unfold onz in Ex. fold s in Ex. specialize (NB i j Hi Hj). fold s in NB.
    destruct (Qc_eq_dec (mcl N e r k s i j) 0); [discriminate|]. injection Ex as <-. apply qpos_nz; auto. }
  split; [intros; apply (pm_weight N B); auto|auto].
Qed.
Print Assumptions C92_markov.

(** Every column is empty or has sum 1. *)
Theorem C92_markov_columns :
  forall (T : Type) (tq : T -> Qc) (G : lil T) (N e r n : nat) (t : Qc),
    wfm G -> N <> 0 -> nrows G = N -> ncols G = N -> (forall u v x, mget G u v = Some x -> (0 < tq x)%Qc) -> 1 <= e -> 1 <= r ->
    exists B, markov_cluster tq G e r t n = Ok B /\
      forall j, j < N -> (forall i, mget B i j = None) \/ qsum N (fun i => weight (fun x => x) B i j) = 1%Qc.
Proof.
  intros T tq G N e r n t WG N0 RG CG Pos _ Hr.
  destruct (markov_ok tq G N e r t n WG N0 RG CG Pos Hr) as (B & k & E & HB & _).
  exists B. split; [auto|]. intros j Hj. pose proof HB as ((WB & RB & CB & GB) & NB).
  assert (Nw : nn N (weight tq G)) by (intros u v _ _; apply weight_nonneg; auto).
  destruct (mcl_stoch N e r k _ (normal_nn N _ Nw) (normal_stoch N _ Nw) j Hj) as [Z|S].
  - left. intro i. destruct (Nat.lt_ge_cases i N) as [Hi|Hi]; [|apply mget_oob; auto; lia].
    rewrite GB, Z by auto. reflexivity.
  - right. rewrite <- S. apply qsum_ext. intros i Hi. apply (pm_weight N B); auto.
Qed.
Print Assumptions C92_markov_columns.

(** With loops at all vertices, as recommended, the result has the edges of the graph and all sums are 1. *)
Theorem C92_markov_loops :
  forall (T : Type) (tq : T -> Qc) (G : lil T) (N e r n : nat) (t : Qc),
    wfm G -> N <> 0 -> nrows G = N -> ncols G = N -> (forall u v x, mget G u v = Some x -> (0 < tq x)%Qc) -> 1 <= e -> 1 <= r ->
    (forall v, v < N -> mget G v v <> None) ->
    exists B, markov_cluster tq G e r t n = Ok B /\
      (forall i j, mget B i j <> None <-> mget G i j <> None) /\
      forall j, j < N -> qsum N (fun i => weight (fun x => x) B i j) = 1%Qc.
Proof.
  intros T tq G N e r n t WG N0 RG CG Pos _ Hr Lp.
  destruct (markov_ok tq G N e r t n WG N0 RG CG Pos Hr) as (B & k & E & HB & _).
  exists B. split; [auto|]. pose proof HB as ((WB & RB & CB & GB) & NB).
  assert (Nw : nn N (weight tq G)) by (intros u v _ _; apply weight_nonneg; auto).
  assert (Nz : forall i j, weight tq G i j <> 0%Qc <-> mget G i j <> None).
  { intros i j. unfold weight. destruct (mget G i j) as [x|] eqn:Ex; [|split; congruence]. split; [discriminate|].
    intros _ Z. specialize (Pos i j x Ex). rewrite Z in Pos. discriminate Pos. }
  assert (Z : forall i j, i < N -> j < N -> (mcl N e r k (normal N (weight tq G)) i j <> 0%Qc <-> mget G i j <> None)).
  { intros i j Hi Hj. rewrite <- Nz, <- (normal_nz N (weight tq G) i j) by auto. apply mcl_nz; auto.
    - apply normal_nn; auto.
    - intros v Hv. apply normal_nz; auto. apply Nz; auto. }
  assert (P : forall i j, mget B i j <> None <-> mget G i j <> None).
  { intros i j. destruct (Nat.lt_ge_cases i N) as [Hi|Hi]; [|rewrite !mget_oob by (auto; lia); tauto].
    destruct (Nat.lt_ge_cases j N) as [Hj|Hj]; [|rewrite !mget_oob by (auto; lia); tauto].
    rewrite <- Z by auto. rewrite GB by auto. unfold onz. destruct (Qc_eq_dec _ 0); split; congruence. }
  split; [exact P|]. intros j Hj.
  destruct (mcl_stoch N e r k _ (normal_nn N _ Nw) (normal_stoch N _ Nw) j Hj) as [F|S].
  - exfalso. apply (proj2 (P j j) (Lp j Hj)). rewrite GB, F by auto. reflexivity.
  - rewrite <- S. apply qsum_ext. intros i Hi. apply (pm_weight N B); auto.
Qed.
Print Assumptions C92_markov_loops.

Theorem C92_markov_dimensions :
  forall (T : Type) (tq : T -> Qc) (G : lil T) (e r n : nat) (t : Qc),
    nrows G <> ncols G -> markov_cluster tq G e r t n = Throw DimensionException.
Proof.
  intros T tq G e r n t H. unfold markov_cluster. rewrite (proj2 (Nat.eqb_neq _ _) H). reflexivity.
Qed.
Print Assumptions C92_markov_dimensions.

(** The path 0 - 1 - 2 with loops. *)
Definition ecl_p : lil Z := mkLil 3 3 7%Z [[(0, 1%Z); (1, 1%Z)]; [(0, 1%Z); (1, 1%Z); (2, 1%Z)]; [(1, 1%Z); (2, 1%Z)]].
Lemma ecl_p_one : forall u v x, mget ecl_p u v = Some x -> x = 1%Z.
Proof.
  intros u v x E. destruct u as [|[|[|[|u]]]]; try destruct v as [|[|[|v]]]; vm_compute in E; try discriminate; congruence.
Qed.
Definition cl_values (r : res (lil Qc)) : list (nat * nat * Q) :=
  match r with Ok B => map (fun '(i, j, x) => (i, j, this x)) (lil_extractTuples B) | _ => [] end.
Example C92_example :
  wfm ecl_p /\ (forall u v x, mget ecl_p u v = Some x -> (0 < zq x)%Qc) /\ (forall v, v < 3 -> mget ecl_p v v <> None) /\
  cl_values (markov_cluster zq ecl_p 2 2 (Q2Qc (1 # 100)) 1) =
    [(0, 0, (1 # 2)%Q); (0, 1, (25 # 114)%Q); (1, 0, (1 # 2)%Q); (1, 1, (32 # 57)%Q); (1, 2, (1 # 2)%Q); (2, 1, (25 # 114)%Q); (2, 2, (1 # 2)%Q)].
Proof.
  split; [wf_mat|]. split; [intros u v x E; rewrite (ecl_p_one u v x E); reflexivity|]. split.
  - intros v Hv. do 3 (destruct v as [|v]; [vm_compute; discriminate|]). lia.
  - vm_compute. reflexivity.
Qed.

(** ** C93: the expansion is the matrix power *)

(** With the power 2, and when the product of every iterate with itself has no element where the iterate has none. *)
Theorem C93_markov_expansion_closed :
  forall (T : Type) (tq : T -> Qc) (G : lil T) (N r : nat) (t : Qc),
    wfm G -> N <> 0 -> nrows G = N -> ncols G = N -> (forall u v x, mget G u v = Some x -> (0 < tq x)%Qc) -> 1 <= r ->
    (forall i k j, mget G i k <> None -> mget G k j <> None -> mget G i j <> None) ->
    let s := normal N (weight tq G) in
    exists B, markov_cluster tq G 2 r t 1 = Ok B /\
      forall i j, i < N -> j < N -> weight (fun x => x) B i j = normal N (fun i j => mat_mul N s s i j ^ r)%Qc i j.
Proof.
  intros T tq G N r t WG N0 RG CG Pos Hr Tr s.
  assert (Nw : nn N (weight tq G)) by (intros u v _ _; apply weight_nonneg; auto).
  assert (Z : forall i j, i < N -> j < N -> s i j <> 0%Qc -> mget G i j <> None).
  { intros i j Hi Hj H. apply normal_nz in H; auto. unfold weight in H. destruct (mget G i j); congruence. }
  assert (Z' : forall i j, i < N -> j < N -> mget G i j <> None -> s i j <> 0%Qc).
  { intros i j Hi Hj H. apply normal_nz; auto. unfold weight. destruct (mget G i j) as [x|] eqn:Ex; [|congruence].
    intro F. specialize (Pos i j x Ex). rewrite F in Pos. discriminate Pos. }
  assert (X : forall i j, i < N -> j < N -> expand1 N s s i j = mat_mul N s s i j).
  { intros i j Hi Hj. unfold expand1. destruct (Qc_eq_dec (s i j) 0) as [F|]; [|reflexivity]. symmetry. unfold mat_mul.
    apply qsum_zero. intros k Hk. destruct (Qc_eq_dec (s i k) 0) as [F1|F1]; [rewrite F1; ring|].
    destruct (Qc_eq_dec (s k j) 0) as [F2|F2]; [rewrite F2; ring|]. exfalso.
    apply (Z' i j Hi Hj (Tr i k j (Z i k Hi Hk F1) (Z k j Hk Hj F2)) F). }
  destruct (markov_ok tq G N 2 r t 1 WG N0 RG CG Pos Hr) as (B & k & E & HB & Hk & _ & H2).
  exists B. split; [auto|]. assert (k = 1) by (destruct H2; lia). subst k. intros i j Hi Hj. rewrite (pm_weight N B _ i j HB Hi Hj).
  fold s. cbn [mcl]. unfold mcl_step, normal. change (2 - 1) with 1. cbn [expand]. rewrite X by auto. f_equal.
  apply qsum_ext. intros k Hk'. rewrite X by auto. reflexivity.
Qed.
Print Assumptions C93_markov_expansion_closed.

(** On the path 0 - 1 - 2 with loops one iteration is not the inflation of the square: the square has
    an element at (0, 2), the result has none. *)
Theorem C93_markov_expansion_refuted :
  exists (G : lil Z) (B : lil Qc),
    wfm G /\ nrows G = 3 /\ ncols G = 3 /\ (forall u v x, mget G u v = Some x -> x = 1%Z) /\
    (forall v, v < 3 -> mget G v v <> None) /\
    markov_cluster zq G 2 2 (Q2Qc (1 # 100)) 1 = Ok B /\
    let s := normal 3 (weight zq G) in
    mget B 0 2 = None /\ (0 < normal 3 (fun i j => mat_mul 3 s s i j ^ 2)%Qc 0 2)%Qc.
Proof.
  exists ecl_p. eexists. split; [wf_mat|]. split; [auto|]. split; [auto|]. split; [apply ecl_p_one|]. split.
  { intros v Hv. do 3 (destruct v as [|v]; [vm_compute; discriminate|]). lia. }
  split; [vm_compute; reflexivity|]. split; vm_compute; reflexivity.
Qed.
Print Assumptions C93_markov_expansion_refuted.

(** Two complete graphs with loops: the condition holds. *)
Example C93_example :
  let G := mkLil 4 4 8%Z [[(0, 1%Z); (1, 3%Z)]; [(0, 1%Z); (1, 1%Z)]; [(2, 1%Z); (3, 1%Z)]; [(2, 2%Z); (3, 1%Z)]] in
  wfm G /\ (forall i k j, mget G i k <> None -> mget G k j <> None -> mget G i j <> None).
Proof.
  intro G. split; [wf_mat|]. intros i k j.
  do 4 (destruct i as [|i]; [do 4 (destruct k as [|k];
    [do 4 (destruct j as [|j]; [vm_compute; congruence|]); vm_compute; congruence|]); vm_compute; congruence|]).
  destruct i; vm_compute; congruence.
Qed.

(** ** C94: cluster assignments *)

(** The first row with the greatest value of the column; none when the column is empty. *)
Theorem C94_cluster_assignments :
  forall (T : Type) (tq : T -> Qc) (M : lil T),
    wfm M -> ncols M <= nrows M -> (forall i v x, mget M i v = Some x -> (- (1) < tq x)%Qc) ->
    exists l, get_cluster_assignments tq M = Ok l /\ length l = nrows M /\
      forall v, v < nrows M ->
        match nth v l None with
        | None => forall i, mget M i v = None
        | Some i => exists x, mget M i v = Some x /\
            forall i' x', mget M i' v = Some x' -> (tq x' < tq x)%Qc \/ (tq x' = tq x /\ i <= i')
        end.
Proof. intros. apply assignments_ok; auto. Qed.
Print Assumptions C94_cluster_assignments.

(** The second version: the last row that stores a value in the column. *)
Theorem C94_cluster_assignments_v2 :
  forall (T : Type) (M : lil T),
    wfm M -> nrows M <> 0 -> ncols M <> 0 ->
    exists w, get_cluster_assignments_v2 M = Ok w /\ wfv w /\ vsize w = ncols M /\
      forall v, v < ncols M ->
        match vget w v with
        | None => forall i, mget M i v = None
        | Some i => mget M i v <> None /\ forall i', mget M i' v <> None -> i' <= i
        end.
Proof. intros. apply assignments_v2_ok; auto. Qed.
Print Assumptions C94_cluster_assignments_v2.

(** They agree on the result of peer pressure clustering. *)
Theorem C94_cluster_assignments_peer_pressure :
  forall (T : Type) (tq : T -> Qc) (G : lil T) (C : lil bool) (N n : nat),
    wfm G -> N <> 0 -> nrows G = N -> ncols G = N -> (forall u v x, mget G u v = Some x -> (0 < tq x)%Qc) ->
    clustering N C -> 1 <= n ->
    exists C' l w, peer_pressure_cluster tq G C n = Ok C' /\
      get_cluster_assignments bq C' = Ok l /\ get_cluster_assignments_v2 C' = Ok w /\
      forall v, v < N -> vget w v = nth v l None /\
        forall i, i < N -> (nth v l None = Some i <-> member C' i v = true).
Proof.
  intros T tq G C N n WG N0 RG CG Pos HC Hn.
  destruct (C90_peer_pressure_one_cluster T tq G C N n WG N0 RG CG Pos HC Hn) as (C' & E & U).
  destruct (C89_peer_pressure T tq G C N n WG N0 RG CG Pos HC) as (C'' & k & E' & (W' & R' & K' & OT) & _).
  assert (C'' = C') by congruence. subst C''.
  destruct (assignments_ok bq C' W') as (l & El & Ll & Hl).
  { lia. } { intros i v [|] _; reflexivity. }
  destruct (assignments_v2_ok C' W') as (w & Ew & _ & Sw & Hw); [lia|lia|].
  assert (Mem : forall i v, mget C' i v <> None <-> member C' i v = true).
  { intros i v. unfold member. specialize (OT i v). destruct (mget C' i v) as [[|]|]; split; congruence. }
  assert (In : forall i v, mget C' i v <> None -> i < N).
  { intros i v H. apply Nat.nle_gt. intro. apply H. apply mget_oob; auto. lia. }
  exists C', l, w. split; [auto|]. split; [auto|]. split; [auto|]. intros v Hv. rewrite R' in Hl. rewrite K' in Hw.
  specialize (Hl v Hv). specialize (Hw v Hv).
  assert (L : forall i, i < N -> (nth v l None = Some i <-> member C' i v = true)).
  { intros i Hi. destruct (nth v l None) as [i'|].
    - destruct Hl as (x & Ex & _). assert (Mx : mget C' i' v <> None) by congruence. split.
      + intro Q. injection Q as ->. apply Mem. auto.
      + intro Q. f_equal. apply (U v i' i); auto; [apply (In i' v Mx)|apply Mem; auto].
    - split; [discriminate|]. intro Q. apply Mem in Q. exfalso. apply Q, Hl. }
  split; [|exact L]. destruct (vget w v) as [i|].
  - destruct Hw as (M1 & _). symmetry. apply L; [eapply In; eauto|apply Mem; auto].
  - destruct (nth v l None) as [i|]; [|auto]. destruct Hl as (x & Ex & _). rewrite Hw in Ex. discriminate.
Qed.
Print Assumptions C94_cluster_assignments_peer_pressure.

Example C94_example :
  exists B, markov_cluster zq ecl_p 2 2 (Q2Qc (1 # 100)) 1 = Ok B /\ (forall i v x, mget B i v = Some x -> (- (1) < x)%Qc) /\
    get_cluster_assignments (fun x => x) B = Ok [Some 0; Some 1; Some 1].
Proof.
  eexists. split; [vm_compute; reflexivity|]. split; [|vm_compute; reflexivity].
  intros i v x. destruct i as [|[|[|[|i]]]]; try destruct v as [|[|[|v]]]; intro E; vm_compute in E; try discriminate;
    injection E as <-; reflexivity.
Qed.

(** ** C95: cluster assignments of any matrix *)

(** More vertices than clusters: the arrays have one element per cluster and are accessed beyond their end. *)
Theorem C95_cluster_assignments_wide_refuted :
  exists M : lil Z, wfm M /\ nrows M = 1 /\ ncols M = 2 /\ get_cluster_assignments zq M = UB.
Proof. exists (mkLil 1 2 1%Z [[(1, 1%Z)]]). split; [wf_mat|]. split; [auto|]. split; [auto|]. vm_compute. reflexivity. Qed.
Print Assumptions C95_cluster_assignments_wide_refuted.

(** A greatest value of at most -1 is not found. *)
Theorem C95_cluster_assignments_negative_refuted :
  exists M : lil Z, wfm M /\ nrows M = 1 /\ ncols M = 1 /\ mget M 0 0 = Some (-2)%Z /\ get_cluster_assignments zq M = Ok [None].
Proof. exists (mkLil 1 1 1%Z [[(0, (-2)%Z)]]). split; [wf_mat|]. split; [auto|]. split; [auto|]. split; [auto|]. vm_compute. reflexivity. Qed.
Print Assumptions C95_cluster_assignments_negative_refuted.

(** The second version does not look at the values: here it assigns vertex 0 to
    row 1 although row 0 has the greater value. *)
Theorem C95_cluster_assignments_v2_refuted :
  exists (M : lil Z) (w : bvec nat),
    wfm M /\ nrows M = 2 /\ ncols M = 2 /\ mget M 0 0 = Some 9%Z /\ mget M 1 0 = Some 1%Z /\
    get_cluster_assignments_v2 M = Ok w /\ vget w 0 = Some 1.
Proof.
  exists (mkLil 2 2 2%Z [[(0, 9%Z)]; [(0, 1%Z)]]). eexists. split; [wf_mat|]. do 4 (split; [auto|]).
  split; vm_compute; reflexivity.
Qed.
Print Assumptions C95_cluster_assignments_v2_refuted.
