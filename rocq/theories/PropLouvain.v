(** Properties C96 to C99: Louvain clustering. *)
From Coq Require Import Lia QArith Qcanon.
From Verif Require Import Base ModelLil ModelVec ModelHelpers ModelViews ModelMul ModelUtils ModelAlgoBase ModelRank ModelBc ModelCluster
  ModelLouvain Spec SpecOps SpecRank ProofBase ProofLil ProofVec ProofMul ProofUtils ProofViews ProofRank ProofVis ProofModularity
  ProofLouvain SpecLouvain.
Local Open Scope nat_scope.

(** ** C96: on an undirected graph without self loops Louvain clustering returns a local optimum *)

(** [T] is the type of the weights, [tq] and [tb] convert a weight to a real number and to [bool], [tplus] adds weights.
    [draw] are the random numbers and [fuel] bounds how often the loop that breaks ties is tested for one vertex;
    the result is [None] when it is tested more often. *)
Theorem C96_louvain_local_optimum :
  forall (T : Type) (tq : T -> Qc) (tplus : T -> T -> T) (draw : nat -> nat -> Qc) (fuel : nat) (G : lil T) (N max_iters : nat)
      (M : lil bool),
    wfm G -> nrows G = N -> ncols G = N -> N <> 0 ->
    (forall u v, mget G u v = mget G v u) -> (forall v, mget G v v = None) ->
    (forall u v x, mget G u v = Some x -> (0 < tq x)%Qc) -> (forall x y, tq (tplus x y) = (tq x + tq y)%Qc) ->
    louvain_cluster tq tplus draw fuel G max_iters = Ok (Some (inl M)) ->
    exists c, assigns N M c /\ locally_best N (weight tq G) c /\
      (modularity N (weight tq G) (fun v => v) <= modularity N (weight tq G) c)%Qc.
Proof.
  intros T tq tplus draw fuel G N n M W R C N0 S L P Pl E.
  destruct (louvain_undirected tq (fun _ => true) tplus draw fuel N N0 G W R C S L P Pl (fun _ _ => eq_refl) false n) as (o & Eo & Ho).
  cbn [run] in Eo. rewrite E in Eo. injection Eo as <-. destruct Ho as (c & A & B & D). exists c. auto.
Qed.
Print Assumptions C96_louvain_local_optimum.

Theorem C96_louvain_masked_local_optimum :
  forall (T : Type) (tq : T -> Qc) (tb : T -> bool) (tplus : T -> T -> T) (draw : nat -> nat -> Qc) (fuel : nat) (G : lil T)
      (N max_iters : nat) (M : lil bool),
    wfm G -> nrows G = N -> ncols G = N -> N <> 0 ->
    (forall u v, mget G u v = mget G v u) -> (forall v, mget G v v = None) ->
    (forall u v x, mget G u v = Some x -> (0 < tq x)%Qc) -> (forall x y, tq (tplus x y) = (tq x + tq y)%Qc) ->
    (forall x, (0 < tq x)%Qc -> tb x = true) ->
    louvain_cluster_masked tq tb tplus draw fuel G max_iters = Ok (Some (inl M)) ->
    exists c, assigns N M c /\ locally_best N (weight tq G) c /\
      (modularity N (weight tq G) (fun v => v) <= modularity N (weight tq G) c)%Qc.
Proof.
  intros T tq tb tplus draw fuel G N n M W R C N0 S L P Pl Pb E.
  destruct (louvain_undirected tq tb tplus draw fuel N N0 G W R C S L P Pl Pb true n) as (o & Eo & Ho).
  cbn [run] in Eo. rewrite E in Eo. injection Eo as <-. destruct Ho as (c & A & B & D). exists c. auto.
Qed.
Print Assumptions C96_louvain_masked_local_optimum.

(** There are no other outcomes than to return and to report that [max_iters] iterations were not
    enough, if different elements get different random numbers and two tests per vertex are allowed. *)
Theorem C96_louvain_ends :
  forall (T : Type) (tq : T -> Qc) (tb : T -> bool) (tplus : T -> T -> T) (draw : nat -> nat -> Qc) (fuel : nat) (G : lil T)
      (N max_iters : nat),
    wfm G -> nrows G = N -> ncols G = N -> N <> 0 ->
    (forall u v, mget G u v = mget G v u) -> (forall v, mget G v v = None) ->
    (forall u v x, mget G u v = Some x -> (0 < tq x)%Qc) -> (forall x y, tq (tplus x y) = (tq x + tq y)%Qc) ->
    (forall x, (0 < tq x)%Qc -> tb x = true) ->
    2 <= fuel -> (forall r j k, j < N -> k < N -> draw r j = draw r k -> j = k) ->
    ((exists M, louvain_cluster tq tplus draw fuel G max_iters = Ok (Some (inl M))) \/
     louvain_cluster tq tplus draw fuel G max_iters = Ok (Some (inr (Nat.max 1 max_iters)))) /\
    ((exists M, louvain_cluster_masked tq tb tplus draw fuel G max_iters = Ok (Some (inl M))) \/
     louvain_cluster_masked tq tb tplus draw fuel G max_iters = Ok (Some (inr (Nat.max 1 max_iters)))).
Proof.
  intros T tq tb tplus draw fuel G N n W R C N0 S L P Pl Pb Fl Inj.
  assert (D : decisive draw fuel N) by (split; auto).
  split.
  - destruct (louvain_undirected tq tb tplus draw fuel N N0 G W R C S L P Pl Pb false n) as (o & Eo & Ho). cbn [run] in Eo. rewrite Eo.
    destruct o as [[M|k]|]; [left; exists M; auto|right; subst; auto|contradiction].
  - destruct (louvain_undirected tq tb tplus draw fuel N N0 G W R C S L P Pl Pb true n) as (o & Eo & Ho). cbn [run] in Eo. rewrite Eo.
    destruct o as [[M|k]|]; [left; exists M; auto|right; subst; auto|contradiction].
Qed.
Print Assumptions C96_louvain_ends.

(** Two triangles and an edge between them; each becomes a cluster. *)
Definition elv_g : lil Z := mkLil 6 6 14%Z
  [[(1, 1%Z); (2, 1%Z)]; [(0, 1%Z); (2, 1%Z)]; [(0, 1%Z); (1, 1%Z); (3, 1%Z)];
   [(2, 1%Z); (4, 1%Z); (5, 1%Z)]; [(3, 1%Z); (5, 1%Z)]; [(3, 1%Z); (4, 1%Z)]].
Definition elv_draw (r j : nat) : Qc := Q2Qc (Z.of_nat j # 8).
Definition elv_c (v : nat) : nat := if v <? 3 then 1 else 5.
Lemma elv_sym : forall u v, mget elv_g u v = mget elv_g v u.
Proof.
  intros u v. destruct (Nat.lt_ge_cases u 6) as [Hu|Hu].
  2:{ rewrite !mget_oob; auto; wf_mat. }
  destruct (Nat.lt_ge_cases v 6) as [Hv|Hv].
  2:{ rewrite !mget_oob; auto; wf_mat. }
  do 6 (destruct u as [|u]; [do 6 (destruct v as [|v]; [reflexivity|]); lia|]). lia.
Qed.
Lemma elv_loop : forall v, mget elv_g v v = None.
Proof.
  intros v. destruct (Nat.lt_ge_cases v 6) as [Hu|Hu].
  2:{ rewrite !mget_oob; auto; wf_mat. }
  do 6 (destruct v as [|v]; [reflexivity|]). lia.
Qed.
Lemma elv_pos : forall u v x, mget elv_g u v = Some x -> (0 < zq x)%Qc.
Proof.
  intros u v x E. destruct (Nat.lt_ge_cases u 6) as [Hu|Hu].
  2:{ rewrite mget_oob in E; auto; [discriminate|wf_mat]. }
  destruct (Nat.lt_ge_cases v 6) as [Hv|Hv].
  2:{ rewrite mget_oob in E; auto; [discriminate|wf_mat]. }
  do 6 (destruct u as [|u]; [do 6 (destruct v as [|v]; [try discriminate E; injection E as <-; reflexivity|]); lia|]). lia.
Qed.
Lemma zq_plus x y : zq (x + y) = (zq x + zq y)%Qc.
Proof. apply Qc_is_canon. unfold zq, Qcplus, Q2Qc. cbn [this]. rewrite !Qred_correct. unfold Qeq, Qplus. simpl. lia. Qed.
Lemma zq_true x : (0 < zq x)%Qc -> ztrue x = true.
Proof. intro H. unfold ztrue. destruct x; auto. exfalso. revert H. vm_compute. discriminate. Qed.
Lemma elv_draw_inj N r j k : j < N -> k < N -> elv_draw r j = elv_draw r k -> j = k.
Proof.
  intros _ _ E. unfold elv_draw in E. apply Q2Qc_eq_iff in E. unfold Qeq in E. simpl in E. lia.
Qed.
Example C96_example :
  wfm elv_g /\ (forall u v, mget elv_g u v = mget elv_g v u) /\ (forall v, mget elv_g v v = None) /\
  (forall u v x, mget elv_g u v = Some x -> (0 < zq x)%Qc) /\ (forall x y, zq (x + y) = (zq x + zq y)%Qc) /\
  (forall x, (0 < zq x)%Qc -> ztrue x = true) /\ (forall r j k, j < 6 -> k < 6 -> elv_draw r j = elv_draw r k -> j = k) /\
  (exists M, louvain_cluster zq Z.add elv_draw 2 elv_g 9 = Ok (Some (inl M)) /\ assigns 6 M elv_c) /\
  (exists M, louvain_cluster_masked zq ztrue Z.add elv_draw 2 elv_g 9 = Ok (Some (inl M)) /\ assigns 6 M elv_c) /\
  modularity 6 (weight zq elv_g) elv_c = Q2Qc (5 # 14).
Proof.
  split; [wf_mat|]. split; [exact elv_sym|]. split; [exact elv_loop|]. split; [exact elv_pos|]. split; [exact zq_plus|].
  split; [exact zq_true|]. split; [intros; eapply elv_draw_inj; eauto|].
  split; [|split; [|apply Qc_is_canon; vm_compute; reflexivity]].
  all: eexists; split; [vm_compute; reflexivity|]; split; [wf_mat|]; split; [auto|]; split; [auto|]; intros v Hv.
  all: do 6 (destruct v as [|v]; [split; [unfold elv_c; simpl; lia|]; intro d; do 6 (destruct d as [|d]; [reflexivity|]); destruct d; reflexivity|]); lia.
Qed.

(** ** C97: Louvain clustering of any square graph *)
(** Whatever the weights are, every vertex is in exactly one cluster of the matrix returned. *)
Theorem C97_louvain_partition :
  forall (T : Type) (tq : T -> Qc) (tplus : T -> T -> T) (draw : nat -> nat -> Qc) (fuel : nat) (G : lil T) (N max_iters : nat),
    wfm G -> nrows G = N -> ncols G = N -> N <> 0 ->
    exists o, louvain_cluster tq tplus draw fuel G max_iters = Ok o /\
      match o with
      | Some (inl M) => exists c, assigns N M c
      | Some (inr n) => n = Nat.max 1 max_iters
      | None => True
      end.
Proof.
  intros T tq tplus draw fuel G N n W R C N0.
  destruct (run_ok tq (fun _ => true) tplus draw fuel N N0 G W R C false (fun _ => True) n) as (o & E & Ho); auto.
  exists o. split; [exact E|]. destruct o as [[M|k]|]; auto. destruct Ho as (c & A & _). eauto.
Qed.
Print Assumptions C97_louvain_partition.
Theorem C97_louvain_masked_partition :
  forall (T : Type) (tq : T -> Qc) (tb : T -> bool) (tplus : T -> T -> T) (draw : nat -> nat -> Qc) (fuel : nat) (G : lil T)
      (N max_iters : nat),
    wfm G -> nrows G = N -> ncols G = N -> N <> 0 ->
    exists o, louvain_cluster_masked tq tb tplus draw fuel G max_iters = Ok o /\
      match o with
      | Some (inl M) => exists c, assigns N M c
      | Some (inr n) => n = Nat.max 1 max_iters
      | None => True
      end.
Proof.
  intros T tq tb tplus draw fuel G N n W R C N0.
  destruct (run_ok tq tb tplus draw fuel N N0 G W R C true (fun _ => True) n) as (o & E & Ho); auto.
  exists o. split; [exact E|]. destruct o as [[M|k]|]; auto. destruct Ho as (c & A & _). eauto.
Qed.
Print Assumptions C97_louvain_masked_partition.

Theorem C97_louvain_dimensions :
  forall (T : Type) (tq : T -> Qc) (tb : T -> bool) (tplus : T -> T -> T) (draw : nat -> nat -> Qc) (fuel : nat) (G : lil T)
      (max_iters : nat),
    nrows G <> ncols G ->
    louvain_cluster tq tplus draw fuel G max_iters = Throw DimensionException /\
    louvain_cluster_masked tq tb tplus draw fuel G max_iters = Throw DimensionException.
Proof.
  intros. unfold louvain_cluster, louvain_cluster_masked, lv_run. destruct (Nat.eqb_spec (nrows G) (ncols G)); [contradiction|auto].
Qed.
Print Assumptions C97_louvain_dimensions.

(** A directed graph with a negative weight. *)
Example C97_example :
  exists M c, louvain_cluster zq Z.add elv_draw 2 (mkLil 3 3 3%Z [[(1, 4%Z)]; [(2, 2%Z)]; [(0, (-1)%Z)]]) 9 = Ok (Some (inl M)) /\
    assigns 3 M c /\ c 0 = c 1 /\ c 1 = c 2.
Proof.
  eexists. exists (fun _ => 2). split; [vm_compute; reflexivity|]. split; [|auto].
  split; [wf_mat|]. split; [auto|]. split; [auto|]. intros v Hv. split; [lia|]. intro d.
  do 3 (destruct v as [|v]; [do 3 (destruct d as [|d]; [reflexivity|]); destruct d; reflexivity|]). lia.
Qed.

(** ** C98: Louvain clustering always ends and returns a good clustering *)

(** When [max_iters] iterations are not enough, nothing is returned: the number of iterations is thrown. *)
Theorem C98_louvain_max_iters_refuted :
  exists (G : lil Z) (max_iters : nat),
    wfm G /\ nrows G = 2 /\ ncols G = 2 /\ (forall u v, mget G u v = mget G v u) /\ (forall v, mget G v v = None) /\
    forall fuel, 1 <= fuel ->
      louvain_cluster zq Z.add elv_draw fuel G max_iters = Ok (Some (inr 1)) /\
      louvain_cluster_masked zq ztrue Z.add elv_draw fuel G max_iters = Ok (Some (inr 1)).
Proof.
  exists (mkLil 2 2 2%Z [[(1, 1%Z)]; [(0, 1%Z)]]), 1. split; [wf_mat|]. split; [auto|]. split; [auto|].
  split. { intros u v. destruct u as [|[|[|u]]], v as [|[|[|v]]]; reflexivity. }
  split. { intros v. destruct v as [|[|[|v]]]; reflexivity. }
  intros [|fuel] H; [lia|]. split; vm_compute; reflexivity.
Qed.
Print Assumptions C98_louvain_max_iters_refuted.

(** A graph whose only edge is a self loop: no cluster is found for its vertex, and the loop that is
    to leave one of several clusters goes on forever. *)
Theorem C98_louvain_self_loop_hangs_refuted :
  exists G : lil Z, wfm G /\ nrows G = 1 /\ ncols G = 1 /\ mget G 0 0 = Some 1%Z /\
    forall draw fuel max_iters,
      louvain_cluster zq Z.add draw fuel G max_iters = Ok None /\
      louvain_cluster_masked zq ztrue Z.add draw fuel G max_iters = Ok None.
Proof.
  exists (mkLil 1 1 1%Z [[(0, 1%Z)]]). split; [wf_mat|]. split; [auto|]. split; [auto|]. split; [auto|]. intros draw fuel n.
  assert (B : forall k r, mwhile k (fun '(t, _) => negb (vnvals t =? 1)%Z) (lv_tie draw 1) (mkVec 1 0%Z [false] [false], r) = Ok None).
  { induction k as [|k IH]; intro r; [reflexivity|]. cbn [mwhile]. change (negb (0 =? 1)%Z) with true. cbn [vnvals].
    cbv iota beta. change (negb (0 =? 1)%Z) with true. cbv iota.
    assert (E : lv_tie draw 1 (mkVec 1 0%Z [false] [false], r) = Ok (mkVec 1 0%Z [false] [false], S r)) by reflexivity.
    rewrite E. cbn [bind]. apply IH. }
  assert (X : forall k r, lv_break draw k 1 (mkVec 1 0%Z [false] [false]) r = Ok None) by (intros; apply B).
  assert (Y : forall r, lv_break draw fuel 1 (mkVec 1 0%Z [false] [false]) r = Ok None) by auto. clear B X.
  split; unfold louvain_cluster, louvain_cluster_masked, lv_run, lv_body, lv_body_masked, lv_finish.
  all: generalize dependent (lv_break draw fuel); intros brk Y.
  all: destruct (n - 1); cbn [lv_loop].
  all: vm_compute; rewrite Y; reflexivity.
Qed.
Print Assumptions C98_louvain_self_loop_hangs_refuted.

(** With self loops the result can be worse than leaving every vertex alone: here the weight of the
    loops is 10 and that of the edge between the two vertices is 1. *)
Theorem C98_louvain_self_loops_refuted :
  exists (G : lil Z) (M : lil bool) (c : nat -> nat),
    wfm G /\ nrows G = 2 /\ ncols G = 2 /\ (forall u v, mget G u v = mget G v u) /\
    (forall u v x, mget G u v = Some x -> (0 < zq x)%Qc) /\
    louvain_cluster zq Z.add elv_draw 2 G 9 = Ok (Some (inl M)) /\
    louvain_cluster_masked zq ztrue Z.add elv_draw 2 G 9 = Ok (Some (inl M)) /\ assigns 2 M c /\
    (modularity 2 (weight zq G) c < modularity 2 (weight zq G) (fun v => v))%Qc.
Proof.
  exists (mkLil 2 2 4%Z [[(0, 10%Z); (1, 1%Z)]; [(0, 1%Z); (1, 10%Z)]]). eexists. exists (fun _ => 1).
  split; [wf_mat|]. split; [auto|]. split; [auto|].
  split. { intros u v. destruct u as [|[|[|u]]], v as [|[|[|v]]]; reflexivity. }
  split. { intros u v x E. destruct u as [|[|[|u]]], v as [|[|[|v]]]; try discriminate E; injection E as <-; reflexivity. }
  split; [vm_compute; reflexivity|]. split; [vm_compute; reflexivity|]. split; [|vm_compute; reflexivity].
  split; [wf_mat|]. split; [auto|]. split; [auto|]. intros v Hv. split; [lia|]. intro d.
  do 2 (destruct v as [|v]; [do 2 (destruct d as [|d]; [reflexivity|]); destruct d; reflexivity|]). lia.
Qed.
Print Assumptions C98_louvain_self_loops_refuted.

(** Graphs of type [bool]: [Plus<bool>] is not addition, the sum of the graph and its transpose is the graph itself,
    and the result is no local optimum.  Here, a star, moving vertex 3 to the cluster of the centre is a gain. *)
Theorem C98_louvain_bool_refuted :
  exists (G : lil bool) (M : lil bool) (c : nat -> nat),
    wfm G /\ nrows G = 5 /\ ncols G = 5 /\ (forall u v, mget G u v = mget G v u) /\ (forall v, mget G v v = None) /\
    (forall u v x, mget G u v = Some x -> (0 < bq x)%Qc) /\
    louvain_cluster bq orb elv_draw 2 G 9 = Ok (Some (inl M)) /\ assigns 5 M c /\
    (modularity 5 (weight bq G) c < modularity 5 (weight bq G) (move c 3 4))%Qc.
Proof.
  exists (mkLil 5 5 8%Z [[(4, true)]; [(4, true)]; [(4, true)]; [(4, true)]; [(0, true); (1, true); (2, true); (3, true)]]).
  eexists. exists (fun v => match v with 2 => 3 | 3 => 3 | _ => 4 end).
  split; [wf_mat|]. split; [auto|]. split; [auto|].
  split. { intros u v. do 5 (destruct u as [|u]; [do 5 (destruct v as [|v]; [reflexivity|]); destruct v; reflexivity|]).
           do 5 (destruct v as [|v]; [destruct u; reflexivity|]). destruct u, v; reflexivity. }
  split. { intros v. do 5 (destruct v as [|v]; [reflexivity|]); destruct v; reflexivity. }
  split. { intros u v x E. do 5 (destruct u as [|u]; [do 5 (destruct v as [|v]; [try discriminate E; injection E as <-; reflexivity|]);
             destruct v; discriminate E|]). destruct u; discriminate E. }
  split; [vm_compute; reflexivity|]. split; [|vm_compute; reflexivity].
  split; [wf_mat|]. split; [auto|]. split; [auto|]. intros v Hv.
  do 5 (destruct v as [|v]; [split; [lia|]; intro d; do 5 (destruct d as [|d]; [reflexivity|]); destruct d; reflexivity|]). lia.
Qed.
Print Assumptions C98_louvain_bool_refuted.

(** ** C99: the cluster of each vertex, from the matrix *)
Theorem C99_louvain_assignments :
  forall (T : Type) (M : lil T) (N : nat),
    wfm M -> N <> 0 -> nrows M = N -> ncols M = N ->
    exists w, get_louvain_cluster_assignments M = Ok w /\ wfv w /\ vsize w = N /\
      forall v, v < N ->
        match vget w v with
        | None => forall d, mget M v d = None
        | Some d => mget M v d <> None /\ forall e, mget M v e <> None -> e <= d
        end.
Proof. intros. apply louvain_assignments_ok; auto. Qed.
Print Assumptions C99_louvain_assignments.

(** On a matrix returned by Louvain clustering: the cluster. *)
Theorem C99_louvain_assignments_result :
  forall (M : lil bool) (N : nat) (c : nat -> nat),
    N <> 0 -> assigns N M c ->
    exists w, get_louvain_cluster_assignments M = Ok w /\ vsize w = N /\ forall v, v < N -> vget w v = Some (c v).
Proof.
  intros M N c N0 (W & R & C & A). destruct (louvain_assignments_ok M N W N0 R C) as (w & E & Ww & S & Gw).
  exists w. split; [auto|]. split; [auto|]. intros v Hv. specialize (Gw v Hv). destruct (A v Hv) as (Cv & Mv).
  assert (X : mget M v (c v) <> None) by (rewrite Mv, Nat.eqb_refl; discriminate).
  destruct (vget w v) as [d|].
  - destruct Gw as (Gd & _). rewrite Mv in Gd. destruct (Nat.eqb_spec d (c v)); congruence.
  - exfalso. apply X, Gw.
Qed.
Print Assumptions C99_louvain_assignments_result.

Theorem C99_louvain_assignments_dimensions :
  forall (T : Type) (M : lil T),
    nrows M <> 0 -> ncols M <> 0 -> nrows M <> ncols M ->
    get_louvain_cluster_assignments M = Throw DimensionException.
Proof.
  intros T M R0 C0 NE. unfold get_louvain_cluster_assignments.
  destruct (vis_new 0 (ncols M) C0) as (w0 & -> & (_ & S0 & _)). cbn [bind].
  destruct (ProofParents.index_ramp_ok (nrows M) R0) as (r & -> & _ & Sr & _). cbn [bind].
  unfold mxv. cbn [check_mask_size vnomask bind vrows vcols]. unfold check_eq. rewrite S0, Sr.
  destruct (Nat.eqb_spec (ncols M) (nrows M)); [congruence|reflexivity].
Qed.
Print Assumptions C99_louvain_assignments_dimensions.

Example C99_example :
  exists M w, louvain_cluster zq Z.add elv_draw 2 elv_g 9 = Ok (Some (inl M)) /\
    get_louvain_cluster_assignments M = Ok w /\ map (vget w) (seq 0 6) = [Some 1; Some 1; Some 1; Some 5; Some 5; Some 5].
Proof. do 2 eexists. split; [vm_compute; reflexivity|]. split; vm_compute; reflexivity. Qed.
