(** Property theorems: Louvain clustering over [double] (C171, C172). *)
From Coq Require Import ZArith QArith Qcanon Lia Floats.SpecFloat.
From Verif Require Import Base ModelLil ModelVec ModelViews ModelUtils ModelAlgoBase ModelRank ModelBc ModelCluster ModelLouvain ModelFloat ModelClusterTypes ModelLouvainTypes
  Spec SpecOps SpecRank SpecLouvain SpecFloats SpecConv SpecRankTypes SpecLouvainTypes
  ProofBase ProofLil ProofUtils ProofViews ProofFloat ProofConv ProofApprox ProofRank ProofVis ProofRankApprox ProofModularity ProofLouvain ProofLouvainTypes
  ProofLouvainDouble PropLouvain.
Local Open Scope nat_scope.

(** ** C171: the clusters found in [double] are local optima up to rounding errors *)

(** [tr] and [tb] convert a weight to [double] and to [bool], [tplus] adds weights; [A u v] is the exact value of the weight
    of an edge after its conversion.  The weights are between 2^-100 and 2^100 and doubling one is exact.  No vertex can be
    moved to another cluster or to a new one with a gain of more than [N * 2^-46]; the modularity is at most 1. *)
Theorem C171_louvain_double_nearly_best :
  forall (T : Type) (tr : T -> fval) (tplus : T -> T -> T) (draw : nat -> nat -> fval) (fuel : nat) (G : lil T) (N max_iters : nat)
      (M : lil bool),
    wfm G -> nrows G = N -> ncols G = N -> N <> 0 -> (Z.of_nat N <= 2 ^ 40)%Z ->
    (forall u v, mget G u v = mget G v u) -> (forall v, mget G v v = None) ->
    (forall u v x, mget G u v = Some x ->
      value CDouble (tr x) /\ finite (tr x) /\ (2 ^ (-100) <= real (tr x) <= 2 ^ 100)%Q) ->
    (forall u v x, mget G u v = Some x ->
      value CDouble (tr (tplus x x)) /\ finite (tr (tplus x x)) /\ (real (tr (tplus x x)) == real (tr x) + real (tr x))%Q) ->
    dlouvain_cluster tr tplus draw fuel G max_iters = Ok (Some (inl M)) ->
    exists c, assigns N M c /\
      nearly_best N (weight (fun x => exact_q (tr x)) G) (Q2Qc (inject_Z (Z.of_nat N) * 2 ^ (-46))) c.
Proof.
  intros T tr tplus draw fuel G N n M W R C N0 NB S L WB DB E.
  destruct (louvain_double tr (fun _ => true) tplus N G N0 NB W R C S L WB DB (fun _ _ _ _ => eq_refl) draw fuel false n) as (o & Eo & Ho).
  cbn [grun] in Eo. change (dlouvain_cluster tr tplus draw fuel G n = Ok o) in Eo. rewrite E in Eo. injection Eo as <-. exact Ho.
Qed.
Print Assumptions C171_louvain_double_nearly_best.

Theorem C171_louvain_masked_double_nearly_best :
  forall (T : Type) (tr : T -> fval) (tb : T -> bool) (tplus : T -> T -> T) (draw : nat -> nat -> fval) (fuel : nat) (G : lil T)
      (N max_iters : nat) (M : lil bool),
    wfm G -> nrows G = N -> ncols G = N -> N <> 0 -> (Z.of_nat N <= 2 ^ 40)%Z ->
    (forall u v, mget G u v = mget G v u) -> (forall v, mget G v v = None) ->
    (forall u v x, mget G u v = Some x ->
      value CDouble (tr x) /\ finite (tr x) /\ (2 ^ (-100) <= real (tr x) <= 2 ^ 100)%Q) ->
    (forall u v x, mget G u v = Some x ->
      value CDouble (tr (tplus x x)) /\ finite (tr (tplus x x)) /\ (real (tr (tplus x x)) == real (tr x) + real (tr x))%Q) ->
    (forall u v x, mget G u v = Some x -> tb (tplus x x) = true) ->
    dlouvain_cluster_masked tr tb tplus draw fuel G max_iters = Ok (Some (inl M)) ->
    exists c, assigns N M c /\
      nearly_best N (weight (fun x => exact_q (tr x)) G) (Q2Qc (inject_Z (Z.of_nat N) * 2 ^ (-46))) c.
Proof.
  intros T tr tb tplus draw fuel G N n M W R C N0 NB S L WB DB BB E.
  destruct (louvain_double tr tb tplus N G N0 NB W R C S L WB DB BB draw fuel true n) as (o & Eo & Ho).
  cbn [grun] in Eo. change (dlouvain_cluster_masked tr tb tplus draw fuel G n = Ok o) in Eo. rewrite E in Eo. injection Eo as <-. exact Ho.
Qed.
Print Assumptions C171_louvain_masked_double_nearly_best.

(** There are no other outcomes than to return and to report that [max_iters] iterations were not enough, if the random
    numbers are between 0 and 1, different ones remain different when 0.0001 is added, and two tests per vertex are allowed. *)
Theorem C171_louvain_double_ends :
  forall (T : Type) (tr : T -> fval) (tb : T -> bool) (tplus : T -> T -> T) (draw : nat -> nat -> fval) (fuel : nat) (G : lil T)
      (N max_iters : nat),
    wfm G -> nrows G = N -> ncols G = N -> N <> 0 -> (Z.of_nat N <= 2 ^ 40)%Z ->
    (forall u v, mget G u v = mget G v u) -> (forall v, mget G v v = None) ->
    (forall u v x, mget G u v = Some x ->
      value CDouble (tr x) /\ finite (tr x) /\ (2 ^ (-100) <= real (tr x) <= 2 ^ 100)%Q) ->
    (forall u v x, mget G u v = Some x ->
      value CDouble (tr (tplus x x)) /\ finite (tr (tplus x x)) /\ (real (tr (tplus x x)) == real (tr x) + real (tr x))%Q) ->
    (forall u v x, mget G u v = Some x -> tb (tplus x x) = true) ->
    2 <= fuel -> (forall r j, value CDouble (draw r j) /\ finite (draw r j) /\ (0 <= real (draw r j))%Q /\ (real (draw r j) <= 1)%Q) ->
    (forall r j k, j < N -> k < N -> FEqual (FPlus CDouble (draw r j) d_small) (FPlus CDouble (draw r k) d_small) = true -> j = k) ->
    ((exists M, dlouvain_cluster tr tplus draw fuel G max_iters = Ok (Some (inl M))) \/
     dlouvain_cluster tr tplus draw fuel G max_iters = Ok (Some (inr (Nat.max 1 max_iters)))) /\
    ((exists M, dlouvain_cluster_masked tr tb tplus draw fuel G max_iters = Ok (Some (inl M))) \/
     dlouvain_cluster_masked tr tb tplus draw fuel G max_iters = Ok (Some (inr (Nat.max 1 max_iters)))).
Proof.
  intros T tr tb tplus draw fuel G N n W R C N0 NB S L WB DB BB Fl Dv Inj.
  assert (D : dists N draw fuel) by (split; auto).
  split.
  - destruct (louvain_double tr tb tplus N G N0 NB W R C S L WB DB BB draw fuel false n) as (o & Eo & Ho). cbn [grun] in Eo.
    change (dlouvain_cluster tr tplus draw fuel G n = Ok o) in Eo. rewrite Eo.
    destruct o as [[M|k]|]; [left; exists M; auto|right; subst; auto|contradiction].
  - destruct (louvain_double tr tb tplus N G N0 NB W R C S L WB DB BB draw fuel true n) as (o & Eo & Ho). cbn [grun] in Eo.
    change (dlouvain_cluster_masked tr tb tplus draw fuel G n = Ok o) in Eo. rewrite Eo.
    destruct o as [[M|k]|]; [left; exists M; auto|right; subst; auto|contradiction].
Qed.
Print Assumptions C171_louvain_double_ends.

(** Whatever the graph, the weights and the random numbers are, infinities and NaN included: what is returned puts every
    vertex in exactly one cluster. *)
Theorem C171_louvain_double_partition :
  forall (T : Type) (tr : T -> fval) (tb : T -> bool) (tplus : T -> T -> T) (draw : nat -> nat -> fval) (fuel : nat) (G : lil T)
      (N max_iters : nat),
    wfm G -> nrows G = N -> ncols G = N -> N <> 0 ->
    forall run, In run [dlouvain_cluster tr tplus draw fuel G max_iters; dlouvain_cluster_masked tr tb tplus draw fuel G max_iters] ->
    exists o, run = Ok o /\
      match o with
      | Some (inl M) => exists c, assigns N M c
      | Some (inr n) => n = Nat.max 1 max_iters
      | None => True
      end.
Proof.
  intros T tr tb tplus draw fuel G N n W R C N0 run H.
  assert (X : exists masked, run = grun f0 (FPlus CDouble) (FTimes CDouble) (FDiv CDouble) (FAdditiveInverse CDouble) (FMax CDouble) FEqual double_of_bool
    (of_int CDouble 2) d_small tr tb tplus draw fuel G masked n).
  { destruct H as [<-|[<-|[]]]; [exists false|exists true]; reflexivity. }
  destruct X as (masked & ->).
  destruct (grun_ok f0 (FPlus CDouble) (FTimes CDouble) (FDiv CDouble) (FAdditiveInverse CDouble) (FMax CDouble) FEqual double_of_bool (of_int CDouble 2) d_small
    tr tb tplus draw fuel N N0 G W R C masked (fun _ => True) n) as (o & E & Ho); auto.
  exists o. split; [exact E|]. destruct o as [[M|k]|]; auto. destruct Ho as (c & A & _). eauto.
Qed.
Print Assumptions C171_louvain_double_partition.

Theorem C171_louvain_double_dimensions :
  forall (T : Type) (tr : T -> fval) (tb : T -> bool) (tplus : T -> T -> T) (draw : nat -> nat -> fval) (fuel : nat) (G : lil T)
      (max_iters : nat),
    nrows G <> ncols G ->
    dlouvain_cluster tr tplus draw fuel G max_iters = Throw DimensionException /\
    dlouvain_cluster_masked tr tb tplus draw fuel G max_iters = Throw DimensionException.
Proof.
  intros. unfold dlouvain_cluster, dlouvain_cluster_masked, rt_louvain, rt_louvain_masked, rt_lv_run.
  destruct (Nat.eqb_spec (nrows G) (ncols G)); [contradiction|auto].
Qed.
Print Assumptions C171_louvain_double_dimensions.

(** The two triangles of C96. *)
Definition dlv_tr (x : Z) : fval := of_int CDouble x.
Definition dlv_draw (r j : nat) : fval := FDiv CDouble (of_int CDouble (Z.of_nat (Nat.min j 7))) (of_int CDouble 8).
Lemma elv_one u v x : mget elv_g u v = Some x -> x = 1%Z.
Proof.
  intros E. destruct (Nat.lt_ge_cases u 6) as [Hu|Hu].
  2:{ rewrite mget_oob in E; auto; [discriminate|wf_mat]. }
  destruct (Nat.lt_ge_cases v 6) as [Hv|Hv].
  2:{ rewrite mget_oob in E; auto; [discriminate|wf_mat]. }
  do 6 (destruct u as [|u]; [do 6 (destruct v as [|v]; [try discriminate E; injection E as <-; reflexivity|]); lia|]). lia.
Qed.
Example C171_example :
  wfm elv_g /\ (forall u v, mget elv_g u v = mget elv_g v u) /\ (forall v, mget elv_g v v = None) /\
  (forall u v x, mget elv_g u v = Some x -> value CDouble (dlv_tr x) /\ finite (dlv_tr x) /\ (2 ^ (-100) <= real (dlv_tr x) <= 2 ^ 100)%Q) /\
  (forall u v x, mget elv_g u v = Some x ->
    value CDouble (dlv_tr (x + x)) /\ finite (dlv_tr (x + x)) /\ (real (dlv_tr (x + x)) == real (dlv_tr x) + real (dlv_tr x))%Q) /\
  (forall u v x, mget elv_g u v = Some x -> ztrue (x + x) = true) /\
  (forall r j, value CDouble (dlv_draw r j) /\ finite (dlv_draw r j) /\ (0 <= real (dlv_draw r j))%Q /\ (real (dlv_draw r j) <= 1)%Q) /\
  (forall r j k, j < 6 -> k < 6 -> FEqual (FPlus CDouble (dlv_draw r j) d_small) (FPlus CDouble (dlv_draw r k) d_small) = true -> j = k) /\
  (exists M, dlouvain_cluster dlv_tr Z.add dlv_draw 2 elv_g 9 = Ok (Some (inl M)) /\ assigns 6 M elv_c) /\
  (exists M, dlouvain_cluster_masked dlv_tr ztrue Z.add dlv_draw 2 elv_g 9 = Ok (Some (inl M)) /\ assigns 6 M elv_c).
Proof.
  split; [wf_mat|]. split; [exact elv_sym|]. split; [exact elv_loop|].
  split. { intros u v x E. rewrite (elv_one u v x E). split; [vm_compute; reflexivity|]. split; [vm_compute; exact I|]. split; vm_compute; discriminate. }
  split. { intros u v x E. rewrite (elv_one u v x E). split; [vm_compute; reflexivity|]. split; [vm_compute; exact I|]. vm_compute; reflexivity. }
  split. { intros u v x E. rewrite (elv_one u v x E). reflexivity. }
  split. { intros r j. unfold dlv_draw. assert (H : Nat.min j 7 < 8) by lia. generalize dependent (Nat.min j 7). clear. intros k H.
           do 8 (destruct k as [|k]; [split; [vm_compute; reflexivity|]; split; [vm_compute; exact I|]; split; vm_compute; discriminate|]). lia. }
  split. { intros r j k Hj Hk E. do 6 (destruct j as [|j]; [do 6 (destruct k as [|k]; [first [reflexivity|vm_compute in E; discriminate E]|]); lia|]). lia. }
  split.
  all: eexists; split; [vm_compute; reflexivity|]; split; [wf_mat|]; split; [auto|]; split; [auto|]; intros v Hv.
  all: do 6 (destruct v as [|v]; [split; [unfold elv_c; simpl; lia|]; intro d; do 6 (destruct d as [|d]; [reflexivity|]); destruct d; reflexivity|]); lia.
Qed.

(** ** C172: the clusters found in [double] are local optima of the modularity *)

(** Weights that double represents exactly.  Vertex 2 stays with vertex 3, to which it has no edge. *)
Theorem C172_louvain_double_refuted :
  exists (G : lil Z) (M : lil bool) (c : nat -> nat),
    wfm G /\ nrows G = 4 /\ ncols G = 4 /\ (forall u v, mget G u v = mget G v u) /\ (forall v, mget G v v = None) /\
    (forall u v x, mget G u v = Some x -> (0 < x <= 2 ^ 54)%Z /\ exact_q (dlv_tr x) = zq x) /\
    dlouvain_cluster dlv_tr Z.add dlv_draw 2 G 9 = Ok (Some (inl M)) /\ assigns 4 M c /\ ~ locally_best 4 (weight zq G) c.
Proof.
  exists (mkLil 4 4 6%Z [[(1, (2 ^ 54)%Z); (3, 1%Z)]; [(0, (2 ^ 54)%Z); (2, 3%Z)]; [(1, 3%Z)]; [(0, 1%Z)]]). eexists.
  exists (fun v => match v with 0 | 1 => 1 | _ => 3 end).
  split; [wf_mat|]. split; [auto|]. split; [auto|].
  split. { intros u v. do 4 (destruct u as [|u]; [do 4 (destruct v as [|v]; [reflexivity|]); destruct v; reflexivity|]).
           do 4 (destruct v as [|v]; [destruct u; reflexivity|]). destruct u, v; reflexivity. }
  split. { intros v. do 4 (destruct v as [|v]; [reflexivity|]); destruct v; reflexivity. }
  split. { intros u v x E. do 4 (destruct u as [|u]; [do 4 (destruct v as [|v]; [try discriminate E; injection E as <-; (split; [lia|apply Qc_is_canon; vm_compute; reflexivity])|]);
             destruct v; discriminate E|]). destruct u; discriminate E. }
  split; [vm_compute; reflexivity|]. split.
  - split; [wf_mat|]. split; [auto|]. split; [auto|]. intros v Hv.
    do 4 (destruct v as [|v]; [split; [lia|]; intro d; do 4 (destruct d as [|d]; [reflexivity|]); destruct d; reflexivity|]). lia.
  - intro L. specialize (L 2 0 ltac:(lia)). apply Qcle_not_lt in L. apply L. vm_compute. reflexivity.
Qed.
Print Assumptions C172_louvain_double_refuted.
