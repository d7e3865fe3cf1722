(** Properties C73, C74 and C75: maximum flow by push and relabel. *)
From Coq Require Import Lia.
From Verif Require Import Base ModelLil ModelVec ModelViews ModelAlgoBase ModelPush Spec SpecFlow
  ProofBase ProofLil ProofVec ProofViews ProofVis ProofFlow ProofPush.

(** ** C73: [maxflow_push_relabel] ends with the value of a maximum flow *)

(** [inf] is the largest value of the scalar type, which must hold the capacity leaving the source
    and twice the number of vertices.  The loops end after at most 4 (N + 1)^3 steps each. *)
Theorem C73_push_relabel_max :
  forall (inf : Z) (G : lil Z) (N n source sink : nat),
    wfm G -> nrows G = N -> ncols G = N -> (Z.of_nat N < 2 ^ 64)%Z ->
    source < N -> sink < N -> source <> sink ->
    (forall i j c, mget G i j = Some c -> (0 <= c)%Z) ->
    (2 * Z.of_nat N <= inf)%Z -> (zsum N (fun v => capacity G source v) <= inf)%Z ->
    4 * (N + 1) * (N + 1) * (N + 1) <= n ->
    exists x, maxflow_push_relabel inf n G source sink = Ok (Some x) /\
      is_max_flow N (capacity G) source sink x.
Proof.
  intros inf G N n source sink WG RG CG HN Hs Ht Hst Hc Hi Hsum Hn.
  apply (push_relabel_ok N G source sink inf); auto.
  intros u v _ _. unfold capacity. destruct (mget G u v) eqn:E; [eauto|lia].
Qed.
Print Assumptions C73_push_relabel_max.

(** A network with a self loop, a stored 0, an edge back into the source and excess that has to
    return to the source. *)
Definition epr_G : lil Z :=
  mkLil 6 6 12%Z
    [[(1, 16%Z); (2, 13%Z)]; [(0, 3%Z); (1, 5%Z); (3, 12%Z)]; [(1, 4%Z); (4, 14%Z)];
     [(2, 9%Z); (5, 20%Z)]; [(2, 0%Z); (3, 7%Z); (5, 4%Z)]; []].
Example C73_example :
  wfm epr_G /\ (forall i j c, mget epr_G i j = Some c -> (0 <= c)%Z) /\
  (zsum 6 (fun v => capacity epr_G 0 v) <= 2147483647)%Z /\
  maxflow_push_relabel 2147483647 1372 epr_G 0 5 = Ok (Some 23%Z).
Proof.
  split; [wf_mat|]. split; [|split; [vm_compute; discriminate|vm_compute; reflexivity]].
  intros i j c. destruct (Nat.lt_ge_cases i 6), (Nat.lt_ge_cases j 6).
  2, 3, 4: rewrite mget_oob by (try wf_mat; simpl; lia); discriminate.
  do 6 (destruct i as [|i]; [do 6 (destruct j as [|j]; [intro E; vm_compute in E; try discriminate; injection E as <-; lia|]); lia|]). lia.
Qed.

(** ** C74: networks that consist of one vertex *)

(** [num_nodes - 2] wraps around, and the list of inner vertices is read beyond its end. *)
Theorem C74_push_relabel_defined_refuted :
  exists (G : lil Z) (source sink : nat),
    wfm G /\ nrows G = ncols G /\ source < nrows G /\ sink < nrows G /\
    forall inf n, (0 < n)%nat -> maxflow_push_relabel inf n G source sink = UB.
Proof.
  exists (mkLil 1 1 0%Z [[]]), 0, 0. split; [wf_mat|]. split; [reflexivity|]. split; [simpl; lia|]. split; [simpl; lia|].
  intros inf [|n] H; [lia|]. reflexivity.
Qed.
Print Assumptions C74_push_relabel_defined_refuted.

(** ** C75: more capacity out of the source than the scalar type can hold *)

(** With 8 bit integers, 100 units go into the dead end 1 and only 27 are left for vertex 2. *)
Definition epr_H : lil Z := mkLil 4 4 3%Z [[(1, 100%Z); (2, 100%Z)]; []; [(3, 100%Z)]; []].
Theorem C75_push_relabel_range_refuted :
  exists (G : lil Z) (source sink : nat) (x : Z) (f : nat -> nat -> Z),
    wfm G /\ nrows G = 4 /\ ncols G = 4 /\ source < 4 /\ sink < 4 /\ source <> sink /\
    (forall i j, i < 4 -> j < 4 -> (0 <= capacity G i j <= 127)%Z) /\
    maxflow_push_relabel 127 500 G source sink = Ok (Some x) /\
    is_flow 4 (capacity G) source sink f /\ (x < flow_value 4 sink f <= 127)%Z.
Proof.
  exists epr_H, 0, 3, 27%Z, (fun u v => match u, v with
    0, 2 | 2, 3 => 100%Z | 2, 0 | 3, 2 => (-100)%Z | _, _ => 0%Z end).
  split; [wf_mat|]. split; [reflexivity|]. split; [reflexivity|]. split; [lia|]. split; [lia|]. split; [lia|].
  split.
  { intros i j Hi Hj.
    do 4 (destruct i as [|i]; [do 4 (destruct j as [|j]; [vm_compute; split; discriminate|]); lia|]). lia. }
  split; [vm_compute; reflexivity|]. split; [|vm_compute; split; congruence].
  split; [|split].
  - intros u v Hu Hv.
    do 4 (destruct u as [|u]; [do 4 (destruct v as [|v]; [reflexivity|]); lia|]). lia.
  - intros u v Hu Hv.
    do 4 (destruct u as [|u]; [do 4 (destruct v as [|v]; [vm_compute; discriminate|]); lia|]). lia.
  - intros v Hv N1 N2. do 4 (destruct v as [|v]; [try congruence; reflexivity|]). lia.
Qed.
Print Assumptions C75_push_relabel_range_refuted.
