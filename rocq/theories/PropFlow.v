(** Properties C66 and C67: maximum flow by augmenting paths. *)
From Coq Require Import Lia.
From Verif Require Import Base ModelLil ModelVec ModelViews ModelAlgoBase ModelFlow Spec SpecFlow
  ProofBase ProofLil ProofVec ProofViews ProofVis ProofFlow ProofFordFulk.

(** ** C66: [maxflow_ford_fulk] *)

(** The value returned is that of a flow that respects the capacities.  [inf] is the identity of
    the minimum monoid, the largest value of the scalar type. *)
Theorem C66_ford_fulkerson_feasible :
  forall (inf : Z) (G : lil Z) (N n source sink : nat),
    wfm G -> nrows G = N -> ncols G = N -> source < N -> sink < N -> source <> sink ->
    (0 <= inf)%Z -> (forall i j c, mget G i j = Some c -> (0 <= c)%Z) ->
    N < n -> (nvals G < Z.of_nat n)%Z ->
    exists x, maxflow_ford_fulk inf n G source sink = Ok (Some x) /\
      exists f, is_flow N (capacity G) source sink f /\ flow_value N sink f = x.
Proof.
  intros inf G N n source sink WG RG CG Hs Ht Hst Hi Hc Hn1 Hn2.
  destruct (ford_fulk_ok inf 0 G N source sink WG RG CG Hs Ht Hst ltac:(lia) Hi Hc n Hn1 Hn2)
    as (x & E & F & _). eauto.
Qed.
Print Assumptions C66_ford_fulkerson_feasible.

(** The flow is maximal when the capacity of some cut is at most the number of edges. *)
Theorem C66_ford_fulkerson_max :
  forall (inf : Z) (G : lil Z) (N n source sink : nat) (S : nat -> bool),
    wfm G -> nrows G = N -> ncols G = N -> source < N -> sink < N -> source <> sink ->
    (1 <= inf)%Z -> (forall i j c, mget G i j = Some c -> (1 <= c)%Z) ->
    is_cut N source sink S -> (cut_capacity N (capacity G) S <= nvals G)%Z ->
    N < n -> (nvals G < Z.of_nat n)%Z ->
    exists x, maxflow_ford_fulk inf n G source sink = Ok (Some x) /\
      is_max_flow N (capacity G) source sink x.
Proof.
  intros inf G N n source sink S WG RG CG Hs Ht Hst Hi Hc HS HC Hn1 Hn2.
  destruct (ford_fulk_ok inf 1 G N source sink WG RG CG Hs Ht Hst ltac:(lia) Hi Hc n Hn1 Hn2)
    as (x & E & (f & F & V) & [M|L]); exists x; (split; [exact E|]); [exact M|].
  rewrite <- V. apply (cut_max N (capacity G) source sink Hs Ht f S F HS). lia.
Qed.
Print Assumptions C66_ford_fulkerson_max.

(** In particular when every edge has capacity 1. *)
Theorem C66_ford_fulkerson_unit :
  forall (inf : Z) (G : lil Z) (N n source sink : nat),
    wfm G -> nrows G = N -> ncols G = N -> source < N -> sink < N -> source <> sink ->
    (1 <= inf)%Z -> (forall i j c, mget G i j = Some c -> c = 1%Z) ->
    N < n -> (nvals G < Z.of_nat n)%Z ->
    exists x, maxflow_ford_fulk inf n G source sink = Ok (Some x) /\
      is_max_flow N (capacity G) source sink x.
Proof.
  intros inf G N n source sink WG RG CG Hs Ht Hst Hi Hc Hn1 Hn2.
  apply (C66_ford_fulkerson_max inf G N n source sink (Nat.eqb source)); auto.
  - intros i j c E. rewrite (Hc i j c E). lia.
  - split; [apply Nat.eqb_refl|]. apply Nat.eqb_neq. auto.
  - apply unit_cut; auto.
Qed.
Print Assumptions C66_ford_fulkerson_unit.

(** The first path is 0, 1, 2, 5; the second one, 0, 3, 4, 2, 1, 6, 7, 5, sends the unit on the edge
    from 1 to 2 back. *)
Definition eff_G : lil Z :=
  mkLil 8 8 9%Z [[(1, 1%Z); (3, 1%Z)]; [(2, 1%Z); (6, 1%Z)]; [(5, 1%Z)]; [(4, 1%Z)]; [(2, 1%Z)]; [];
                 [(7, 1%Z)]; [(5, 1%Z)]].
Example C66_example :
  wfm eff_G /\ (forall i j c, mget eff_G i j = Some c -> c = 1%Z) /\
  maxflow_ford_fulk 100 10 eff_G 0 5 = Ok (Some 2%Z).
Proof.
  split; [wf_mat|]. split; [|reflexivity].
  intros i j c. destruct (Nat.lt_ge_cases i 8), (Nat.lt_ge_cases j 8).
  2, 3, 4: rewrite mget_oob by (try wf_mat; simpl; lia); discriminate.
  do 8 (destruct i as [|i]; [do 8 (destruct j as [|j]; [vm_compute; congruence|]); lia|]). lia.
Qed.

(** ** C67: the bound on the number of iterations *)

(** 0 is the source, 1 the sink.  First 25 paths of length 5 through the edges from 4..8 to
    9..13, which have capacity 1; then each of these edges must be emptied again by a path of
    length 13 through 14..17 and 18..21.  That makes 50 augmentations for 47 edges. *)
Definition eff_edges : list (nat * nat * Z) :=
  [(0, 2, 25%Z); (0, 14, 25%Z)] ++
  map (fun i => (2, 4 + i, 5%Z)) (seq 0 5) ++ [(2, 18, 25%Z); (3, 1, 25%Z)] ++
  flat_map (fun i => map (fun j => (4 + i, 9 + j, 1%Z)) (seq 0 5)) (seq 0 5) ++
  map (fun j => (9 + j, 3, 5%Z)) (seq 0 5) ++
  [(14, 15, 25%Z); (15, 16, 25%Z); (16, 17, 25%Z); (17, 3, 25%Z);
   (18, 19, 25%Z); (19, 20, 25%Z); (20, 21, 25%Z); (21, 1, 25%Z)].
Definition eff_H : lil Z :=
  Eval vm_compute in fst (lil_build (fun _ b => b) (lil_new 22 22) eff_edges).
(** 25 units along 0, 2, 18, 19, 20, 21, 1 and 25 along 0, 14, 15, 16, 17, 3, 1. *)
Definition eff_path : list (nat * nat) :=
  [(0, 2); (2, 18); (18, 19); (19, 20); (20, 21); (21, 1);
   (0, 14); (14, 15); (15, 16); (16, 17); (17, 3); (3, 1)].
Definition eff_flow (u v : nat) : Z := (25 * unit_flow eff_path u v)%Z.

Lemma below_forallb n (p : nat -> bool) :
  forallb p (seq 0 n) = true -> forall i, i < n -> p i = true.
Proof. intros H i Hi. rewrite forallb_forall in H. apply H, in_seq. lia. Qed.

(** Positive capacities, and yet there is a better flow than the one returned. *)
Theorem C67_ford_fulkerson_max_refuted :
  exists (G : lil Z) (source sink : nat) (x : Z) (f : nat -> nat -> Z),
    wfm G /\ nrows G = 22 /\ ncols G = 22 /\ source < 22 /\ sink < 22 /\ source <> sink /\
    (forall i j c, i < 22 -> j < 22 -> mget G i j = Some c -> (1 <= c <= 25)%Z) /\
    maxflow_ford_fulk 100 48 G source sink = Ok (Some x) /\
    is_flow 22 (capacity G) source sink f /\ (x < flow_value 22 sink f)%Z.
Proof.
  exists eff_H, 0, 1, 47%Z, eff_flow.
  split; [wf_mat|]. split; [reflexivity|]. split; [reflexivity|]. split; [lia|]. split; [lia|]. split; [lia|].
  split.
  { intros i j c Hi Hj E.
    pose proof (below_forallb 22 (fun i => forallb (fun j =>
      match mget eff_H i j with Some c => ((1 <=? c) && (c <=? 25))%Z | None => true end) (seq 0 22))
      ltac:(vm_compute; reflexivity) i Hi) as K.
    pose proof (below_forallb 22 _ K j Hj) as K'. simpl in K'. rewrite E in K'.
    apply andb_true_iff in K'. destruct K' as (K1 & K2). apply Z.leb_le in K1, K2. lia. }
  split; [vm_compute; reflexivity|]. split; [|vm_compute; reflexivity].
  split; [|split].
  - intros u v _ _. unfold eff_flow, unit_flow. lia.
  - intros u v Hu Hv.
    pose proof (below_forallb 22 (fun i => forallb (fun j =>
      (eff_flow i j <=? capacity eff_H i j)%Z) (seq 0 22)) ltac:(vm_compute; reflexivity) u Hu) as K.
    pose proof (below_forallb 22 _ K v Hv) as K'. apply Z.leb_le in K'. auto.
  - intros v Hv N1 N2.
    pose proof (below_forallb 22 (fun v => (v =? 0) || (v =? 1) || (zsum 22 (fun u => eff_flow u v) =? 0)%Z)
      ltac:(vm_compute; reflexivity) v Hv) as K. cbv beta in K.
    apply orb_true_iff in K. destruct K as [K|K]; [|apply Z.eqb_eq in K; auto].
    apply orb_true_iff in K. destruct K as [K|K]; apply Nat.eqb_eq in K; congruence.
Qed.
Print Assumptions C67_ford_fulkerson_max_refuted.
