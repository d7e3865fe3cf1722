(** Properties of the breadth first searches: C41, C42, C58, C59. *)
From Coq Require Import Lia.
From Verif Require Import Base ModelLil ModelVec ModelHelpers ModelViews ModelMul ModelElem
  ModelIndex ModelAlgoBase ModelBfs Spec SpecOps SpecGraph ProofBfs ProofParents.

(** ** C41.  Levels are one more than the number of edges of a shortest path.  [tb] is the
    conversion of the graph's values to [bool]; the graph stores no value that converts to
    false (see C58 for the others).  More than [N] tests of the loop condition suffice. *)
Theorem C41_bfs_level :
  forall (T : Type) (tb : T -> bool) (G : lil T) (N n source : nat) (levels : bvec nat),
    wfm G -> nrows G = N -> ncols G = N ->
    (forall u v g, mget G u v = Some g -> tb g = true) ->
    wfv levels -> vsize levels = N -> (forall v, vget levels v = None) ->
    source < N -> N < n ->
    exists r, bfs_level tb n G source levels = Ok (Some r) /\ wfv r /\ vsize r = N /\
      forall v x, v < N ->
        (vget r v = Some x <-> exists d, x = S d /\ at_distance (edge G) (eq source) d v).
Proof. intros. apply bfs_level_ok; auto. Qed.
Print Assumptions C41_bfs_level.

Theorem C41_bfs_level_masked :
  forall (T : Type) (tb : T -> bool) (G : lil T) (N n : nat) (roots levels : bvec nat),
    wfm G -> nrows G = N -> ncols G = N ->
    (forall u v g, mget G u v = Some g -> tb g = true) ->
    wfv levels -> vsize levels = N -> (forall v, vget levels v = None) ->
    wfv roots -> vsize roots = N -> (forall v x, vget roots v = Some x -> x = 1) -> N < n ->
    let right r := wfv r /\ vsize r = N /\
      forall v x, v < N ->
        (vget r v = Some x <->
         exists d, x = S d /\ at_distance (edge G) (fun u => vget roots u <> None) d v) in
    (exists r, bfs_level_masked tb n G roots levels = Ok (Some r) /\ right r) /\
    (exists r, bfs_level_masked_v2 tb n G roots levels = Ok (Some r) /\ right r).
Proof. intros. split; [apply masked_levels_ok|apply masked2_levels_ok]; auto. Qed.
Print Assumptions C41_bfs_level_masked.

(** One search per row. *)
Theorem C41_batch_bfs_level :
  forall (T : Type) (tb : T -> bool) (G : lil T) (N n : nat) (roots levels : lil nat),
    wfm G -> nrows G = N -> ncols G = N ->
    (forall u v g, mget G u v = Some g -> tb g = true) ->
    wfm roots -> ncols roots = N -> (forall r v x, mget roots r v = Some x -> x = 1) ->
    wfm levels -> nrows levels = nrows roots -> ncols levels = N ->
    (forall r v, mget levels r v = None) -> N < n ->
    let right l := wfm l /\ nrows l = nrows roots /\ ncols l = N /\
      forall r v x, r < nrows roots -> v < N ->
        (mget l r v = Some x <->
         exists d, x = S d /\ at_distance (edge G) (fun u => mget roots r u <> None) d v) in
    (exists l, batch_bfs_level_masked tb n G roots levels = Ok (Some l) /\ right l) /\
    (exists l, bfs_level_m tb n G roots levels = Ok (Some l) /\ right l).
Proof. intros. split; [apply batch_levels_ok|apply levels_m_ok]; auto. Qed.
Print Assumptions C41_batch_bfs_level.


(** 0 -> 1 -> 3, 0 -> 2 -> 3 -> 4 -> 1, 5 -> 0 *)
Definition eb_G : lil Z :=
  mkLil 6 6 7%Z [[(1, 1%Z); (2, 7%Z)]; [(3, 2%Z)]; [(3, (-1)%Z)]; [(4, 1%Z)]; [(1, 5%Z)]; [(0, 1%Z)]].
Definition eb_none : bvec nat := mkVec 6 0%Z (repeat 0 6) (repeat false 6).
Definition eb_roots : bvec nat :=
  mkVec 6 1%Z [1; 0; 0; 0; 0; 0] [true; false; false; false; false; false].
Definition eb_roots_m : lil nat := mkLil 2 6 3%Z [[(0, 1)]; [(2, 1); (4, 1)]].
Definition eb_vals (r : res (option (bvec nat))) : option (list (option nat)) :=
  match r with Ok (Some w) => Some (map (vget w) (seq 0 (vsize w))) | _ => None end.
Definition eb_row (i : nat) (r : res (option (lil nat))) : option (list (option nat)) :=
  match r with Ok (Some M) => Some (map (mget M i) (seq 0 (ncols M))) | _ => None end.

Example C41_example_hypotheses :
  wfm eb_G /\ wfv eb_none /\ wfv eb_roots /\ wfm eb_roots_m /\
  forallb (fun u => forallb (fun v => match mget eb_G u v with Some g => ztrue g | None => true end)
    (seq 0 6)) (seq 0 6) = true.
Proof.
  repeat split; try reflexivity; repeat constructor.
Qed.

Example C41_example :
  eb_vals (bfs_level ztrue 7 eb_G 0 eb_none) =
    Some [Some 1; Some 2; Some 2; Some 3; Some 4; None] /\
  eb_vals (bfs_level_masked ztrue 7 eb_G eb_roots eb_none) =
    Some [Some 1; Some 2; Some 2; Some 3; Some 4; None] /\
  eb_vals (bfs_level_masked_v2 ztrue 7 eb_G eb_roots eb_none) =
    Some [Some 1; Some 2; Some 2; Some 3; Some 4; None] /\
  eb_row 1 (batch_bfs_level_masked ztrue 7 eb_G eb_roots_m (lil_new 2 6)) =
    Some [None; Some 2; Some 1; Some 2; Some 1; None] /\
  eb_row 1 (bfs_level_m ztrue 7 eb_G eb_roots_m (lil_new 2 6)) =
    Some [None; Some 2; Some 1; Some 2; Some 1; None].
Proof. repeat split; vm_compute; reflexivity. Qed.

(** ** C42.  The parents form a tree of shortest paths: the source is its own parent and
    every other reached vertex has the least of the vertices from which a shortest path
    enters it. *)
Theorem C42_bfs_parents :
  forall (T : Type) (G : lil T) (N n source : nat) (parents : bvec nat),
    wfm G -> nrows G = N -> ncols G = N ->
    source < N -> wfv0 parents -> vsize parents = N -> N < n ->
    exists p, bfs n G source parents = Ok (Some p) /\ wfv p /\ vsize p = N /\
      forall v q, v < N ->
        (vget p v = Some q <->
         (v = source /\ q = source) \/ best_parent (edge G) (eq source) q v).
Proof. intros. apply bfs_ok; auto. Qed.
Print Assumptions C42_bfs_parents.

(** In particular exactly the reachable vertices have one. *)
Theorem C42_bfs_reaches :
  forall (T : Type) (G : lil T) (N n source : nat) (parents : bvec nat),
    wfm G -> nrows G = N -> ncols G = N ->
    source < N -> wfv0 parents -> vsize parents = N -> N < n ->
    exists p, bfs n G source parents = Ok (Some p) /\
      forall v, v < N -> (vget p v <> None <-> reachable (edge G) (eq source) v).
Proof. intros. eapply bfs_reaches; eauto. Qed.
Print Assumptions C42_bfs_reaches.

Example C42_example :
  wfv0 eb_none /\
  eb_vals (bfs 7 eb_G 0 eb_none) = Some [Some 0; Some 0; Some 0; Some 1; Some 3; None].
Proof. repeat split; vm_compute; reflexivity. Qed.

(** ** C58.  [bfs_level] ends on every graph.  False: on the graph
    0 -> 1, 1 <-> 2 whose edge 0 -> 1 stores the value 0, vertices 1 and 2 stay in the
    wavefront with the value false and get the level 0, which the mask takes for unvisited. *)
Definition ez_G : lil Z := mkLil 3 3 3%Z [[(1, 0%Z)]; [(2, 1%Z)]; [(1, 1%Z)]].
Definition ez_none : bvec nat := mkVec 3 0%Z (repeat 0 3) (repeat false 3).

Definition ez_w1 : bvec bool := mkVec 3 1%Z [true; false; false] [false; true; false].
Definition ez_w2 : bvec bool := mkVec 3 1%Z [true; false; false] [false; false; true].
Definition ez_l : bvec nat := mkVec 3 3%Z [1; 0; 0] [true; true; true].

Lemma ez_step d :
  bfs_level_body ztrue ez_G (ez_w1, ez_l, d) = Ok (ez_w2, ez_l, S d) /\
  bfs_level_body ztrue ez_G (ez_w2, ez_l, d) = Ok (ez_w1, ez_l, S d).
Proof.
  unfold bfs_level_body.
  assert (E : forall w, w = ez_w1 \/ w = ez_w2 ->
    apply_v (fun b : bool => S d * (if b then 1 else 0)) btrue idc
      (Acc Nat.add idc idc) vnomask MERGE ez_l w = Ok ez_l).
  { intros w [-> | ->]; cbv -[Nat.mul]; rewrite !Nat.mul_0_r; reflexivity. }
  rewrite !E by auto. cbn [bind]. split; vm_compute; reflexivity.
Qed.

Lemma ez_loop n d :
  mwhile n (fun s => has_vals (vnvals (fst (fst s)))) (bfs_level_body ztrue ez_G)
    (ez_w1, ez_l, d) = Ok None /\
  mwhile n (fun s => has_vals (vnvals (fst (fst s)))) (bfs_level_body ztrue ez_G)
    (ez_w2, ez_l, d) = Ok None.
Proof.
  revert d. induction n as [|n IH]; intro d; [split; reflexivity|].
  destruct (ez_step d) as [E1 E2]. cbn [mwhile fst].
  change (has_vals (vnvals ez_w1)) with true. change (has_vals (vnvals ez_w2)) with true. cbv iota.
  rewrite E1, E2. cbn [bind]. split; apply IH.
Qed.

Theorem C58_bfs_level_terminates_refuted :
  exists (G : lil Z) (levels : bvec nat),
    wfm G /\ nrows G = 3 /\ ncols G = 3 /\
    wfv levels /\ vsize levels = 3 /\ (forall v, vget levels v = None) /\
    forall n, bfs_level ztrue n G 0 levels = Ok None.
Proof.
  exists ez_G, ez_none. split; [repeat split; try reflexivity; repeat constructor|].
  split; [reflexivity|]. split; [reflexivity|]. split; [repeat split; reflexivity|].
  split; [reflexivity|]. split; [intro v; do 4 (destruct v as [|v]; [reflexivity|]); reflexivity|].
  intros [|[|[|[|n]]]]; try reflexivity.
  transitivity (r <- mwhile (S n) (fun s => has_vals (vnvals (fst (fst s))))
                       (bfs_level_body ztrue ez_G) (ez_w1, ez_l, 3) ;;
                Ok (option_map (fun s => snd (fst s)) r)).
  - reflexivity.
  - rewrite (proj1 (ez_loop (S n) 3)). reflexivity.
Qed.
Print Assumptions C58_bfs_level_terminates_refuted.

(** What remains: it ends when no stored value converts to false. *)
Theorem C58_bfs_level_terminates_partial :
  forall (T : Type) (tb : T -> bool) (G : lil T) (source : nat) (levels : bvec nat),
    wfm G -> nrows G = ncols G ->
    (forall u v g, mget G u v = Some g -> tb g = true) ->
    wfv levels -> vsize levels = nrows G -> (forall v, vget levels v = None) ->
    source < nrows G ->
    exists n r, bfs_level tb n G source levels = Ok (Some r).
Proof.
  intros T tb G source levels W Sq HT Wl Sl El Hs. exists (S (nrows G)).
  destruct (bfs_level_ok tb G (nrows G) W eq_refl (eq_sym Sq) HT (S (nrows G)) source levels)
    as (r & E & _); auto.
  exists r. exact E.
Qed.
Print Assumptions C58_bfs_level_terminates_partial.

(** ** C59.  The parents of the searches that start from a wavefront.  They compute with the
    indices converted to the graph's scalar type ([it], back [ti]; [tmin] is its minimum). *)
Theorem C59_bfs_wavefront :
  forall (T : Type) (G : lil T) (N n : nat) (it : nat -> T) (ti : T -> nat)
         (tmin tplus : T -> T -> T) (roots parents : bvec nat),
    wfm G -> nrows G = N -> ncols G = N -> N <> 0 ->
    (forall i, i < N -> ti (it i) = i) ->
    (forall i j, i < N -> j < N -> tmin (it i) (it j) = it (Nat.min i j)) ->
    wfv roots -> vsize roots = N -> wfv parents -> vsize parents = N -> N < n ->
    let R := fun u => vget roots u <> None in
    exists p, bfs_w it ti tmin tplus n G roots parents = Ok (Some p) /\ wfv p /\ vsize p = N /\
      forall v q, v < N ->
        (vget p v = Some q <-> (R v /\ q = v) \/ best_parent (edge G) R q v).
Proof.
  intros. apply bfs_w_ok; auto. intros i j Hi Hj. rewrite H4 by auto. f_equal. unfold nmin.
  destruct (Nat.ltb_spec i j); lia.
Qed.
Print Assumptions C59_bfs_wavefront.

Theorem C59_bfs_batch :
  forall (T : Type) (G : lil T) (N n : nat) (it : nat -> T) (ti : T -> nat)
         (tmin tplus : T -> T -> T) (roots parents : lil nat),
    wfm G -> nrows G = N -> ncols G = N ->
    (forall i, i < N -> ti (it i) = i) ->
    (forall i j, i < N -> j < N -> tmin (it i) (it j) = it (Nat.min i j)) ->
    wfm roots -> ncols roots = N -> wfm parents -> nrows parents = nrows roots ->
    ncols parents = N -> N < n ->
    exists p, bfs_batch it ti tmin tplus n G roots parents = Ok (Some p) /\
      wfm p /\ nrows p = nrows roots /\ ncols p = N /\
      forall r v q, r < nrows roots -> v < N ->
        (mget p r v = Some q <->
         (mget roots r v <> None /\ q = v) \/
         best_parent (edge G) (fun u => mget roots r u <> None) q v).
Proof.
  intros. apply bfs_batch_ok; auto. intros i j Hi Hj. rewrite H3 by auto. f_equal. unfold nmin.
  destruct (Nat.ltb_spec i j); lia.
Qed.
Print Assumptions C59_bfs_batch.

Example C59_example :
  eb_vals (bfs_w Z.of_nat Z.to_nat zmin Z.add 7 eb_G
    (mkVec 6 2%Z [0; 0; 1; 0; 1; 0] [false; false; true; false; true; false]) eb_none) =
    Some [None; Some 4; Some 2; Some 2; Some 4; None] /\
  eb_row 1 (bfs_batch Z.of_nat Z.to_nat zmin Z.add 7 eb_G eb_roots_m (lil_new 2 6)) =
    Some [None; Some 4; Some 2; Some 2; Some 4; None] /\
  (forall i, i < 6 -> Z.to_nat (Z.of_nat i) = i) /\
  (forall i j, i < 6 -> j < 6 -> zmin (Z.of_nat i) (Z.of_nat j) = Z.of_nat (Nat.min i j)).
Proof.
  split; [vm_compute; reflexivity|]. split; [vm_compute; reflexivity|].
  split; [intros; apply Nat2Z.id|]. intros i j _ _. unfold zmin. destruct (Z.ltb_spec (Z.of_nat i) (Z.of_nat j)); lia.
Qed.

(** Not for every scalar type: on a graph of [bool] every index but 0 turns into 1, the
    stored parents of the roots too. *)
Theorem C59_bfs_wavefront_bool_refuted :
  exists (G : lil bool) (roots parents p : bvec nat),
    wfm G /\ nrows G = 4 /\ ncols G = 4 /\ wfv roots /\ vsize roots = 4 /\
    wfv parents /\ vsize parents = 4 /\
    bfs_w (fun i => negb (i =? 0)) (fun b : bool => if b then 1 else 0) andb orb 5 G roots parents
      = Ok (Some p) /\
    vget roots 2 = Some 1 /\ vget p 2 = Some 1 /\ mget G 2 3 = Some true /\
    vget p 3 = Some 1 /\ mget G 1 3 = None.
Proof.
  exists (mkLil 4 4 1%Z [[]; []; [(3, true)]; []]),
         (mkVec 4 1%Z [0; 0; 1; 0] [false; false; true; false]),
         (mkVec 4 0%Z (repeat 0 4) (repeat false 4)).
  eexists. split; [repeat split; try reflexivity; repeat constructor|].
  do 2 (split; [reflexivity|]). split; [repeat split; reflexivity|]. split; [reflexivity|].
  split; [repeat split; reflexivity|]. split; [reflexivity|].
  split; [vm_compute; reflexivity|]. repeat split.
Qed.
Print Assumptions C59_bfs_wavefront_bool_refuted.
