(** Property C65: minimum spanning trees. *)
From Coq Require Import Lia.
From Verif Require Import Base ModelLil ModelVec ModelViews ModelAlgoBase ModelMst Spec SpecGraph SpecMst
  ProofLil ProofVec ProofViews ProofMst.

(** The parent list returned is a spanning tree rooted at vertex 0, no spanning tree is lighter,
    and the number returned is its weight.  Weights of any sign. *)
Theorem C65_mst :
  forall (G : lil Z) (N n : nat) (parents : bvec nat),
    wfm G -> nrows G = N -> ncols G = N -> N <> 0 ->
    (forall i j, mget G i j = mget G j i) ->
    (forall v, v < N -> reachable (edge G) (fun u => u = 0) v) ->
    wfv0 parents -> vsize parents = N -> N < n ->
    exists x r, mst n G parents = Ok (Some (x, r)) /\ wfv r /\ vsize r = N /\
      vget r 0 = None /\ (forall v, 0 < v < N -> vget r v <> None) /\
      minimum_spanning_tree N (mget G) (parent_edges N (vget r)) /\
      x = tree_weight (mget G) (parent_edges N (vget r)).
Proof. intros. apply mst_ok; auto. Qed.
Print Assumptions C65_mst.

(** A graph that is not connected is reported with an exception. *)
Theorem C65_mst_disconnected :
  forall (G : lil Z) (N n : nat) (parents : bvec nat) (v : nat),
    wfm G -> nrows G = N -> ncols G = N -> N <> 0 ->
    (forall i j, mget G i j = mget G j i) ->
    v < N -> ~ reachable (edge G) (fun u => u = 0) v ->
    wfv0 parents -> vsize parents = N -> N < n ->
    mst n G parents = Throw PanicException.
Proof. intros. apply (mst_disconnected G N) with (v := v); auto. Qed.
Print Assumptions C65_mst_disconnected.

Theorem C65_mst_shapes :
  forall (G : lil Z) (n : nat) (parents : bvec nat),
    nrows G <> ncols G \/ nrows G <> vsize parents -> mst n G parents = Throw DimensionException.
Proof. intros. apply mst_throws; auto. Qed.
Print Assumptions C65_mst_shapes.

(** The square 0-1-2-3 with the diagonal 0-2 and a negative weight; the lightest edge at vertex 0
    is not the first one stored. *)
Definition emst_G : lil Z :=
  mkLil 4 4 10%Z
    [[(1, 5%Z); (2, 3%Z); (3, 4%Z)]; [(0, 5%Z); (2, (-2)%Z)]; [(0, 3%Z); (1, (-2)%Z); (3, 4%Z)];
     [(0, 4%Z); (2, 4%Z)]].
Definition emst_p : bvec nat := mkVec 4 1%Z [7; 7; 7; 7] [true; false; false; false].

Example C65_example :
  wfm emst_G /\ (forall i j, mget emst_G i j = mget emst_G j i) /\
  (forall v, v < 4 -> reachable (edge emst_G) (fun u => u = 0) v) /\
  wfv0 emst_p /\
  (exists r, mst 5 emst_G emst_p = Ok (Some (5%Z, r)) /\
     map (vget r) (seq 0 4) = [None; Some 2; Some 0; Some 2]).
Proof.
  split; [wf_mat|]. split.
  { intros i j.
    destruct (Nat.lt_ge_cases i 4), (Nat.lt_ge_cases j 4).
    2, 3, 4: rewrite !mget_oob by (try wf_mat; simpl; lia); reflexivity.
    do 4 (destruct i as [|i]; [do 4 (destruct j as [|j]; [reflexivity|]); lia|]). lia. }
  split.
  { intros v Hv. destruct v as [|[|[|[|]]]]; [exists 0|exists 1|exists 1|exists 1|lia]; simpl;
      [reflexivity| | |]; exists 0; split; reflexivity. }
  split; [repeat split; simpl; auto|].
  eexists. split; [vm_compute; reflexivity|]. reflexivity.
Qed.

(** Vertex 2 has no edge. *)
Definition emst_D : lil Z := mkLil 3 3 2%Z [[(1, 5%Z)]; [(0, 5%Z)]; []].

Example C65_example_disconnected :
  ~ reachable (edge emst_D) (fun u => u = 0) 2 /\
  mst 4 emst_D (mkVec 3 0%Z [0; 0; 0] [false; false; false]) = Throw PanicException.
Proof.
  split; [|reflexivity]. intros ([|k] & Wk); simpl in Wk; [discriminate|].
  destruct Wk as (u & _ & E). unfold edge in E.
  destruct u as [|[|[|u]]]; vm_compute in E; try discriminate.
  destruct u; discriminate.
Qed.
