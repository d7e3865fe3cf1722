(** Property C164, continued: the weight of the minimum spanning tree does not depend on the
    numbering of the vertices. *)
From Coq Require Import Lia.
From Verif Require Import Base ModelLil ModelVec ModelViews ModelMst Spec SpecGraph SpecMst SpecRelabel
  ProofLil ProofVec ProofViews ProofRelabel ProofRelabelMst PropMst.
Local Open Scope nat_scope.

(** [mst] starts at vertex 0, which is another vertex of the renumbered graph, and the trees may
    differ when weights are equal; the weight is the same.  The contents of [parents] do not matter. *)
Theorem C164_mst :
  forall (p q : nat -> nat) (G G' : lil Z) (N n : nat) (parents parents' : bvec nat),
    renumbered N p q G G' -> N <> 0 ->
    (forall i j, mget G i j = mget G j i) ->
    (forall v, v < N -> reachable (edge G) (fun u => u = 0) v) ->
    wfv0 parents -> vsize parents = N -> wfv0 parents' -> vsize parents' = N -> N < n ->
    exists x r r', mst n G parents = Ok (Some (x, r)) /\ mst n G' parents' = Ok (Some (x, r')).
Proof.
  intros p q G G' N n parents parents' RN Z S C W A W' A' Hn.
  destruct (C65_mst G N n parents) as (x & r & E & _ & _ & _ & _ & M & X); auto; try apply RN.
  destruct (C65_mst G' N n parents') as (x' & r' & E' & _ & _ & _ & _ & M' & X'); auto; try apply RN.
  { apply (move_symmetric N p q G G' RN S). }
  { apply (move_connected N p q G G' RN S Z C). }
  exists x, r, r'. split; [exact E|]. rewrite E'. do 3 f_equal.
  pose proof (move_minimum N p q G G' RN _ _ M M').
  pose proof (move_minimum N q p G' G (renumbered_sym _ _ _ _ _ RN) _ _ M' M). lia.
Qed.
Print Assumptions C164_mst.

(** A graph that is not connected is refused under every numbering. *)
Theorem C164_mst_disconnected :
  forall (p q : nat -> nat) (G G' : lil Z) (N n v : nat) (parents parents' : bvec nat),
    renumbered N p q G G' ->
    (forall i j, mget G i j = mget G j i) ->
    v < N -> ~ reachable (edge G) (fun u => u = 0) v ->
    wfv0 parents -> vsize parents = N -> wfv0 parents' -> vsize parents' = N -> N < n ->
    mst n G parents = Throw PanicException /\ mst n G' parents' = Throw PanicException.
Proof.
  intros p q G G' N n v parents parents' RN S Hv D W A W' A' Hn.
  destruct (move_disconnected N p q G G' RN S v Hv D) as (v' & Hv' & D').
  split.
  - apply (C65_mst_disconnected G N n parents v); auto; try apply RN. lia.
  - apply (C65_mst_disconnected G' N n parents' v'); auto; try apply RN; [lia|].
    apply (move_symmetric N p q G G' RN S).
Qed.
Print Assumptions C164_mst_disconnected.

(** The graph of [C65_example] with the vertices turned by one place. *)
Definition erm_p (u : nat) : nat := match u with 0 => 1 | 1 => 2 | 2 => 3 | _ => 0 end.
Definition erm_q (u : nat) : nat := match u with 0 => 3 | 1 => 0 | 2 => 1 | _ => 2 end.
Definition erm_G : lil Z :=
  mkLil 4 4 10%Z
    [[(1, 4%Z); (3, 4%Z)]; [(0, 4%Z); (2, 5%Z); (3, 3%Z)]; [(1, 5%Z); (3, (-2)%Z)];
     [(0, 4%Z); (1, 3%Z); (2, (-2)%Z)]].

Example C164_mst_example :
  renumbered 4 erm_p erm_q emst_G erm_G /\
  exists r r', mst 5 emst_G emst_p = Ok (Some (5%Z, r)) /\ mst 5 erm_G emst_p = Ok (Some (5%Z, r')) /\
    map (vget r) (seq 0 4) = [None; Some 2; Some 0; Some 2] /\
    map (vget r') (seq 0 4) = [None; Some 0; Some 3; Some 1].
Proof.
  split.
  - split; [split; intros u Hu; do 4 (destruct u as [|u]; [split; [unfold erm_p, erm_q; simpl; lia|reflexivity]|]); lia|].
    split; [wf_mat|]. do 2 (split; [reflexivity|]). split; [wf_mat|]. do 2 (split; [reflexivity|]).
    intros u v Hu Hv. do 4 (destruct u as [|u]; [do 4 (destruct v as [|v]; [reflexivity|]); lia|]). lia.
  - do 2 eexists. do 2 (split; [vm_compute; reflexivity|]). split; reflexivity.
Qed.

(** An isolated vertex: the last of one graph, the first of the other. *)
Example C164_mst_example_disconnected :
  renumbered 3 (fun u => match u with 0 => 1 | 1 => 2 | _ => 0 end) (fun u => match u with 0 => 2 | 1 => 0 | _ => 1 end)
    emst_D (mkLil 3 3 2%Z [[]; [(2, 5%Z)]; [(1, 5%Z)]]) /\
  mst 4 (mkLil 3 3 2%Z [[]; [(2, 5%Z)]; [(1, 5%Z)]]) (mkVec 3 0%Z [0; 0; 0] [false; false; false]) = Throw PanicException.
Proof.
  split; [|reflexivity].
  split; [split; intros u Hu; do 3 (destruct u as [|u]; [split; [lia|reflexivity]|]); lia|].
  split; [wf_mat|]. do 2 (split; [reflexivity|]). split; [wf_mat|]. do 2 (split; [reflexivity|]).
  intros u v Hu Hv. do 3 (destruct u as [|u]; [do 3 (destruct v as [|v]; [reflexivity|]); lia|]). lia.
Qed.
