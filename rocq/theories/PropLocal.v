(** Property C187: searches depend only on the part of the graph that they reach, and shortest distances
    are a fixed point. *)
From Coq Require Import Lia.
From Verif Require Import Base ModelLil ModelVec ModelAlgoBase ModelBfs ModelSssp Spec SpecGraph SpecPaths SpecMetrics
  ProofLil ProofVec ProofMonotone ProofLocal PropBfs PropSssp.
Local Open Scope nat_scope.

(** The levels do not depend on the edges that leave vertices that are not reached. *)
Theorem C187_bfs_level :
  forall (T : Type) (tb : T -> bool) (G G' : lil T) (N n source : nat) (levels : bvec nat),
    wfm G -> nrows G = N -> ncols G = N -> wfm G' -> nrows G' = N -> ncols G' = N ->
    (forall u v g, mget G u v = Some g -> tb g = true) ->
    (forall u v g, mget G' u v = Some g -> tb g = true) ->
    (forall u v, reachable (edge G) (eq source) u -> edge G u v = edge G' u v) ->
    wfv levels -> vsize levels = N -> (forall v, vget levels v = None) ->
    source < N -> N < n ->
    exists r r', bfs_level tb n G source levels = Ok (Some r) /\ bfs_level tb n G' source levels = Ok (Some r') /\
      forall v, v < N -> vget r v = vget r' v.
Proof.
  intros T tb G G' N n source levels W A B W' A' B' H H' L WL SL EL Hs Hn.
  destruct (C41_bfs_level T tb G N n source levels) as (r & E & _ & _ & P); auto.
  destruct (C41_bfs_level T tb G' N n source levels) as (r' & E' & _ & _ & P'); auto.
  exists r, r'. split; [exact E|]. split; [exact E'|]. intros v Hv.
  pose proof (local_distance (edge G) (edge G') (eq source) L) as X.
  assert (Y : forall x, vget r v = Some x <-> vget r' v = Some x).
  { intros x. rewrite P, P' by exact Hv. split; intros (d & Q & Z); exists d; (split; [exact Q|]); now apply X. }
  destruct (vget r v) as [a|]; [symmetry; now apply Y|].
  destruct (vget r' v) as [a|]; [|reflexivity]. now apply Y.
Qed.
Print Assumptions C187_bfs_level.

(** Neither do the flag and the distances of sssp. *)
Theorem C187_sssp :
  forall (G G' : lil Z) (dist : bvec Z) (N : nat),
    wfm G -> nrows G = N -> ncols G = N -> wfm G' -> nrows G' = N -> ncols G' = N -> N <> 0 ->
    wfv dist -> vsize dist = N ->
    (forall u v, reachable (edge G) (fun s => vget dist s <> None) u -> mget G u v = mget G' u v) ->
    exists b d d', sssp G dist = Ok (b, d) /\ sssp G' dist = Ok (b, d') /\
      (b = true -> forall v, vget d v = vget d' v).
Proof.
  intros G G' dist N W A B W' A' B' Z0 WD SD L.
  destruct (C43_sssp G dist N) as (b & d & R1 & _ & _ & T1 & F1 & P1); auto.
  destruct (C43_sssp G' dist N) as (b' & d' & R2 & _ & _ & T2 & F2 & P2); auto.
  set (P := reachable (edge G) (fun s => vget dist s <> None)) in *.
  assert (PS : forall u v g, P u -> mget G u v = Some g -> P v).
  { intros u v g (k & K) E. exists (S k), u. split; [exact K|]. unfold edge. now rewrite E. }
  assert (PD : forall u a, vget dist u = Some a -> P u).
  { intros u a E. exists 0. simpl. congruence. }
  pose proof (local_negative (mget G) (mget G') P PS L (vget dist) PD) as X.
  assert (Eb : b' = b).
  { destruct b, b'; auto; exfalso.
    - apply (proj1 T1 eq_refl), X, F2. reflexivity.
    - apply (proj1 T2 eq_refl), X, F1. reflexivity. }
  subst b'. exists b, d, d'. split; [exact R1|]. split; [exact R2|]. intros Hb v.
  assert (Y : forall x, vget d v = Some x <-> vget d' v = Some x).
  { intros x. rewrite (P1 Hb), (P2 Hb). now apply (local_shortest (mget G) (mget G') P PS L). }
  destruct (vget d v) as [a|]; [symmetry; now apply Y|].
  destruct (vget d' v) as [a|]; [|reflexivity]. now apply Y.
Qed.
Print Assumptions C187_sssp.

(** The distances are at most the initial ones, satisfy the triangle inequality for every edge, and a
    second run with them returns them. *)
Theorem C187_sssp_again :
  forall (G : lil Z) (dist d : bvec Z) (N : nat),
    wfm G -> nrows G = N -> ncols G = N -> N <> 0 -> wfv dist -> vsize dist = N ->
    sssp G dist = Ok (true, d) ->
    (forall v x, vget dist v = Some x -> exists y, vget d v = Some y /\ (y <= x)%Z) /\
    (forall u v a g, vget d u = Some a -> mget G u v = Some g ->
       exists y, vget d v = Some y /\ (y <= a + g)%Z) /\
    exists d', sssp G d = Ok (true, d') /\ forall v, vget d' v = vget d v.
Proof.
  intros G dist d N W A B Z0 WD SD R.
  destruct (C43_sssp G dist N) as (b & d1 & R1 & Wd & Sd & T1 & _ & P1); auto.
  rewrite R in R1. injection R1 as <- <-. specialize (P1 eq_refl).
  assert (WB : forall u v g, mget G u v = Some g -> u < N /\ v < N) by (intros u v g; now apply mget_bound).
  assert (DB : forall v x, vget dist v = Some x -> v < N).
  { intros u a Ha. destruct (Nat.lt_ge_cases u N); auto. rewrite vget_oob in Ha by (try apply WD; lia). discriminate. }
  assert (NC : ~ negative_cycle (mget G) (vget dist)) by now apply T1.
  split; [|split].
  - intros v x. now apply (again_below N (mget G) (vget dist) (vget d)).
  - intros u v a g. now apply (again_closed N (mget G) (vget dist) (vget d)).
  - destruct (C43_sssp G d N) as (b & d' & R2 & _ & _ & T2 & _ & P2); auto.
    assert (b = true) by (apply T2; now apply (again_negative (mget G) (vget dist) (vget d))). subst b.
    exists d'. split; [exact R2|]. intros v. specialize (P2 eq_refl).
    assert (Y : forall x, vget d' v = Some x <-> vget d v = Some x).
    { intros x. rewrite P2. now apply (again_shortest N (mget G) (vget dist) (vget d)). }
    destruct (vget d' v) as [a|]; [symmetry; now apply Y|].
    destruct (vget d v) as [a|]; [|reflexivity]. now apply Y.
Qed.
Print Assumptions C187_sssp_again.

(** The result of apsp is at most the weights, satisfies the triangle inequality, and apsp of it is the
    same. *)
Theorem C187_apsp_again :
  forall (G : lil Z) (N : nat),
    wfm G -> nrows G = N -> ncols G = N -> no_negative_cycle (mget G) ->
    (forall i g, mget G i i = Some g -> (g <= 0)%Z) ->
    exists D D', apsp G = Ok D /\ apsp D = Ok D' /\
      (forall u v g, mget G u v = Some g -> exists c, mget D u v = Some c /\ (c <= g)%Z) /\
      (forall u t v a b, mget D u t = Some a -> mget D t v = Some b ->
         exists c, mget D u v = Some c /\ (c <= a + b)%Z) /\
      forall u v, u < N -> mget D' u v = mget D u v.
Proof.
  intros G N W A B NN NL.
  destruct (C45_apsp G N W A B NN) as (D & E & WD & AD & BD & _ & Diag).
  destruct (C45_apsp_no_loops G N W A B NN NL) as (D1 & E1 & HD). rewrite E in E1. injection E1 as <-.
  assert (GB : forall u v g, mget G u v = Some g -> u < N /\ v < N) by (intros u v g; now apply mget_bound).
  assert (DB : forall u v g, mget D u v = Some g -> u < N /\ v < N) by (intros u v g; now apply mget_bound).
  assert (HD' : forall u v x, u < N -> (mget D u v = Some x <-> distance (mget G) u v x)) by (intros; now apply HD).
  destruct (C45_apsp_no_loops D N WD AD BD) as (D' & E' & HD2).
  - exact (closure_nonneg N (mget G) (mget D) NN DB HD').
  - intros i g Hg. destruct (DB i i g Hg) as (Hi & _). rewrite (Diag i Hi) in Hg; [injection Hg as <-; lia|].
    intros h. apply NL.
  - exists D, D'. split; [exact E|]. split; [exact E'|]. split; [|split].
    + intros u v g. exact (closure_below N (mget G) (mget D) GB NN HD' u v g).
    + intros u t v a b. exact (closure_triangle N (mget G) (mget D) GB NN DB HD' u t v a b).
    + intros u v Hu.
      assert (Y : forall x, mget D' u v = Some x <-> mget D u v = Some x).
      { intros x. rewrite HD2 by exact Hu. exact (closure_distance N (mget G) (mget D) GB NN DB HD' u v x Hu). }
      destruct (mget D' u v) as [a|]; [symmetry; now apply Y|].
      destruct (mget D u v) as [a|]; [|reflexivity]. now apply Y.
Qed.
Print Assumptions C187_apsp_again.

(** From 0 the vertices 0, 1 and 2 are reached; the graphs differ in the edges of 3, and the second has a
    negative cycle there. *)
Definition elo_G : lil Z := mkLil 4 4 4%Z [[(1, 4%Z); (2, 1%Z)]; []; [(1, (-2)%Z)]; [(0, 5%Z)]].
Definition elo_H : lil Z := mkLil 4 4 5%Z [[(1, 4%Z); (2, 1%Z)]; []; [(1, (-2)%Z)]; [(2, 7%Z); (3, (-1)%Z)]].
Definition elo_dist : bvec Z := mkVec 4 1%Z [0; 0; 0; 0]%Z [true; false; false; false].

Lemma elo_reach : forall u, reachable (edge elo_G) (fun s => vget elo_dist s <> None) u -> u < 3.
Proof.
  intros u (k & H). revert u H. induction k as [|k IH]; simpl; intros u.
  - do 4 (destruct u as [|u]; [cbn; lia || congruence|]). destruct u; cbn; congruence.
  - intros (t & K & E). apply IH in K. do 3 (destruct t as [|t]; [do 4 (destruct u as [|u]; [cbn in E; lia || discriminate|]); destruct u; discriminate|]). lia.
Qed.
Example C187_example :
  (forall u v, reachable (edge elo_G) (fun s => vget elo_dist s <> None) u -> mget elo_G u v = mget elo_H u v) /\
  match sssp elo_G elo_dist, sssp elo_H elo_dist with
  | Ok (b, d), Ok (b', d') => b = true /\ b' = true /\
      map (vget d) (seq 0 4) = [Some 0; Some (-1); Some 1; None]%Z /\ map (vget d') (seq 0 4) = map (vget d) (seq 0 4) /\
      match sssp elo_G d with Ok (b2, d2) => b2 = true /\ map (vget d2) (seq 0 4) = map (vget d) (seq 0 4) | _ => False end
  | _, _ => False
  end.
Proof.
  split.
  - intros u v H. apply elo_reach in H. do 3 (destruct u as [|u]; [reflexivity|]). lia.
  - vm_compute. repeat split.
Qed.

Lemma elo_up : forall u v k c, wwalk (mget elo_G) u v k c -> u = v /\ k = 0 /\ c = 0%Z \/ u <> v.
Proof.
  assert (X : forall u v k c, wwalk (mget elo_G) u v k c ->
    k = 0 /\ u = v /\ c = 0%Z \/ k <> 0 /\ (u = 3 /\ v <> 3 \/ u = 0 /\ (v = 1 \/ v = 2) \/ u = 2 /\ v = 1)).
  { intros u v k c. induction 1 as [|v t k c g _ IH E]; [left; auto|]. right. split; [lia|].
    do 4 (destruct v as [|v]; [do 4 (destruct t as [|t]; [cbn in E; discriminate || lia|]); destruct t; discriminate|]).
    destruct v; discriminate. }
  intros u v k c H. apply X in H. lia.
Qed.
Example C187_apsp_example :
  no_negative_cycle (mget elo_G) /\ (forall i g, mget elo_G i i = Some g -> (g <= 0)%Z) /\
  match apsp elo_G with
  | Ok D => map (fun u => map (mget D u) (seq 0 4)) (seq 0 4) =
      [[Some 0; Some (-1); Some 1; None]; [None; Some 0; None; None];
       [None; Some (-2); Some 0; None]; [Some 5; Some 4; Some 6; Some 0]]%Z
  | _ => False
  end.
Proof.
  split; [|split].
  - intros v k c H. apply elo_up in H. lia.
  - intros i g. do 4 (destruct i as [|i]; [cbn; discriminate|]). destruct i; discriminate.
  - vm_compute. reflexivity.
Qed.
