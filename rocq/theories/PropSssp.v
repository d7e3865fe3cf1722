(** Properties of the shortest path algorithms: C43, C44, C45. *)
From Coq Require Import Lia.
From Verif Require Import Base ModelLil ModelVec ModelHelpers ModelViews ModelMul ModelElem
  ModelIndex ModelUtils ModelAlgoBase ModelSssp Spec SpecOps SpecPaths ProofPaths ProofSssp.

(** ** C43.  The initial [dist] gives the sources their initial distances. *)
Theorem C43_sssp :
  forall (G : lil Z) (dist : bvec Z) (N : nat),
    wfm G -> nrows G = N -> ncols G = N -> N <> 0 -> wfv dist -> vsize dist = N ->
    exists b d, sssp G dist = Ok (b, d) /\ wfv d /\ vsize d = N /\
      (b = true <-> ~ negative_cycle (mget G) (vget dist)) /\
      (b = false <-> negative_cycle (mget G) (vget dist)) /\
      (b = true -> forall v x, vget d v = Some x <-> shortest (mget G) (vget dist) v x).
Proof. intros. apply sssp_ok; auto. Qed.
Print Assumptions C43_sssp.

Theorem C43_batch_sssp :
  forall (G dists : lil Z) (N : nat),
    wfm G -> nrows G = N -> ncols G = N -> N <> 0 -> wfm dists -> ncols dists = N ->
    exists b d, batch_sssp G dists = Ok (b, d) /\
      wfm d /\ nrows d = nrows dists /\ ncols d = N /\
      (b = true <-> forall r, r < nrows dists -> ~ negative_cycle (mget G) (mget dists r)) /\
      (b = false <-> exists r, r < nrows dists /\ negative_cycle (mget G) (mget dists r)) /\
      (b = true -> forall r v x,
         mget d r v = Some x <-> shortest (mget G) (mget dists r) v x).
Proof. intros. apply batch_sssp_ok; auto. Qed.
Print Assumptions C43_batch_sssp.

(** With one source at distance 0 the results are the costs of cheapest walks. *)
Theorem C43_sssp_source :
  forall (G : lil Z) (dist : bvec Z) (N s : nat),
    wfm G -> nrows G = N -> ncols G = N -> wfv dist -> vsize dist = N -> s < N ->
    (forall v, vget dist v = if v =? s then Some 0%Z else None) ->
    (forall k v x m c, wwalk (mget G) s v k x -> wwalk (mget G) v v m c -> (0 <= c)%Z) ->
    exists d, sssp G dist = Ok (true, d) /\
      forall v x, vget d v = Some x <-> distance (mget G) s v x.
Proof.
  intros G dist N s W R C Wd Sd Hs Hd NN.
  destruct (C43_sssp G dist N) as (b & d & E & _ & _ & Hb & _ & H); auto; [lia|].
  assert (F : forall k v x, walk_from (mget G) (vget dist) k v x <-> wwalk (mget G) s v k x).
  { intros k v x. split.
    - intros (u & a & c & Hu & Hw & ->). rewrite Hd in Hu.
      destruct (Nat.eqb_spec u s); [|discriminate]. injection Hu as <-. subst. exact Hw.
    - intro Hw. exists s, 0%Z, x. rewrite Hd, Nat.eqb_refl. auto. }
  assert (b = true).
  { apply Hb. intros (k & v & x & m & c & H1 & H2 & H3). apply F in H1.
    specialize (NN k v x m c H1 H2). lia. }
  subst b. exists d. split; [exact E|]. intros v x. rewrite H by auto. unfold shortest, distance.
  split; intros ((k & Hk) & Hm); (split; [exists k; apply F; auto|]); intros j y Hy;
    apply (Hm j); apply F; auto.
Qed.
Print Assumptions C43_sssp_source.

(** 0 -4-> 1, 0 -2-> 2, 2 -(-1)-> 1, 1 -0-> 3, 4 -1-> 0; vertex 4 is not reachable. *)
Definition es_G : lil Z :=
  mkLil 5 5 5%Z [[(1, 4%Z); (2, 2%Z)]; [(3, 0%Z)]; [(1, (-1)%Z)]; []; [(0, 1%Z)]].
(** 1 -> 2 -> 1 costs -1. *)
Definition es_neg : lil Z :=
  mkLil 3 3 3%Z [[(1, 4%Z)]; [(2, 2%Z)]; [(1, (-3)%Z)]].
Definition es_d (n : nat) : bvec Z := mkVec n 1%Z (repeat 0%Z n) (true :: repeat false (n - 1)).
Definition es_vals (r : res (bool * bvec Z)) : option (bool * list (option Z)) :=
  match r with Ok (b, w) => Some (b, map (vget w) (seq 0 (vsize w))) | _ => None end.

Example C43_example :
  wfm es_G /\ wfv (es_d 5) /\
  es_vals (sssp es_G (es_d 5)) = Some (true, [Some 0; Some 1; Some 2; Some 1; None]%Z) /\
  match batch_sssp es_G (mkLil 2 5 2%Z [[(0, 0%Z)]; [(4, 0%Z)]]) with
  | Ok (b, d) => b = true /\
      map (mget d 1) (seq 0 5) = [Some 1; Some 2; Some 3; Some 2; Some 0]%Z
  | _ => False
  end.
Proof.
  split; [repeat split; try reflexivity; repeat constructor|]. split; [repeat split; reflexivity|].
  split; [vm_compute; reflexivity|]. vm_compute. auto.
Qed.

Example C43_example_negative :
  wfm es_neg /\ negative_cycle (mget es_neg) (vget (es_d 3)) /\
  match sssp es_neg (es_d 3) with Ok (b, _) => b = false | _ => False end.
Proof.
  split; [repeat split; try reflexivity; repeat constructor|]. split; [|vm_compute; reflexivity].
  exists 1, 1, 4%Z, 2, (-1)%Z. split; [|split; [|lia]].
  - apply walk_from_S. exists 0, 0%Z, 4%Z. split; [apply walk_from_0; reflexivity|]. split; reflexivity.
  - change (-1)%Z with (2 + -3)%Z. apply (wwalk_app _ 1 2 1 2%Z) with (m := 1); apply wwalk_edge; reflexivity.
Qed.

(** ** C44.  [filtered_sssp] computes the same, except that it drops a vertex newly reached at
    distance 0: such a vertex gets no distance. *)
Theorem C44_filtered_sssp_partial :
  forall (G : lil Z) (dist : bvec Z) (N : nat),
    wfm G -> nrows G = N -> ncols G = N -> N <> 0 -> wfv dist -> vsize dist = N ->
    (forall k v x, walk_from (mget G) (vget dist) (S k) v x -> x <> 0%Z) ->
    exists b d, filtered_sssp G dist = Ok (b, d) /\ wfv d /\ vsize d = N /\
      (b = true <-> ~ negative_cycle (mget G) (vget dist)) /\
      (b = false <-> negative_cycle (mget G) (vget dist)) /\
      (b = true -> forall v x, vget d v = Some x <-> shortest (mget G) (vget dist) v x).
Proof. intros. apply filtered_sssp_ok; auto. Qed.
Print Assumptions C44_filtered_sssp_partial.

(** Positive weights meet the condition. *)
Theorem C44_filtered_sssp_positive :
  forall (G : lil Z) (dist : bvec Z) (N : nat),
    wfm G -> nrows G = N -> ncols G = N -> N <> 0 -> wfv dist -> vsize dist = N ->
    (forall u v g, mget G u v = Some g -> (0 < g)%Z) ->
    (forall v x, vget dist v = Some x -> (0 <= x)%Z) ->
    exists d, filtered_sssp G dist = Ok (true, d) /\
      forall v x, vget d v = Some x <-> shortest (mget G) (vget dist) v x.
Proof.
  intros G dist N W R C N0 Wd Sd Pos Nn.
  assert (P : forall u v k c, wwalk (mget G) u v k c -> (Z.of_nat k <= c)%Z).
  { intros u v k c. induction 1 as [|v t k c g _ IH E]; [lia|]. apply Pos in E. lia. }
  destruct (C44_filtered_sssp_partial G dist N) as (b & d & E & _ & _ & Hb & _ & H); auto.
  - intros k v x (u & a & c & Hu & Hw & ->). apply Nn in Hu. apply P in Hw. lia.
  - assert (b = true); [|subst b; eauto]. apply Hb. intros (k & v & x & m & c & _ & H2 & H3).
    apply P in H2. lia.
Qed.
Print Assumptions C44_filtered_sssp_positive.

Theorem C44_filtered_sssp_refuted :
  exists (G : lil Z) (dist d : bvec Z),
    wfm G /\ nrows G = 2 /\ ncols G = 2 /\ wfv dist /\ vsize dist = 2 /\
    ~ negative_cycle (mget G) (vget dist) /\
    filtered_sssp G dist = Ok (true, d) /\
    shortest (mget G) (vget dist) 1 0%Z /\ vget d 1 = None.
Proof.
  exists (mkLil 2 2 1%Z [[(1, 0%Z)]; []]), (es_d 2). eexists.
  assert (E : forall u v g, mget (mkLil 2 2 1%Z [[(1, 0%Z)]; []]) u v = Some g -> g = 0%Z).
  { intros u v g. destruct u as [|[|[|u]]]; try discriminate.
    destruct v as [|[|v]]; try discriminate. intro H. injection H as <-. reflexivity. }
  assert (P : forall u v k c, wwalk (mget (mkLil 2 2 1%Z [[(1, 0%Z)]; []])) u v k c -> c = 0%Z).
  { intros u v k c. induction 1 as [|v t k c g _ IH Eg]; [auto|]. apply E in Eg. lia. }
  split; [repeat split; try reflexivity; repeat constructor|].
  do 2 (split; [reflexivity|]). split; [repeat split; reflexivity|]. split; [reflexivity|].
  split.
  { intros (k & v & x & m & c & _ & H2 & H3). apply P in H2. lia. }
  split; [vm_compute; reflexivity|]. split; [|reflexivity]. split.
  - exists 1. apply walk_from_S. exists 0, 0%Z, 0%Z.
    split; [apply walk_from_0; reflexivity|]. split; reflexivity.
  - intros k y (u & a & c & Hu & Hw & ->). apply P in Hw. subst c.
    destruct u as [|[|[|u]]]; try discriminate. injection Hu as <-. lia.
Qed.
Print Assumptions C44_filtered_sssp_refuted.

Example C44_example :
  es_vals (filtered_sssp es_G (es_d 5)) = Some (true, [Some 0; Some 1; Some 2; Some 1; None]%Z) /\
  match filtered_sssp es_neg (es_d 3) with Ok (b, _) => b = false | _ => False end.
Proof. split; vm_compute; reflexivity. Qed.

(** ** C45.  Without negative cycles [apsp] computes the distances of different vertices; the
    diagonal is 0 unless there is a self loop of positive weight. *)
Theorem C45_apsp :
  forall (G : lil Z) (N : nat),
    wfm G -> nrows G = N -> ncols G = N ->
    (forall v m c, wwalk (mget G) v v m c -> (0 <= c)%Z) ->
    exists D, apsp G = Ok D /\ wfm D /\ nrows D = N /\ ncols D = N /\
      (forall i j x, i <> j -> (mget D i j = Some x <-> distance (mget G) i j x)) /\
      (forall i, i < N -> (forall g, mget G i i = Some g -> (g <= 0)%Z) -> mget D i i = Some 0%Z).
Proof.
  intros G N W R C NN. destruct (apsp_ok G N W R C NN) as (D & E & WD & RD & CD & H1 & _ & H3).
  exists D. auto 10.
Qed.
Print Assumptions C45_apsp.

(** Without positive self loops the whole matrix is right. *)
Theorem C45_apsp_no_loops :
  forall (G : lil Z) (N : nat),
    wfm G -> nrows G = N -> ncols G = N ->
    (forall v m c, wwalk (mget G) v v m c -> (0 <= c)%Z) ->
    (forall i g, mget G i i = Some g -> (g <= 0)%Z) ->
    exists D, apsp G = Ok D /\
      forall i j x, i < N -> (mget D i j = Some x <-> distance (mget G) i j x).
Proof.
  intros G N W R C NN NL. destruct (C45_apsp G N W R C NN) as (D & E & _ & _ & _ & H1 & H2).
  exists D. split; [auto|]. intros i j x Hi. destruct (Nat.eq_dec i j) as [<-|]; [|auto].
  rewrite H2; eauto. split.
  - intro Hx. injection Hx as <-. split; [exists 0; constructor|]. intros k y Hy. eauto.
  - intros ((k & Hk) & Hm). apply NN in Hk. specialize (Hm 0 0%Z (walk_here _ _)). f_equal. lia.
Qed.
Print Assumptions C45_apsp_no_loops.

Theorem C45_apsp_diagonal_refuted :
  exists (G D : lil Z),
    wfm G /\ nrows G = 1 /\ ncols G = 1 /\
    (forall v m c, wwalk (mget G) v v m c -> (0 <= c)%Z) /\
    apsp G = Ok D /\ distance (mget G) 0 0 0%Z /\ mget D 0 0 = Some 5%Z.
Proof.
  exists (mkLil 1 1 1%Z [[(0, 5%Z)]]). eexists.
  assert (E : forall u v g, mget (mkLil 1 1 1%Z [[(0, 5%Z)]]) u v = Some g -> g = 5%Z).
  { intros u v g. destruct u as [|[|u]]; try discriminate. destruct v as [|v]; try discriminate.
    intro H. injection H as <-. reflexivity. }
  assert (P : forall u v k c, wwalk (mget (mkLil 1 1 1%Z [[(0, 5%Z)]])) u v k c -> (0 <= c)%Z).
  { intros u v k c. induction 1 as [|v t k c g _ IH Eg]; [lia|]. apply E in Eg. lia. }
  split; [repeat split; try reflexivity; repeat constructor|].
  do 2 (split; [reflexivity|]). split; [eauto|]. split; [vm_compute; reflexivity|].
  split; [|reflexivity]. split; [exists 0; constructor|eauto].
Qed.
Print Assumptions C45_apsp_diagonal_refuted.

Lemma es_edges u v g : mget es_G u v = Some g -> In (u, v, g)
  [(0, 1, 4%Z); (0, 2, 2%Z); (1, 3, 0%Z); (2, 1, (-1)%Z); (4, 0, 1%Z)].
Proof.
  do 5 (destruct u as [|u]; [do 4 (destruct v as [|v];
    [intro H; first [discriminate|injection H as <-]; simpl; tauto|]); discriminate|]).
  destruct u; discriminate.
Qed.

(** [h u] differs from [h v] by at most the weight of an edge: no cycle is negative. *)
Lemma es_nonneg v m c : wwalk (mget es_G) v v m c -> (0 <= c)%Z.
Proof.
  set (h := fun v => nth v [0; 1; 2; 1; -1]%Z 0%Z).
  enough (H : forall u v m c, wwalk (mget es_G) u v m c -> (h v <= h u + c)%Z).
  { intro Hw. apply H in Hw. lia. }
  clear. intros u v m c. induction 1 as [|v t k c g _ IH E]; [lia|].
  apply es_edges in E. simpl in E.
  repeat match type of E with _ \/ _ => destruct E as [E|E] end; try tauto;
    injection E as <- <- <-; unfold h in *; simpl in *; lia.
Qed.

Example C45_example :
  (forall v m c, wwalk (mget es_G) v v m c -> (0 <= c)%Z) /\
  (forall i g, mget es_G i i = Some g -> (g <= 0)%Z) /\
  match apsp es_G with
  | Ok D => map (mget D 0) (seq 0 5) = [Some 0; Some 1; Some 2; Some 1; None]%Z /\
            map (mget D 4) (seq 0 5) = [Some 1; Some 2; Some 3; Some 2; Some 0]%Z
  | _ => False
  end.
Proof.
  split; [exact es_nonneg|]. split; [|vm_compute; auto]. intros i g. do 6 (destruct i as [|i]; [discriminate|]). destruct i; discriminate.
Qed.
