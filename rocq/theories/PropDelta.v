(** Properties C68 and C69: shortest paths by delta stepping. *)
From Coq Require Import Lia.
From Verif Require Import Base ModelLil ModelVec ModelViews ModelAlgoBase ModelDelta Spec SpecPaths
  ProofBase ProofLil ProofVec ProofViews ProofDelta.

(** ** C68: [sssp_delta_step] with positive weights *)

(** [n] bounds the number of times each loop is entered; [m] is the number of buckets. *)
Theorem C68_sssp_delta_step :
  forall (G : lil Z) (N src n m : nat) (delta W : Z) (paths : bvec Z),
    wfm G -> nrows G = N -> ncols G = N -> src < N -> (0 < delta)%Z ->
    (forall u v g, mget G u v = Some g -> (0 < g <= W)%Z) ->
    wfv0 paths -> vsize paths = N ->
    (0 <= W)%Z -> (Z.of_nat N * W < Z.of_nat m * delta)%Z -> m < n -> (Z.of_nat N * delta + 1 < Z.of_nat n)%Z ->
    exists d, sssp_delta_step n G delta src paths = Ok (Some d) /\ wfv d /\ vsize d = N /\
      forall v x, vget d v = Some x <-> distance (mget G) src v x.
Proof.
  intros G N src n m delta W paths WG RG CG Hs Hd HW Wp Sp W0 Hm Hmn Hn.
  apply (delta_step_ok G N src delta WG RG CG Hs Hd (fun u v g E => proj1 (HW u v g E)) n m W paths); auto.
  intros u v g E. apply (HW u v g E).
Qed.
Print Assumptions C68_sssp_delta_step.

(** The same without the bounds: the loops end, with the distances. *)
Theorem C68_sssp_delta_step_ends :
  forall (G : lil Z) (N src : nat) (delta : Z) (paths : bvec Z),
    wfm G -> nrows G = N -> ncols G = N -> src < N -> (0 < delta)%Z ->
    (forall u v g, mget G u v = Some g -> (0 < g)%Z) ->
    wfv0 paths -> vsize paths = N ->
    exists n0, forall n, n0 <= n ->
      exists d, sssp_delta_step n G delta src paths = Ok (Some d) /\ wfv d /\ vsize d = N /\
        forall v x, vget d v = Some x <-> distance (mget G) src v x.
Proof.
  intros G N src delta paths WG RG CG Hs Hd HW Wp Sp. destruct (weights_bounded G) as (W & W0 & HB).
  exists (N * Z.to_nat delta + N * Z.to_nat W + 3). intros n Hn.
  apply (C68_sssp_delta_step G N src n (N * Z.to_nat W + 1) delta W paths); auto; try nia.
  intros u v g E. split; [eapply HW; eauto|eapply HB; eauto].
Qed.
Print Assumptions C68_sssp_delta_step_ends.

(** 0 -4-> 1, 0 -2-> 2, 1 -1-> 3, 2 -1-> 1, 2 -9-> 3, 4 -1-> 0; with [delta = 2] the cheaper walk to
    1 enters a bucket that was already filled, and one edge is heavy. *)
Definition ed_G : lil Z :=
  mkLil 5 5 6%Z [[(1, 4%Z); (2, 2%Z)]; [(3, 1%Z)]; [(1, 1%Z); (3, 9%Z)]; []; [(0, 1%Z)]].
Definition ed_paths : bvec Z := mkVec 5 1%Z [7; 0; 0; 0; 0]%Z [true; false; false; false; false].
Example C68_example :
  wfm ed_G /\ wfv ed_paths /\
  (exists d, sssp_delta_step 60 ed_G 2 0 ed_paths = Ok (Some d) /\
     map (vget d) (seq 0 5) = [Some 0; Some 3; Some 2; Some 4; None]%Z) /\
  (exists d, sssp_delta_step 60 ed_G 1 4 ed_paths = Ok (Some d) /\
     map (vget d) (seq 0 5) = [Some 1; Some 4; Some 3; Some 5; Some 0]%Z).
Proof.
  split; [wf_mat|]. split; [repeat split; reflexivity|]. split; (eexists; split; [vm_compute; reflexivity|reflexivity]).
Qed.
Print Assumptions C68_example.

(** ** C69: with weights that may be zero *)

(** 0 -0-> 1 -5-> 2: vertex 2 gets no distance, although its distance is 5, because vertex 1 is
    requested with the value 0, which the mask [tReq] takes for false. *)
Definition ed_Z : lil Z := mkLil 3 3 2%Z [[(1, 0%Z)]; [(2, 5%Z)]; []].
Theorem C69_sssp_delta_step_zero_refuted :
  exists (G : lil Z) (src : nat) (delta : Z) (paths d : bvec Z) (v : nat) (x : Z),
    wfm G /\ nrows G = 3 /\ ncols G = 3 /\ src < 3 /\ (0 < delta)%Z /\
    (forall u v g, mget G u v = Some g -> (0 <= g)%Z) /\ wfv paths /\ vsize paths = 3 /\
    (forall n, 30 <= n -> sssp_delta_step n G delta src paths = Ok (Some d)) /\
    distance (mget G) src v x /\ vget d v = None.
Proof.
  exists ed_Z, 0, 2%Z, (mkVec 3 0%Z [0; 0; 0]%Z [false; false; false]).
  exists (mkVec 3 2%Z [0; 0; 0]%Z [true; true; false]), 2, 5%Z.
  split; [wf_mat|]. split; [reflexivity|]. split; [reflexivity|].
  split; [lia|]. split; [lia|].
  split.
  { intros u v g E. destruct u as [|[|[|u]]], v as [|[|[|v]]]; simpl in E; try discriminate;
      try (injection E as <-; lia); try (destruct u; discriminate). }
  split; [repeat split; reflexivity|]. split; [reflexivity|].
  split.
  { intros n Hn. do 30 (destruct n as [|n]; [exfalso; lia|]). reflexivity. }
  split; [|reflexivity].
  split.
  - exists 2. change 5%Z with ((0 + 0) + 5)%Z. apply (walk_step _ _ 1); [|reflexivity].
    apply (walk_step _ _ 0); [constructor|reflexivity].
  - intros k y H. inversion H as [|v t k' c g W E]; subst.
    assert (v = 1 /\ g = 5%Z) as (-> & ->).
    { destruct v as [|[|[|v]]]; simpl in E; try discriminate; [injection E as <-; auto|destruct v; discriminate]. }
    assert (0 <= c)%Z; [|lia]. clear - W. induction W as [|v t k c g W IH E]; [lia|].
    assert (0 <= g)%Z; [|lia].
    destruct v as [|[|[|v]]], t as [|[|[|t]]]; simpl in E; try discriminate;
      try (injection E as <-; lia); destruct v; discriminate.
Qed.
Print Assumptions C69_sssp_delta_step_zero_refuted.
