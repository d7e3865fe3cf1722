(** Accuracy of shortest paths over [float] and [double]: C141. *)
From Coq Require Import Lia ZArith Floats.SpecFloat.
From Verif Require Import Base ModelLil ModelVec ModelHelpers ModelViews ModelAlgoBase ModelSssp ModelFloat ModelFsssp
  Spec SpecOps SpecPaths SpecFloats SpecFpaths SpecMstTypes ProofLil ProofVec ProofRound ProofFloat ProofFsssp ProofErrorPaths PropFsssp PropError
  SpecError SpecErrorPaths.

(** ** C141: weights and initial distances that are finite and not negative: the computed distances differ from the exact ones by at
    most (N - 1) u times these. *)
Lemma matrix_in (G : lil fval) N : wfm G -> nrows G = N -> ncols G = N -> forall u v g, mget G u v = Some g -> u < N /\ v < N.
Proof. intros W R C u v g E. apply mget_some_bounds in E; auto. lia. Qed.
Lemma vector_in (d : bvec fval) N : wfv d -> vsize d = N -> forall v a, vget d v = Some a -> v < N.
Proof. intros W S v a E. destruct (Nat.lt_ge_cases v N); auto. rewrite vget_oob in E; try discriminate; try apply W; lia. Qed.

Theorem C141_sssp :
  forall (t : ftype) (G : lil fval) (dist : bvec fval) (N : nat),
    wfm G -> nrows G = N -> ncols G = N -> N <> 0 -> wfv dist -> vsize dist = N ->
    (forall u v g, mget G u v = Some g -> plain t g) -> (forall v a, vget dist v = Some a -> plain t a) ->
    exists d, fsssp t G dist = Ok (true, d) /\ wfv d /\ vsize d = N /\
      forall v, near_shortest t N (mget G) (vget dist) v (vget d v).
Proof.
  intros t G dist N WG RG CG N0 Wd Sd HG HD.
  destruct (C110_sssp t G dist N) as (b & d & E & W & S & H1 & H2 & _ & H4); auto.
  { intros u v g H. apply HG in H. unfold plain in H. tauto. }
  { intros v x H. destruct (HD v x H) as (V & F & _). split; auto. intros ->. exact F. }
  rewrite H4 in E by (intros u v g H; apply (HG u v g H)).
  exists d. split; [exact E|]. split; [exact W|]. split; [exact S|]. intro v.
  apply near_all; auto; [apply (matrix_in G); auto|apply (vector_in dist); auto|].
  intro Hn. apply H1. exact Hn.
Qed.
Print Assumptions C141_sssp.

Theorem C141_batch_sssp :
  forall (t : ftype) (G dists : lil fval) (N : nat),
    wfm G -> nrows G = N -> ncols G = N -> N <> 0 -> wfm dists -> ncols dists = N ->
    (forall u v g, mget G u v = Some g -> plain t g) -> (forall r v a, mget dists r v = Some a -> plain t a) ->
    exists d, fbatch_sssp t G dists = Ok (true, d) /\ wfm d /\ nrows d = nrows dists /\ ncols d = N /\
      forall r v, r < nrows dists -> near_shortest t N (mget G) (mget dists r) v (mget d r v).
Proof.
  intros t G dists N WG RG CG N0 Wd Sd HG HD.
  destruct (C110_batch_sssp t G dists N) as (b & d & E & W & S & C & H1 & H2 & _ & H4); auto.
  { intros u v g H. apply HG in H. unfold plain in H. tauto. }
  { intros r v x H. destruct (HD r v x H) as (V & F & _). split; auto. intros ->. exact F. }
  rewrite H4 in E by (intros u v g H; apply (HG u v g H)).
  exists d. split; [exact E|]. split; [exact W|]. split; [exact S|]. split; [exact C|]. intros r v Hr.
  apply near_all; auto.
  - intros v' a H. apply (HD r v' a H).
  - apply (matrix_in G); auto.
  - intros v' a H. apply mget_some_bounds in H; auto. lia.
  - intro Hn. apply H1; auto.
Qed.
Print Assumptions C141_batch_sssp.

(** [filtered_sssp], positive weights (see C44). *)
Theorem C141_filtered_sssp :
  forall (t : ftype) (G : lil fval) (dist : bvec fval) (N : nat),
    wfm G -> nrows G = N -> ncols G = N -> N <> 0 -> wfv dist -> vsize dist = N ->
    (forall u v g, mget G u v = Some g -> plain t g /\ ~ fle g f0) -> (forall v a, vget dist v = Some a -> plain t a) ->
    exists d, ffiltered_sssp t G dist = Ok (true, d) /\ wfv d /\ vsize d = N /\
      forall v, near_shortest t N (mget G) (vget dist) v (vget d v).
Proof.
  intros t G dist N WG RG CG N0 Wd Sd HG HD.
  assert (ND : forall v x, vget dist v = Some x -> number t x /\ nonnegative x).
  { intros v x H. destruct (HD v x H) as (V & F & P). split; auto. split; auto. intros ->. exact F. }
  destruct (C110_filtered_sssp_positive t G dist N) as (d & E & W & S & H1 & H2); auto.
  { intros u v g H. apply HG in H. unfold plain in H. tauto. }
  destruct (C141_sssp t G dist N) as (d' & E' & W' & S' & H'); auto. { intros u v g H. apply (HG u v g H). }
  destruct (C110_sssp t G dist N) as (b & d'' & E'' & _ & _ & I1 & _ & I3 & _); auto.
  { intros u v g H. apply HG in H. unfold plain in H. tauto. } { intros v x H. apply ND in H. tauto. }
  rewrite E' in E''. inversion E''; subst b d''. destruct I3 as (I3 & _). specialize (I3 eq_refl).
  exists d. split; [exact E|]. split; [exact W|]. split; [exact S|]. intro v. specialize (H' v).
  destruct (vget d v) as [x|] eqn:Ex.
  - specialize (H2 v x Ex). destruct (vget d' v) as [y|] eqn:Ey.
    + specialize (I3 v y Ey). simpl in H'. destruct H' as (e & Se & Pe & He). exists e. split; [exact Se|]. split; [exact Pe|].
      intro B. destruct (He B) as (Fy & Ay).
      assert (HW : forall u v g, mget G u v = Some g -> value t g /\ finite g /\ nonnegative g) by (intros u v' g H; apply (HG u v' g H)).
      destruct H2 as ((k & _ & Fk) & Mx). destruct I3 as ((k' & _ & Fk') & My).
      destruct (fwalk_terms t (mget G) (vget dist) HW HD k v x Fk) as (Nx & _). destruct (fwalk_terms t (mget G) (vget dist) HW HD k' v y Fk') as (Ny & _).
      pose proof (Mx k' y I Fk') as L1. pose proof (My k x I Fk) as L2. rewrite (fle_sv t) in L1, L2 by auto.
      assert (Q : sv t x = sv t y) by lia.
      assert (Fx : finite x).
      { destruct (ProofError.finite_rep t y (proj1 Ny) Fy) as (_ & L). apply (ProofError.finite_sv t); auto. lia. }
      split; auto. rewrite ProofError.multiple_sv in * by auto. rewrite Q. exact Ay.
    + exfalso. destruct H2 as ((k & _ & Fk) & _). apply (proj1 (I1 v) Ey k x Fk).
  - destruct (vget d' v) as [y|] eqn:Ey; auto. exfalso. destruct (I3 v y Ey) as ((k & _ & Fk) & _). apply (proj1 (H1 v) Ex k y Fk).
Qed.
Print Assumptions C141_filtered_sssp.

(** Three edges of length 0.1 in [double]: the computed distance is 0.30000000000000004, not the exact distance 3 * 0.1. *)
Definition e141_G : lil fval := mkLil 4 4 3%Z [[(1, tenth)]; [(2, tenth)]; [(3, tenth)]; []].
Definition e141_d : bvec fval := mkVec 4 1%Z (repeat f0 4) [true; false; false; false].
Example C141_example :
  (forall u v g, mget e141_G u v = Some g -> plain CDouble g) /\ (forall v a, vget e141_d v = Some a -> plain CDouble a) /\
  wfm e141_G /\ wfv e141_d /\
  (2 * (U CDouble + 4) * (3 * multiple CDouble tenth) <= U CDouble * overflow_threshold CDouble)%Z /\
  exists x, e110_vals (fsssp CDouble e141_G e141_d) = Some (true, [Some f0; Some tenth; Some (FPlus CDouble tenth tenth); Some x]) /\
    multiple CDouble x <> (3 * multiple CDouble tenth)%Z.
Proof.
  split; [|split; [|split; [|split; [|split]]]].
  - intros u v g H. do 4 (destruct u as [|u]; [do 5 (destruct v as [|v]; [vm_compute in H; try discriminate; injection H as <-; repeat split|]);
      vm_compute in H; destruct v; discriminate|]). unfold mget in H. simpl in H. destruct u; discriminate.
  - intros v a H. destruct v as [|v]; [vm_compute in H; injection H as <-; repeat split|].
    do 4 (destruct v as [|v]; [vm_compute in H; discriminate|]). vm_compute in H. destruct v; discriminate.
  - repeat split; repeat constructor.
  - repeat split.
  - vm_compute. discriminate.
  - eexists. split; [vm_compute; reflexivity|vm_compute; discriminate].
Qed.
