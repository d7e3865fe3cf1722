(** Shortest paths with [float] and [double] weights. *)
From Coq Require Import Lia ZArith Floats.SpecFloat.
From Verif Require Import Base ModelLil ModelVec ModelViews ModelAlgoBase ModelSssp ModelFloat ModelFsssp
  Spec SpecPaths SpecFloats SpecFpaths ProofVec ProofLil ProofRound ProofFloat ProofGpaths ProofFsssp ProofSssp ProofFint.

(** ** C110: the least rounded length.  Weights are finite numbers, initial distances are numbers. *)
Theorem C110_sssp :
  forall (t : ftype) (G : lil fval) (dist : bvec fval) (N : nat),
    wfm G -> nrows G = N -> ncols G = N -> N <> 0 -> wfv dist -> vsize dist = N ->
    (forall u v g, mget G u v = Some g -> value t g /\ finite g) ->
    (forall v x, vget dist v = Some x -> number t x) ->
    exists b d, fsssp t G dist = Ok (b, d) /\ wfv d /\ vsize d = N /\
      (forall v, vget d v = None <-> forall k x, ~ fwalk t (mget G) (vget dist) k v x) /\
      (forall v x, vget d v = Some x -> fshortest_of (fun k => k < N) t (mget G) (vget dist) v x) /\
      (b = true <-> forall v x, vget d v = Some x -> fshortest t (mget G) (vget dist) v x) /\
      ((forall u v g, mget G u v = Some g -> nonnegative g) -> b = true).
Proof. intros. apply fsssp_ok; auto. Qed.
Print Assumptions C110_sssp.

Theorem C110_batch_sssp :
  forall (t : ftype) (G dists : lil fval) (N : nat),
    wfm G -> nrows G = N -> ncols G = N -> N <> 0 -> wfm dists -> ncols dists = N ->
    (forall u v g, mget G u v = Some g -> value t g /\ finite g) ->
    (forall r v x, mget dists r v = Some x -> number t x) ->
    exists b d, fbatch_sssp t G dists = Ok (b, d) /\ wfm d /\ nrows d = nrows dists /\ ncols d = N /\
      (forall r v, r < nrows dists -> mget d r v = None <-> forall k x, ~ fwalk t (mget G) (mget dists r) k v x) /\
      (forall r v x, mget d r v = Some x -> fshortest_of (fun k => k < N) t (mget G) (mget dists r) v x) /\
      (b = true <-> forall r v x, mget d r v = Some x -> fshortest t (mget G) (mget dists r) v x) /\
      ((forall u v g, mget G u v = Some g -> nonnegative g) -> b = true).
Proof. intros. apply fbatch_ok; auto. Qed.
Print Assumptions C110_batch_sssp.

(** [filtered_sssp], when no walk has length 0 (see C44). *)
Theorem C110_filtered_sssp :
  forall (t : ftype) (G : lil fval) (dist : bvec fval) (N : nat),
    wfm G -> nrows G = N -> ncols G = N -> N <> 0 -> wfv dist -> vsize dist = N ->
    (forall u v g, mget G u v = Some g -> value t g /\ finite g) ->
    (forall v x, vget dist v = Some x -> number t x) ->
    (forall k v x, fwalk t (mget G) (vget dist) (S k) v x -> ~ feq x f0) ->
    exists b d, ffiltered_sssp t G dist = Ok (b, d) /\ wfv d /\ vsize d = N /\
      (b = true -> (forall v, vget d v = None <-> forall k x, ~ fwalk t (mget G) (vget dist) k v x) /\
         forall v x, vget d v = Some x -> fshortest t (mget G) (vget dist) v x) /\
      (b = false -> exists k v x, fwalk t (mget G) (vget dist) k v x /\
         forall i y, i < N -> fwalk t (mget G) (vget dist) i v y -> ~ fle y x) /\
      ((forall u v g, mget G u v = Some g -> nonnegative g) -> b = true).
Proof. intros. apply ffiltered_ok; auto. Qed.
Print Assumptions C110_filtered_sssp.

(** Positive weights and initial distances that are not negative. *)
Theorem C110_filtered_sssp_positive :
  forall (t : ftype) (G : lil fval) (dist : bvec fval) (N : nat),
    wfm G -> nrows G = N -> ncols G = N -> N <> 0 -> wfv dist -> vsize dist = N ->
    (forall u v g, mget G u v = Some g -> value t g /\ finite g /\ ~ fle g f0) ->
    (forall v x, vget dist v = Some x -> number t x /\ nonnegative x) ->
    exists d, ffiltered_sssp t G dist = Ok (true, d) /\ wfv d /\ vsize d = N /\
      (forall v, vget d v = None <-> forall k x, ~ fwalk t (mget G) (vget dist) k v x) /\
      forall v x, vget d v = Some x -> fshortest t (mget G) (vget dist) v x.
Proof.
  intros t G dist N WG RG CG N0 Wd Sd HG HD.
  destruct (C110_filtered_sssp t G dist N) as (b & d & E & W & S & H1 & _ & H3); auto.
  - intros u v g H. apply HG in H. tauto.
  - intros v x H. apply HD in H. tauto.
  - intros k v x H. apply (walk_positive t G (vget dist)) with (k := S k) (v := v) (x := x) in H; auto.
    apply H. lia.
  - assert (b = true); [|subst b; exists d; destruct (H1 eq_refl); auto].
    apply H3. intros u v g H. apply HG in H. apply (nle_nonnegative t); tauto.
Qed.
Print Assumptions C110_filtered_sssp_positive.

(** 0 -0.5-> 1, 1 -0.25-> 2, 0 -1-> 2, and a vertex that is not reachable. *)
Definition e110_half : fval := FDiv CDouble (f1 CDouble) (of_int CDouble 2).
Definition e110_G : lil fval :=
  mkLil 4 4 3%Z [[(1, e110_half); (2, f1 CDouble)]; [(2, FTimes CDouble e110_half e110_half)]; []; []].
Definition e110_d : bvec fval := mkVec 4 1%Z (repeat f0 4) [true; false; false; false].
Definition e110_vals (r : res (bool * bvec fval)) : option (bool * list (option fval)) :=
  match r with Ok (b, d) => Some (b, map (vget d) (seq 0 4)) | _ => None end.
Example C110_example :
  e110_vals (fsssp CDouble e110_G e110_d) =
    Some (true, [Some f0; Some e110_half; Some (FDiv CDouble (of_int CDouble 3) (of_int CDouble 4)); None]) /\
  e110_vals (ffiltered_sssp CDouble e110_G e110_d) = e110_vals (fsssp CDouble e110_G e110_d) /\
  (forall u v g, mget e110_G u v = Some g -> value CDouble g /\ finite g /\ ~ fle g f0) /\
  (forall v x, vget e110_d v = Some x -> number CDouble x /\ nonnegative x).
Proof.
  repeat split; try vm_compute; try reflexivity;
    match goal with
    | H : mget _ ?u ?v = Some _ |- _ =>
        do 5 (destruct u as [|u]; [do 5 (destruct v as [|v]; [vm_compute in H; try discriminate; injection H as <-; vm_compute; try reflexivity; try exact I; discriminate|]);
          vm_compute in H; destruct v; discriminate|]);
        unfold mget in H; simpl in H; destruct u; discriminate
    | H : vget _ ?v = Some _ |- _ =>
        do 5 (destruct v as [|v]; [vm_compute in H; try discriminate; injection H as <-; vm_compute; try reflexivity; discriminate|]);
        vm_compute in H; destruct v; discriminate
    | _ => idtac
    end.
Qed.

(** ** C111: integer weights of absolute value at most [M] on [N] vertices, with [M * (N + 1)] at most 2^24 ([float]) or
    2^53 ([double]): the same results as with integers. *)
Theorem C111_sssp_integers :
  forall (t : ftype) (G : lil Z) (FG : lil fval) (dist : bvec Z) (fdist : bvec fval) (N : nat) (M : Z),
    wfm G -> nrows G = N -> ncols G = N -> wfm FG -> nrows FG = N -> ncols FG = N ->
    wfv dist -> vsize dist = N -> wfv fdist -> vsize fdist = N -> N <> 0 ->
    (M * (Z.of_nat N + 1) <= 2 ^ prec t)%Z ->
    (forall u v, same_ints t (mget G u v) (mget FG u v)) -> (forall u v g, mget G u v = Some g -> Z.abs g <= M)%Z ->
    (forall v, same_ints t (vget dist v) (vget fdist v)) -> (forall v x, vget dist v = Some x -> Z.abs x <= M)%Z ->
    exists b d fd, sssp G dist = Ok (b, d) /\ fsssp t FG fdist = Ok (b, fd) /\
      wfv fd /\ vsize fd = N /\ (forall v, same_ints t (vget d v) (vget fd v)) /\
      (b = false <-> negative_cycle (mget G) (vget dist)) /\
      (b = true -> forall v, match vget fd v with
        | Some y => exists x, is_int t x y /\ shortest (mget G) (vget dist) v x
        | None => forall k x, ~ walk_from (mget G) (vget dist) k v x
        end).
Proof.
  intros t G FG dist fdist N M WG RG CG WF RF CF Wd Sd Wfd Sfd N0 HM HG BG HD BD.
  destruct (Z.lt_ge_cases M 0) as [Mneg|M0].
  - (* no weights and no distances *)
    destruct (fsssp_int t G FG N 0 WG RG CG WF RF CF ltac:(lia)) with (dist := dist) (fdist := fdist)
      as (b & d & fd & E1 & E2 & R); auto.
    + intros u v. specialize (HG u v). specialize (BG u v). destruct (mget G u v), (mget FG u v); try contradiction; auto.
      specialize (BG _ eq_refl). lia.
    + pose proof (prec_ok t). lia.
    + split; [auto|]. split; [auto|]. split; [auto|]. split; [auto|]. intro v. specialize (HD v). specialize (BD v).
      destruct (vget dist v), (vget fdist v); try contradiction; auto. specialize (BD _ eq_refl). lia.
    + exists b, d, fd. replace (0 * Z.of_nat N)%Z with 0%Z in R by lia.
      assert (P0 : (0 <= 2 ^ prec t)%Z) by (pose proof (prec_ok t); lia).
      apply (int_summary t G FG dist fdist N b d fd 0); auto.
  - destruct (fsssp_int t G FG N M WG RG CG WF RF CF ltac:(lia)) with (dist := dist) (fdist := fdist)
      as (b & d & fd & E1 & E2 & R); auto.
    + intros u v. specialize (HG u v). specialize (BG u v). destruct (mget G u v), (mget FG u v); try contradiction; auto.
      destruct HG. split; auto.
    + split; [auto|]. split; [auto|]. split; [auto|]. split; [auto|]. intro v. specialize (HD v). specialize (BD v).
      destruct (vget dist v), (vget fdist v); try contradiction; auto. destruct HD. split; auto.
    + exists b, d, fd. apply (int_summary t G FG dist fdist N b d fd (M * Z.of_nat N)); auto. nia.
Qed.
Print Assumptions C111_sssp_integers.

(** 0 -4-> 1, 0 -2-> 2, 2 -(-1)-> 1 with [float] values; weights up to 4 on 4 vertices. *)
Definition e111_G : lil Z := mkLil 4 4 3%Z [[(1, 4%Z); (2, 2%Z)]; []; [(1, (-1)%Z)]; []].
Definition e111_FG : lil fval :=
  mkLil 4 4 3%Z [[(1, of_int CFloat 4); (2, of_int CFloat 2)]; []; [(1, of_int CFloat (-1))]; []].
Definition e111_d : bvec Z := mkVec 4 1%Z (repeat 0%Z 4) [true; false; false; false].
Example C111_example :
  match sssp e111_G e111_d with Ok (b, d) => (b, map (vget d) (seq 0 4)) | _ => (false, []) end =
    (true, [Some 0; Some 1; Some 2; None]%Z) /\
  e110_vals (fsssp CFloat e111_FG e110_d) =
    Some (true, [Some f0; Some (of_int CFloat 1); Some (of_int CFloat 2); None]) /\
  (4 * (Z.of_nat 4 + 1) <= 2 ^ prec CFloat)%Z /\
  (forall u v, same_ints CFloat (mget e111_G u v) (mget e111_FG u v)).
Proof.
  split; [reflexivity|]. split; [reflexivity|]. split; [vm_compute; discriminate|]. intros u v.
  do 4 (destruct u as [|u]; [do 4 (destruct v as [|v]; [vm_compute; repeat split; discriminate|]); exact I|]).
  unfold mget. simpl. destruct u; exact I.
Qed.

(** ** C112: with floating point weights the flag does not tell whether a cycle of negative weight can be reached. *)

(** A loop of weight -1 at a vertex with the initial distance 2^54: the sum is rounded to 2^54 and the flag is true. *)
Theorem C112_negative_cycle_missed_refuted :
  exists (G : lil Z) (FG : lil fval) (dist : bvec Z) (fdist : bvec fval) fd,
    wfm G /\ nrows G = 1 /\ ncols G = 1 /\ wfm FG /\ wfv dist /\ wfv fdist /\
    (forall u v, same_ints CDouble (mget G u v) (mget FG u v)) /\
    (forall v, same_ints CDouble (vget dist v) (vget fdist v)) /\
    negative_cycle (mget G) (vget dist) /\ fsssp CDouble FG fdist = Ok (true, fd).
Proof.
  exists (mkLil 1 1 1%Z [[(0, (-1)%Z)]]), (mkLil 1 1 1%Z [[(0, of_int CDouble (-1))]]),
    (mkVec 1 1%Z [18014398509481984%Z] [true]), (mkVec 1 1%Z [of_int CDouble 18014398509481984] [true]).
  eexists. split; [repeat split; repeat constructor|]. split; [auto|]. split; [auto|]. split; [repeat split; repeat constructor|].
  split; [repeat split|]. split; [repeat split|]. split.
  { intros [|u] v; [destruct v as [|v]; [vm_compute; repeat split; discriminate|exact I]|unfold mget; simpl; destruct u; exact I]. }
  split; [intros [|[|v]]; [vm_compute; repeat split; discriminate|exact I|exact I]|]. split.
  - exists 0, 0, 18014398509481984%Z, 1, (-1)%Z. split; [exists 0, 18014398509481984%Z, 0%Z; repeat split; constructor|].
    split; [|lia]. apply (walk_step _ _ 0 0 0 0%Z (-1)%Z); [constructor|reflexivity].
  - vm_compute. reflexivity.
Qed.
Print Assumptions C112_negative_cycle_missed_refuted.

(** 0 -1-> 1 -(-1)-> 0 with the initial distance 2^53: 2^53 + 1 is rounded to 2^53, so that the cycle of weight 0 improves
    the distance and the flag is false. *)
Theorem C112_no_negative_cycle_refuted :
  exists (G : lil Z) (FG : lil fval) (dist : bvec Z) (fdist : bvec fval) fd,
    wfm G /\ nrows G = 2 /\ ncols G = 2 /\ wfm FG /\ wfv dist /\ wfv fdist /\
    (forall u v, same_ints CDouble (mget G u v) (mget FG u v)) /\
    (forall v, same_ints CDouble (vget dist v) (vget fdist v)) /\
    ~ negative_cycle (mget G) (vget dist) /\ fsssp CDouble FG fdist = Ok (false, fd).
Proof.
  exists (mkLil 2 2 2%Z [[(1, 1%Z)]; [(0, (-1)%Z)]]), (mkLil 2 2 2%Z [[(1, of_int CDouble 1)]; [(0, of_int CDouble (-1))]]),
    (mkVec 2 1%Z [9007199254740992%Z; 0%Z] [true; false]), (mkVec 2 1%Z [of_int CDouble 9007199254740992; f0] [true; false]).
  eexists. split; [repeat split; repeat constructor|]. split; [auto|]. split; [auto|]. split; [repeat split; repeat constructor|].
  split; [repeat split|]. split; [repeat split|]. split.
  { intros u v. do 2 (destruct u as [|u]; [do 2 (destruct v as [|v]; [vm_compute; repeat split; discriminate|]); exact I|]).
    unfold mget. simpl. destruct u; exact I. }
  split; [intros [|[|[|v]]]; [vm_compute; repeat split; discriminate|exact I|exact I|exact I]|]. split.
  - intros (k & v & x & m & c & _ & Hw & Hc).
    set (pot := fun v => match v with 1 => 1%Z | _ => 0%Z end).
    assert (H : forall v m c u, wwalk (mget (mkLil 2 2 2%Z [[(1, 1%Z)]; [(0, (-1)%Z)]])) u v m c -> c = (pot v - pot u)%Z).
    { clear. intros v m c u H. induction H as [|v y k c g H IH E]; [lia|]. subst c.
      destruct v as [|[|v]]; unfold mget in E; simpl in E.
      - destruct y as [|[|y]]; simpl in E; try discriminate. injection E as <-. simpl. lia.
      - destruct y as [|y]; simpl in E; try discriminate. injection E as <-. simpl. lia.
      - destruct v; discriminate. }
    apply H in Hw. lia.
  - vm_compute. reflexivity.
Qed.
Print Assumptions C112_no_negative_cycle_refuted.
