(** Properties C179 and C180: maximum flow by push and relabel over [float] and [double]. *)
From Coq Require Import Lia ZArith Floats.SpecFloat.
From Verif Require Import Base ModelLil ModelVec ModelHelpers ModelViews ModelMul ModelElem ModelIndex ModelAlgoBase ModelFlow ModelAlgebra ModelOps ModelFloat ModelConv ModelPush ModelPushFloat Spec SpecFlow
  SpecRel SpecFloats SpecIntPaths ProofBase ProofLil ProofVec ProofViews ProofVis ProofFlow ProofFloat ProofConv ProofIntPaths ProofPush ProofPushFloat PropPush PropDeltaTypes.

(** ** C179: integer capacities *)

(** [t] is [float] or [double]: all integers up to 2^24 or 2^53 are exact.  For each vertex the sum of the capacities in and out must
    be at most that.  The largest number of the type stands for the excess of the source; subtracting capacities does not change
    it, so there is no condition on the sum out of the source besides (see C75 for the integer types). *)
Theorem C179_push_relabel_floats :
  forall (t : ftype) (G : lil Z) (G' : lil fval) (N n source sink : nat),
    mrel (fexactly t (2 ^ prec t)) G G' -> nrows G = N -> ncols G = N -> (Z.of_nat N < 2 ^ 64)%Z ->
    source < N -> sink < N -> source <> sink ->
    (forall i j c, mget G i j = Some c -> (0 <= c)%Z) ->
    (2 * Z.of_nat N + 1 <= 2 ^ prec t)%Z ->
    (forall v, v < N -> (zsum N (fun j => capacity G v j + capacity G j v) <= 2 ^ prec t)%Z) ->
    4 * (N + 1) * (N + 1) * (N + 1) <= n ->
    exists x x', fmaxflow_push_relabel t n G' source sink = Ok (Some x') /\ fexactly t (2 ^ prec t) x x' /\
      is_max_flow N (capacity G) source sink x.
Proof.
  intros t G G' N n source sink HG RG CG HN Hs Ht Hst Hc HP Hsum Hn. destruct HG as (WG & WG' & ER & EC & HG).
  destruct (fpush_relabel_ok t N G G' source sink) with (n := n) as (x & x' & E & FX & L & M); auto.
  - intros u v _ _. unfold capacity. destruct (mget G u v) eqn:E; [eauto|lia].
  - split; [auto|split; [congruence|split; [congruence|]]]. intros i j _ _. unfold fm, capacity. specialize (HG i j).
    destruct (mget G i j), (mget G' i j); try contradiction; [|apply FR_0].
    apply (FR_ex t (2 ^ prec t)); [lia|auto].
  - exists x, x'. split; [auto|split; [|auto]]. apply FR_ex; [lia|]. split; auto.
Qed.
Print Assumptions C179_push_relabel_floats.

(** The network of C73 with numbers of both types; the network of C75, in which the capacities out of the source overflow an 8 bit
    integer, does no harm. *)
Example C179_example :
  mrel (fexactly CFloat (2 ^ prec CFloat)) epr_G (lil_map (of_int CFloat) epr_G) /\
  forallb (fun v => zsum 6 (fun j => capacity epr_G v j + capacity epr_G j v) <=? 2 ^ prec CFloat)%Z (seq 0 6) = true /\
  fmaxflow_push_relabel CFloat 1372 (lil_map (of_int CFloat) epr_G) 0 5 = Ok (Some (of_int CFloat 23)) /\
  fmaxflow_push_relabel CDouble 1372 (lil_map (of_int CDouble) epr_G) 0 5 = Ok (Some (of_int CDouble 23)) /\
  fmaxflow_push_relabel CDouble 500 (lil_map (of_int CDouble) epr_H) 0 3 = Ok (Some (of_int CDouble 100)).
Proof.
  split; [|split; [|split; [|split]]; vm_compute; reflexivity].
  split; [wf_mat|]. split; [wf_mat|]. split; [reflexivity|]. split; [reflexivity|]. intros i j.
  destruct (Nat.lt_ge_cases i 6), (Nat.lt_ge_cases j 6).
  2, 3, 4: rewrite !mget_oob by (try wf_mat; simpl; lia); exact I.
  do 6 (destruct i as [|i]; [do 6 (destruct j as [|j]; [vm_compute; first [exact I | repeat split; discriminate]|]); lia|]). lia.
Qed.

(** ** C180: fractions *)

(** Vertex 3 gets 0.1 from vertex 1 and 0.2 from vertex 2 and has no other edge.  The sum is rounded up.  After 0.1 and
    0.2 went back, a small excess is left and no edge has a residual capacity: [discharge] does not end. *)
Definition epf_a (t : ftype) : fval := FDiv t (of_int t 1) (of_int t 10).
Definition epf_b (t : ftype) : fval := FDiv t (of_int t 2) (of_int t 10).
Definition epf_G (t : ftype) : lil fval := mkLil 5 5 4%Z [[(1, epf_a t); (2, epf_b t)]; [(3, epf_a t)]; [(3, epf_b t)]; []; []].

(** The state before the main loop. *)
Definition epf_X (t : ftype) : fpr_state :=
  mkFpr (mkLil 5 5 9%Z [[(0, S754_zero false); (1, epf_a t); (2, epf_b t); (3, S754_zero false); (4, S754_zero false)];
                      [(0, SFopp (epf_a t))]; [(0, SFopp (epf_b t))]; [(0, S754_zero false)]; [(0, S754_zero false)]])
    (mkVec 5 5%Z [fmax t; epf_a t; epf_b t; ModelFloat.f0; ModelFloat.f0] [true; true; true; true; true])
    (mkVec 5 1%Z [of_int t 5; ModelFloat.f0; ModelFloat.f0; ModelFloat.f0; ModelFloat.f0] [true; false; false; false; false])
    (mkVec 5 0%Z [ModelFloat.f0; ModelFloat.f0; ModelFloat.f0; ModelFloat.f0; ModelFloat.f0] [false; false; false; false; false]).

Lemma epf_run t n : fmaxflow_push_relabel t n (epf_G t) 0 4 =
  (o <- fpr_main t n n (epf_G t) [1; 2; 3] 0 (epf_X t) ;;
   match o with
   | None => Ok None
   | Some x =>
       flows <- vec_new ModelFloat.f0 5 ;;
       flows <- reduce idc (FPlus t) (FPlus t) btrue idc (NoAcc idc) vnomask MERGE flows (Mat (fpr_F x)) ;;
       r <- fat_v flows 0 ;;
       Ok (Some r)
   end).
Proof.
  unfold fmaxflow_push_relabel. change (nrows (epf_G t)) with 5. change (ncols (epf_G t)) with 5. cbv zeta.
  set (V0 := mkVec 5 0%Z (repeat ModelFloat.f0 5) (repeat false 5)).
  assert (E0 : vec_new ModelFloat.f0 5 = Ok V0) by reflexivity.
  set (X0 := mkVec 5 1%Z (fmax t :: repeat ModelFloat.f0 4) (true :: repeat false 4)).
  assert (E1 : vec_setElement V0 0 (of_int t (Z.of_nat 5)) = Ok (fpr_height (epf_X t))) by reflexivity.
  assert (E2 : vec_setElement V0 0 (fmax t) = Ok X0) by reflexivity.
  assert (E3 : mfor (seq 0 5) (fun i '(F, excess) => fpr_push t (epf_G t) F excess 0 i) (lil_new 5 5, X0) =
               Ok (fpr_F (epf_X t), fpr_excess (epf_X t))) by (destruct t; vm_compute; reflexivity).
  rewrite E0. cbn [bind]. rewrite E1. cbn [bind]. rewrite E2. cbn [bind]. rewrite E3. cbn [bind fst snd].
  change (filter (fun i => negb (i =? 0) && negb (i =? 4)) (seq 0 5)) with [1; 2; 3].
  change (mkFpr (fpr_F (epf_X t)) (fpr_excess (epf_X t)) (fpr_height (epf_X t)) V0) with (epf_X t). reflexivity.
Qed.

Theorem C180_push_relabel_ends_refuted :
  exists (G : ftype -> lil fval) (source sink : nat), forall t : ftype,
    wfm (G t) /\ nrows (G t) = 5 /\ ncols (G t) = 5 /\ source < 5 /\ sink < 5 /\ source <> sink /\
    (forall i j x, mget (G t) i j = Some x ->
       x = FDiv t (of_int t 1) (of_int t 10) \/ x = FDiv t (of_int t 2) (of_int t 10)) /\
    (forall i, mget (G t) i sink = None) /\
    forall n, fmaxflow_push_relabel t n (G t) source sink = Ok None.
Proof.
  exists epf_G, 0, 4. intro t. split; [unfold epf_G; wf_mat|].
  split; [reflexivity|]. split; [reflexivity|]. split; [lia|]. split; [lia|]. split; [lia|].
  split.
  { intros i j x. destruct (Nat.lt_ge_cases i 5), (Nat.lt_ge_cases j 5).
    2, 3, 4: rewrite mget_oob by (try (unfold epf_G; wf_mat); simpl; lia); discriminate.
    do 5 (destruct i as [|i]; [do 5 (destruct j as [|j]; [intro E; cbn in E; try discriminate; injection E as <-; (left; reflexivity) || (right; reflexivity)|]); lia|]). lia. }
  split.
  { intro i. do 5 (destruct i as [|i]; [reflexivity|]). apply mget_oob; [unfold epf_G; wf_mat|simpl; lia]. }
  intro n. rewrite epf_run.
  enough (E : fpr_main t n n (epf_G t) [1; 2; 3] 0 (epf_X t) = Ok None) by (rewrite E; reflexivity).
  destruct (main_rounds t 5 300 (epf_G t) [1; 2; 3] 0 (epf_X t)) as [[[l p] x]|] eqn:E1.
  2: { destruct t; vm_compute in E1; discriminate. }
  apply (main_rounds_none t 300 (epf_G t) 5 _ _ _ l p x E1).
  destruct (loop_rounds 60 (fun x => e <- fat_v (fpr_excess x) 3 ;; Ok (SFltb ModelFloat.f0 e)) (fpr_step t (epf_G t) 3) x) as [y|] eqn:E2.
  2: { destruct t; vm_compute in E1; injection E1 as <- <- <-; vm_compute in E2; discriminate. }
  apply (main_stuck t (epf_G t) l p x 3 60 5 y); auto;
    destruct t; vm_compute in E1; injection E1 as <- <- <-; vm_compute in E2; try injection E2 as <-; vm_compute; reflexivity.
Qed.
Print Assumptions C180_push_relabel_ends_refuted.
