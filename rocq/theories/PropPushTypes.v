(** Properties C177 and C178: maximum flow by push and relabel over the built-in integer types. *)
From Coq Require Import Lia.
From Verif Require Import Base ModelLil ModelVec ModelViews ModelAlgoBase ModelFlow ModelAlgebra ModelPush ModelPushTypes Spec SpecFlow
  SpecPushTypes ProofBase ProofLil ProofVec ProofViews ProofVis ProofFlow ProofPush ProofPushTypes PropPush.

(** ** C177: where the type holds the capacities at a vertex, the result is the maximum flow *)

(** [t] is a signed type, [uint32_t] or [uint64_t].  It must hold twice the number of vertices and, for each vertex,
    the sum of the capacities in and out.  Then nothing overflows, also in the flows of the opposite direction and
    the sums of all rows at the end, and the result is that of C73. *)
Theorem C177_push_relabel_types :
  forall (t : ctype) (G : lil Z) (N n source sink : nat),
    holds_negatives t -> wfm G -> nrows G = N -> ncols G = N -> (Z.of_nat N < 2 ^ 64)%Z ->
    source < N -> sink < N -> source <> sink ->
    (forall i j c, mget G i j = Some c -> (0 <= c)%Z) ->
    (2 * Z.of_nat N < tmax t)%Z ->
    (forall v, v < N -> (zsum N (fun j => capacity G v j + capacity G j v) <= tmax t)%Z) ->
    4 * (N + 1) * (N + 1) * (N + 1) <= n ->
    exists x, imaxflow_push_relabel t n G source sink = Ok (Some x) /\
      is_max_flow N (capacity G) source sink x.
Proof.
  intros t G N n source sink Ty WG RG CG HN Hs Ht Hst Hc Hi Hsum Hn.
  apply (ipush_relabel_ok t N G source sink); auto.
  intros u v _ _. unfold capacity. destruct (mget G u v) eqn:E; [eauto|lia].
Qed.
Print Assumptions C177_push_relabel_types.

(** The network of C73 with 8 bit signed and 32 bit unsigned integers; flows of both directions occur. *)
Example C177_example :
  holds_negatives (CInt true W8) /\ holds_negatives (CInt false W32) /\
  forallb (fun v => zsum 6 (fun j => capacity epr_G v j + capacity epr_G j v) <=? 127)%Z (seq 0 6) = true /\
  imaxflow_push_relabel (CInt true W8) 1372 epr_G 0 5 = Ok (Some 23%Z) /\
  imaxflow_push_relabel (CInt false W32) 1372 epr_G 0 5 = Ok (Some 23%Z).
Proof.
  split; [left; eauto|]. split; [right; auto|]. split; [vm_compute; reflexivity|]. split; vm_compute; reflexivity.
Qed.

(** ** C178: 8 and 16 bit unsigned integers *)

(** The flow 5 from 0 to 1 is stored as 2^bits - 5 from 1 to 0, and 0 - (2^bits - 5), computed in [int], is not positive: the
    way back to the source is not seen.  Vertex 1 keeps its excess and [discharge] does not end. *)
Definition epr_D : lil Z := mkLil 3 3 1%Z [[(1, 5%Z)]; []; []].

(** The state in which the position of vertex 1 is [k]. *)
Definition epr_X (t : ctype) (b : bool) (k : Z) : pr_state :=
  mkPr (mkLil 3 3 5%Z [[(0, 0%Z); (1, 5%Z); (2, 0%Z)]; [(0, (tmax t - 4)%Z)]; [(0, 0%Z)]])
    (mkVec 3 3%Z [(tmax t - 5)%Z; 5%Z; 0%Z] [true; true; true]) (mkVec 3 1%Z [3%Z; 0%Z; 0%Z] [true; false; false])
    (mkVec 3 (if b then 1 else 0)%Z [0%Z; k; 0%Z] [false; b; false]).
Definition unsigned_narrow (t : ctype) : Prop := t = CInt false W8 \/ t = CInt false W16.

Lemma epr_stuck t : unsigned_narrow t -> forall n, ipr_discharge t n epr_D 1 (epr_X t false 0) = Ok None.
Proof.
  intros Ty [|n]; [reflexivity|]. unfold ipr_discharge. cbn [mwhileM].
  change (at_v (pr_excess (epr_X t false 0)) 1) with (Ok 5%Z). cbn [bind Z.ltb Z.compare].
  assert (E : ipr_step t epr_D 1 (epr_X t false 0) = Ok (epr_X t true 1)) by (destruct Ty as [-> | ->]; vm_compute; reflexivity).
  rewrite E. cbn [bind].
  apply (cycle4 _ _ (epr_X t true 1) (epr_X t true 2) (epr_X t true 3) (epr_X t true 0));
    (split; [reflexivity|destruct Ty as [-> | ->]; vm_compute; reflexivity]).
Qed.
Lemma epr_run t n : unsigned_narrow t -> imaxflow_push_relabel t n epr_D 0 2 =
  (o <- ipr_main t n n epr_D [1] 0 (epr_X t false 0) ;;
   match o with
   | None => Ok None
   | Some x =>
       flows <- ipr_flows t (pr_F x) ;;
       h <- vec_hasElement flows 0 ;;
       r <- (if h : bool then vec_extractElement flows 0 else Ok (Ok 0%Z)) ;;
       r <- r ;;
       Ok (Some r)
   end).
Proof. intros [-> | ->]; reflexivity. Qed.

Theorem C178_push_relabel_ends_refuted :
  exists (G : lil Z) (source sink : nat),
    wfm G /\ nrows G = 3 /\ ncols G = 3 /\ source < 3 /\ sink < 3 /\ source <> sink /\
    (forall i j c, mget G i j = Some c -> (0 <= c)%Z) /\
    (forall v, v < 3 -> (zsum 3 (fun j => capacity G v j + capacity G j v) <= 5)%Z) /\
    is_max_flow 3 (capacity G) source sink 0%Z /\
    forall n t, t = CInt false W8 \/ t = CInt false W16 -> imaxflow_push_relabel t n G source sink = Ok None.
Proof.
  exists epr_D, 0, 2. split; [wf_mat|]. split; [reflexivity|]. split; [reflexivity|]. split; [lia|]. split; [lia|]. split; [lia|].
  assert (NN : forall i j c, mget epr_D i j = Some c -> (0 <= c)%Z).
  { intros i j c. destruct (Nat.lt_ge_cases i 3), (Nat.lt_ge_cases j 3).
    2, 3, 4: rewrite mget_oob by (try wf_mat; simpl; lia); discriminate.
    do 3 (destruct i as [|i]; [do 3 (destruct j as [|j]; [intro E; vm_compute in E; try discriminate; injection E as <-; lia|]); lia|]). lia. }
  assert (SM : forall v, v < 3 -> (zsum 3 (fun j => capacity epr_D v j + capacity epr_D j v) <= 5)%Z).
  { intros v Hv. do 3 (destruct v as [|v]; [vm_compute; discriminate|]). lia. }
  split; [exact NN|]. split; [exact SM|]. split.
  { destruct (C177_push_relabel_types (CInt true W8) epr_D 3 256 0 2) as (x & E & M); auto; try lia.
    - left; eauto.
    - wf_mat.
    - vm_compute. reflexivity.
    - intros v Hv. specialize (SM v Hv). change (tmax (CInt true W8)) with 127%Z. lia.
    - vm_compute in E. injection E as <-. exact M. }
  intros n t Ty. rewrite epr_run by auto. destruct n as [|n]; [reflexivity|].
  replace (ipr_main t (S n) (S n) epr_D [1] 0 (epr_X t false 0)) with (Ok (None : option pr_state)); [reflexivity|].
  symmetry. cbn [ipr_main].
  change (Z.of_nat 0 <? pr_last (nrows epr_D))%Z with true. cbv iota. cbn [nth_error].
  change (at_v (pr_height (epr_X t false 0)) 1) with (Ok 0%Z). cbn [bind].
  rewrite epr_stuck by auto. reflexivity.
Qed.
Print Assumptions C178_push_relabel_ends_refuted.
