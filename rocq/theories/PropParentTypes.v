(** C175, C176: the parent breadth first searches with graphs, wavefronts and parents of any scalar type. *)
From Coq Require Import ZArith Floats.SpecFloat.
From Verif Require Import Base ModelLil ModelVec ModelHelpers ModelBfs ModelAlgebra ModelFloat ModelFsssp ModelLevels ModelParentTypes
  Spec SpecGraph SpecLevels SpecParentTypes ProofParentTypes.

(** ** C175.  If the types hold the vertex numbers, the stored parents are exactly the specified ones. *)

(** [bfs(graph, source, parent_list)]: any graph type. *)
Theorem C175_bfs_parents :
  forall (T : Type) (pt : ltype) (G : lil T) (N n source : nat) (parents : bvec (sty (scalar_of pt))),
    indices_fit pt N ->
    wfm G -> nrows G = N -> ncols G = N ->
    source < N -> wfv0 parents -> vsize parents = N -> N < n ->
    exists p, pbfs (scalar_of pt) n G source parents = Ok (Some p) /\ wfv p /\ vsize p = N /\
      forall v x, v < N ->
        (vget p v = Some x <-> exists q, x = s_of (scalar_of pt) (Z.of_nat q) /\
           ((v = source /\ q = source) \/ best_parent (edge G) (eq source) q v)).
Proof. intros. apply pbfs_ok; auto. Qed.
Print Assumptions C175_bfs_parents.

(** [bfs(graph, wavefront, parent_list)]. *)
Theorem C175_bfs_wavefront :
  forall (gt wt pt : ltype) (N n : nat) (G : lil (sty (scalar_of gt)))
         (roots : bvec (sty (scalar_of wt))) (parents : bvec (sty (scalar_of pt))),
    indices_fit gt N -> indices_fit wt N -> indices_fit pt N ->
    wfm G -> nrows G = N -> ncols G = N -> N <> 0 ->
    wfv roots -> vsize roots = N -> wfv parents -> vsize parents = N -> N < n ->
    let R := fun u => vget roots u <> None in
    exists p, pbfs_w gt (scalar_of wt) (scalar_of pt) n G roots parents = Ok (Some p) /\ wfv p /\ vsize p = N /\
      forall v x, v < N ->
        (vget p v = Some x <-> exists q, x = s_of (scalar_of pt) (Z.of_nat q) /\
           ((R v /\ q = v) \/ best_parent (edge G) R q v)).
Proof. intros. apply pbfs_w_ok; auto. Qed.
Print Assumptions C175_bfs_wavefront.

(** [bfs_batch(graph, wavefronts, parent_list)]. *)
Theorem C175_bfs_batch :
  forall (gt wt pt : ltype) (N n : nat) (G : lil (sty (scalar_of gt)))
         (roots : lil (sty (scalar_of wt))) (parents : lil (sty (scalar_of pt))),
    indices_fit gt N -> indices_fit wt N -> indices_fit pt N ->
    wfm G -> nrows G = N -> ncols G = N ->
    wfm roots -> ncols roots = N ->
    wfm parents -> nrows parents = nrows roots -> ncols parents = N -> N < n ->
    exists p, pbfs_batch gt (scalar_of wt) (scalar_of pt) n G roots parents = Ok (Some p) /\
      wfm p /\ nrows p = nrows roots /\ ncols p = N /\
      forall r v x, r < nrows roots -> v < N ->
        (mget p r v = Some x <-> exists q, x = s_of (scalar_of pt) (Z.of_nat q) /\
           ((mget roots r v <> None /\ q = v) \/
            best_parent (edge G) (fun u => mget roots r u <> None) q v)).
Proof. intros. apply pbfs_batch_ok; auto. Qed.
Print Assumptions C175_bfs_batch.

(** The number stored is the parent: different vertices are stored as different values. *)
Theorem C175_values :
  forall (lt : ltype) (N i : nat), indices_fit lt N -> i < N ->
    s_to (scalar_of lt) (s_of (scalar_of lt) (Z.of_nat i)) = Z.of_nat i.
Proof. exact fits_below. Qed.
Print Assumptions C175_values.

(** Six vertices, edges 0-1, 2-3, 4-1, 3-5, 1-5: an [int8_t] graph, [float] wavefronts, [uint16_t] parents. *)
Definition i8 : ltype := LInt (CInt true W8).
Definition u16 : ltype := LInt (CInt false W16).
Definition ep_G : lil Z :=
  mkLil 6 6 5%Z [[(1, 1%Z)]; [(5, 1%Z)]; [(3, 1%Z)]; [(5, 1%Z)]; [(1, 1%Z)]; []].
Definition ep_roots : bvec fval :=
  mkVec 6 2%Z [f0; f0; f1 CFloat; f0; f1 CFloat; f0] [false; false; true; false; true; false].
Definition ep_none : bvec Z := mkVec 6 0%Z (repeat 0%Z 6) (repeat false 6).
Definition ep_vals (r : res (option (bvec Z))) : option (list (option Z)) :=
  match r with Ok (Some p) => Some (map (vget p) (seq 0 6)) | _ => None end.

Example C175_example :
  ep_vals (pbfs (scalar_of u16) 7 ep_G 2 ep_none) =
    Some [None; None; Some 2; Some 2; None; Some 3]%Z /\
  ep_vals (pbfs_w i8 (scalar_of (LFloat CFloat)) (scalar_of u16) 7 ep_G ep_roots ep_none) =
    Some [None; Some 4; Some 2; Some 2; Some 4; Some 1]%Z /\
  match pbfs_batch i8 (scalar_of (LFloat CFloat)) (scalar_of u16) 7 ep_G
          (mkLil 2 6 2%Z [[(0, f1 CFloat)]; [(2, f1 CFloat)]]) (lil_new 2 6) with
  | Ok (Some p) => map (fun r => map (mget p r) (seq 0 6)) [0; 1]
  | _ => []
  end = [[Some 0; Some 0; None; None; None; Some 1]; [None; None; Some 2; Some 2; None; Some 3]]%Z /\
  (wfm ep_G /\ wfv ep_roots /\ wfv ep_none) /\
  indices_fit i8 6 /\ indices_fit (LFloat CFloat) 6 /\ indices_fit u16 6.
Proof.
  split; [vm_compute; reflexivity|]. split; [vm_compute; reflexivity|]. split; [vm_compute; reflexivity|].
  split; [split; [repeat split; try reflexivity; repeat constructor|split; repeat split; reflexivity]|].
  repeat split; cbn; discriminate.
Qed.

(** ** C176.  The wavefront marks the roots with the value 1; its scalar type matters all the same.  With a [bool]
    wavefront (which holds the marks), graph and parents of [IndexType], the search enters vertex 3 from vertex 2 but
    stores the parent 1, which has no edge. *)
Definition ix64 : ltype := LInt (CInt false W64).
Theorem C176_bfs_wavefront_type_refuted :
  exists (G : lil Z) (roots : bvec Z) (parents p : bvec Z),
    wfm G /\ nrows G = 4 /\ ncols G = 4 /\ wfv roots /\ vsize roots = 4 /\
    (forall v x, vget roots v = Some x -> v = 2 /\ x = 1%Z) /\ vget roots 2 = Some 1%Z /\
    wfv parents /\ vsize parents = 4 /\
    pbfs_w ix64 (scalar_of (LInt CBool)) (scalar_of ix64) 5 G roots parents = Ok (Some p) /\
    vget p 3 = Some 1%Z /\ mget G 2 3 = Some 1%Z /\ mget G 1 3 = None.
Proof.
  exists (mkLil 4 4 1%Z [[]; []; [(3, 1%Z)]; []]),
         (mkVec 4 1%Z [0; 0; 1; 0]%Z [false; false; true; false]),
         (mkVec 4 0%Z (repeat 0%Z 4) (repeat false 4)).
  eexists. split; [repeat split; try reflexivity; repeat constructor|].
  do 2 (split; [reflexivity|]). split; [repeat split; reflexivity|]. split; [reflexivity|].
  split. { intros v x H. do 4 (destruct v as [|v]; [try discriminate H; injection H as <-; auto|]). destruct v; discriminate H. }
  split; [reflexivity|]. split; [repeat split; reflexivity|]. split; [reflexivity|].
  split; [vm_compute; reflexivity|]. repeat split.
Qed.
Print Assumptions C176_bfs_wavefront_type_refuted.

(** The batch too. *)
Theorem C176_bfs_batch_type_refuted :
  exists (G : lil Z) (roots : lil Z) (p : lil Z),
    wfm G /\ nrows G = 4 /\ ncols G = 4 /\ wfm roots /\ nrows roots = 1 /\ ncols roots = 4 /\
    (forall v x, mget roots 0 v = Some x -> v = 2 /\ x = 1%Z) /\ mget roots 0 2 = Some 1%Z /\
    pbfs_batch ix64 (scalar_of (LInt CBool)) (scalar_of ix64) 5 G roots (lil_new 1 4) = Ok (Some p) /\
    mget p 0 3 = Some 1%Z /\ mget G 2 3 = Some 1%Z /\ mget G 1 3 = None.
Proof.
  exists (mkLil 4 4 1%Z [[]; []; [(3, 1%Z)]; []]), (mkLil 1 4 1%Z [[(2, 1%Z)]]).
  eexists. split; [repeat split; try reflexivity; repeat constructor|].
  do 2 (split; [reflexivity|]). split; [repeat split; try reflexivity; repeat constructor|]. do 2 (split; [reflexivity|]).
  split. { intros v x H. do 4 (destruct v as [|v]; [try discriminate H; injection H as <-; auto|]). discriminate H. }
  split; [reflexivity|]. split; [vm_compute; reflexivity|]. repeat split.
Qed.
Print Assumptions C176_bfs_batch_type_refuted.
