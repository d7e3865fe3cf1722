(** Properties C82 to C88: the algorithms of the C API specification's appendix. *)
From Coq Require Import Lia QArith Qcanon.
From Verif Require Import Base ModelLil ModelVec ModelHelpers ModelViews ModelUtils ModelIndex ModelAlgoBase ModelRank ModelBc
  ModelBfs ModelMis ModelTriangle ModelAppendix
  Spec SpecOps SpecGraph SpecRank SpecBc SpecMis SpecTriangle
  ProofBase ProofLil ProofViews ProofVis ProofRank ProofBfs ProofParents ProofTriangle ProofMis ProofBc ProofAppendix ProofAppBc
  PropBfs PropMis PropTriangle PropBc.
Local Open Scope nat_scope.

(** ** C82: breadth first searches *)

(** Levels, as in C41: the output is empty, the stored values count as true. *)
Theorem C82_appendix_bfs_level :
  forall (T : Type) (tb : T -> bool) (A : lil T) (N n src : nat) (v : bvec nat),
    wfm A -> nrows A = N -> ncols A = N ->
    (forall i j x, mget A i j = Some x -> tb x = true) ->
    wfv v -> vsize v = N -> (forall i, vget v i = None) -> src < N -> N <= n ->
    let right r := wfv r /\ vsize r = N /\
      forall i x, i < N ->
        (vget r i = Some x <-> exists d, x = S d /\ at_distance (edge A) (eq src) d i) in
    (exists r, bfs_level_appendixB1 tb n v A src = Ok (Some r) /\ right r) /\
    (exists r, bfs_level_appendixB2 tb n v A src = Ok (Some r) /\ right r).
Proof.
  intros T tb A N n src v WA RA CA TA Wv Sv Ev Hs Hn. split; apply lv_search_ok; auto.
  - intros k s. apply b1_step; auto.
  - intros k s. apply b2_step; auto.
Qed.
Print Assumptions C82_appendix_bfs_level.

(** Parents, as in C42: any contents of the output, any stored values. *)
Theorem C82_appendix_bfs_parent :
  forall (T : Type) (A : lil T) (N n src : nat) (parents : bvec nat),
    wfm A -> nrows A = N -> ncols A = N ->
    src < N -> wfv0 parents -> vsize parents = N -> N < n ->
    exists p, bfs_parent_appendixB3 n parents A src = Ok (Some p) /\ wfv p /\ vsize p = N /\
      forall v q, v < N ->
        (vget p v = Some q <-> (v = src /\ q = src) \/ best_parent (edge A) (eq src) q v).
Proof. intros. rewrite b3_bfs by (auto; lia). apply bfs_ok; auto. Qed.
Print Assumptions C82_appendix_bfs_parent.

(** The graph of C41_example_hypotheses. *)
Example C82_example :
  eb_vals (bfs_level_appendixB1 ztrue 6 eb_none eb_G 0) = Some [Some 1; Some 2; Some 2; Some 3; Some 4; None] /\
  eb_vals (bfs_level_appendixB2 ztrue 6 eb_none eb_G 0) = Some [Some 1; Some 2; Some 2; Some 3; Some 4; None] /\
  eb_vals (bfs_parent_appendixB3 7 eb_none eb_G 0) = Some [Some 0; Some 0; Some 0; Some 1; Some 3; None].
Proof. repeat split; vm_compute; reflexivity. Qed.

(** ** C83: the levels for every output vector and every graph *)

(** What the output holds on entry counts as already visited: with the level 5 stored at vertex 1
    of the path 0 -> 1 -> 2, vertex 2 is not reached. *)
Theorem C83_appendix_levels_refuted :
  exists (A : lil Z) (v r1 r2 : bvec nat),
    wfm A /\ nrows A = 3 /\ ncols A = 3 /\ (forall i j x, mget A i j = Some x -> ztrue x = true) /\
    wfv v /\ vsize v = 3 /\
    at_distance (edge A) (eq 0) 2 2 /\
    bfs_level_appendixB1 ztrue 9 v A 0 = Ok (Some r1) /\ vget r1 2 = None /\
    bfs_level_appendixB2 ztrue 9 v A 0 = Ok (Some r2) /\ vget r2 2 = None.
Proof.
  exists (mkLil 3 3 2%Z [[(1, 1%Z)]; [(2, 1%Z)]; []]), (mkVec 3 1%Z [0; 5; 0] [false; true; false]).
  do 2 eexists. split; [wf_mat|]. split; [reflexivity|]. split; [reflexivity|]. split.
  { intros i j x. destruct (Nat.lt_ge_cases i 3), (Nat.lt_ge_cases j 3).
    2, 3, 4: rewrite mget_oob by (try wf_mat; simpl; lia); discriminate.
    do 3 (destruct i as [|i]; [do 3 (destruct j as [|j]; [intro E; cbv in E; try discriminate; injection E as <-; reflexivity|]); lia|]). lia. }
  split; [wf_vec|]. split; [reflexivity|]. split.
  { split.
    - exists 1. split; [exists 0; split; reflexivity|reflexivity].
    - intros [|[|d]] Hd W; [discriminate W| |lia]. destruct W as (u & W & E). simpl in W. subst u. vm_compute in E. discriminate. }
  split; [vm_compute; reflexivity|]. split; [reflexivity|]. split; [vm_compute; reflexivity|]. reflexivity.
Qed.
Print Assumptions C83_appendix_levels_refuted.

(** With a stored value that counts as false the searches may run forever, on the graph of C58. *)
Definition ez_v : bvec nat := mkVec 3 1%Z [1; 0; 0] [true; false; false].
Lemma b1_ez_step d :
  b1_body ztrue ez_G (ez_w1, ez_v, d) = Ok (ez_w2, ez_v, S d) /\
  b1_body ztrue ez_G (ez_w2, ez_v, d) = Ok (ez_w1, ez_v, S d).
Proof. split; vm_compute; reflexivity. Qed.
Lemma b2_ez_step d :
  b2_body ztrue ez_G (ez_w1, ez_l, d) = Ok (ez_w2, ez_l, S d) /\
  b2_body ztrue ez_G (ez_w2, ez_l, d) = Ok (ez_w1, ez_l, S d).
Proof. split; vm_compute; reflexivity. Qed.
Lemma ez_forever (body : bvec bool * bvec nat * nat -> res (bvec bool * bvec nat * nat)) l :
  (forall d, body (ez_w1, l, d) = Ok (ez_w2, l, S d) /\ body (ez_w2, l, d) = Ok (ez_w1, l, S d)) ->
  forall n d, mwhile n lv_more body (ez_w1, l, d) = Ok None /\ mwhile n lv_more body (ez_w2, l, d) = Ok None.
Proof.
  intro H. induction n as [|n IH]; intro d; [split; reflexivity|]. destruct (H d) as (E1 & E2).
  cbn [mwhile]. change (lv_more (ez_w1, l, d)) with true. change (lv_more (ez_w2, l, d)) with true. cbv iota.
  rewrite E1, E2. cbn [bind]. split; apply IH.
Qed.
Theorem C83_appendix_levels_terminate_refuted :
  exists (A : lil Z) (v : bvec nat),
    wfm A /\ nrows A = 3 /\ ncols A = 3 /\ wfv v /\ vsize v = 3 /\ (forall i, vget v i = None) /\
    forall n, bfs_level_appendixB1 ztrue n v A 0 = Ok None /\ bfs_level_appendixB2 ztrue n v A 0 = Ok None.
Proof.
  exists ez_G, ez_none. split; [wf_mat|]. split; [reflexivity|]. split; [reflexivity|]. split; [wf_vec|].
  split; [reflexivity|]. split; [intro v; do 4 (destruct v as [|v]; [reflexivity|]); reflexivity|].
  intro n. split.
  - destruct n as [|[|n]]; try reflexivity.
    transitivity (r <- mwhile (S n) lv_more (b1_body ztrue ez_G) (ez_w2, ez_v, 2) ;; Ok (option_map (fun s => snd (fst s)) r)).
    + reflexivity.
    + rewrite (proj2 (ez_forever _ _ b1_ez_step (S n) 2)). reflexivity.
  - destruct n as [|[|n]]; try reflexivity.
    transitivity (r <- mwhile (S n) lv_more (b2_body ztrue ez_G) (ez_w2, ez_l, 2) ;; Ok (option_map (fun s => snd (fst s)) r)).
    + reflexivity.
    + rewrite (proj2 (ez_forever _ _ b2_ez_step (S n) 2)). reflexivity.
Qed.
Print Assumptions C83_appendix_levels_terminate_refuted.

(** ** C84: betweenness from one source *)

(** Into a vector that stores nothing but zeros, [BC_appendixB4] writes the share of every vertex
    in the shortest paths from [src]; missing elements stand for 0. *)
Definition stored (r : bvec Qc) (v : nat) : Qc := match vget r v with Some x => x | None => 0%Qc end.
Theorem C84_appendix_bc_source :
  forall (T : Type) (ti : T -> Z) (tq : T -> Qc) (A : lil T) (N n src : nat) (delta : bvec Qc),
    wfm A -> nrows A = N -> ncols A = N -> src < N ->
    (forall u v x, mget A u v = Some x -> ti x = 1%Z /\ tq x = 1%Qc) ->
    wfv delta -> vsize delta = N -> (forall v, v < N -> stored delta v = 0%Qc) -> N <= n ->
    exists r, BC_appendixB4 ti tq n delta A src = Ok (Some r) /\ wfv r /\ vsize r = N /\
      forall v, v < N -> stored r v = dependency N (fun u w => is_some (mget A u w)) src v.
Proof.
  intros T ti tq A N n src delta WA RA CA Hs H1 Wd Sd Zd Hn.
  destruct (b4_ok ti tq A N src WA RA CA Hs H1 n delta (vget delta) Hn) as (r & f & E & (W & S & G) & D).
  - split; [exact Wd|]. split; [exact Sd|]. auto.
  - intros v Hv. apply Zd. exact Hv.
  - exists r. split; [exact E|]. split; [exact W|]. split; [exact S|]. intros v Hv. rewrite <- D by exact Hv.
    unfold stored, oq. rewrite (G v Hv). reflexivity.
Qed.
Print Assumptions C84_appendix_bc_source.
Definition eq_vals (r : res (option (bvec Qc))) : option (list Q) :=
  match r with Ok (Some w) => Some (map (fun v => this (stored w v)) (seq 0 (vsize w))) | _ => None end.
Definition ebc_none (N : nat) : bvec Qc := mkVec N 0%Z (repeat 0%Qc N) (repeat false N).
Example C84_example :
  wfv (ebc_none 8) /\ (forall v, v < 8 -> stored (ebc_none 8) v = 0%Qc) /\
  eq_vals (BC_appendixB4 idc zq 9 (ebc_none 8) (ebc_g 1%Z) 0) =
    Some (map (fun q => this (Q2Qc q)) [0; 4 # 3; 4 # 3; 4 # 3; 3; 1 # 2; 1 # 2; 0]%Q).
Proof.
  split; [wf_vec|]. split; [|vm_compute; reflexivity].
  intros v Hv. do 8 (destruct v as [|v]; [reflexivity|]). lia.
Qed.

(** ** C85: adding the contribution of another source to an existing vector, as documented *)

(** On the path 0 -> 1 -> 2 -> 3 vertex 1 lies on 2 of the paths from 0.  A second call adds 3: the
    values already in the vector enter the dependencies. *)
Theorem C85_appendix_bc_accumulates_refuted :
  exists (A : lil Z) (src v : nat) (delta0 delta1 delta2 : bvec Qc),
    wfm A /\ nrows A = 4 /\ ncols A = 4 /\ src < 4 /\ v < 4 /\
    (forall i j x, mget A i j = Some x -> x = 1%Z) /\
    wfv delta0 /\ vsize delta0 = 4 /\ (forall i, vget delta0 i = None) /\
    BC_appendixB4 idc zq 9 delta0 A src = Ok (Some delta1) /\ wfv delta1 /\ vsize delta1 = 4 /\
    BC_appendixB4 idc zq 9 delta1 A src = Ok (Some delta2) /\
    stored delta2 v <> (stored delta1 v + dependency 4 (fun u w => is_some (mget A u w)) src v)%Qc.
Proof.
  exists (epath 4), 0, 1, (ebc_none 4). do 2 eexists. split; [wf_mat|]. split; [reflexivity|]. split; [reflexivity|].
  split; [lia|]. split; [lia|]. split.
  { intros u v x. destruct (Nat.lt_ge_cases u 4), (Nat.lt_ge_cases v 4).
    2, 3, 4: rewrite mget_oob by (try wf_mat; simpl; lia); discriminate.
    do 4 (destruct u as [|u]; [do 4 (destruct v as [|v]; [intro E; cbv in E; try discriminate; injection E; auto|]); lia|]). lia. }
  split; [wf_vec|]. split; [reflexivity|].
  split; [intro v; do 5 (destruct v as [|v]; [reflexivity|]); reflexivity|].
  split; [vm_compute; reflexivity|]. split; [wf_vec|]. split; [reflexivity|]. split; [vm_compute; reflexivity|].
  intro E. apply (f_equal this) in E. vm_compute in E. discriminate.
Qed.
Print Assumptions C85_appendix_bc_accumulates_refuted.

(** ** C86: betweenness from a batch of sources *)

(** [BC_update_appendixB5] is right when there are as many sources as vertices, or when no source
    has an edge to another vertex; the vector's contents are overwritten. *)
Theorem C86_appendix_bc_batch_partial :
  forall (T : Type) (ti : T -> Z) (tq : T -> Qc) (A : lil T) (src : list nat) (N n : nat) (delta : bvec Qc),
    wfm A -> nrows A = N -> ncols A = N -> src <> [] -> Forall (fun s => s < N) src ->
    (forall u v x, mget A u v = Some x -> ti x = 1%Z /\ tq x = 1%Qc) ->
    wfv delta -> vsize delta = N -> S N < n ->
    length src = N \/ (forall s v, In s src -> v < N -> s <> v -> mget A s v = None) ->
    exists r, BC_update_appendixB5 ti tq n delta A src = Ok (Some r) /\ wfv r /\ vsize r = N /\
      forall v, v < N -> vget r v = Some (betweenness N (fun u w => is_some (mget A u w)) src v).
Proof.
  intros T ti tq A src N n delta WA RA CA Hp Hs H1 Wd Sd Hn Hc.
  destruct (b5_ok ti tq A src N WA RA CA Hp Hs H1 n delta (vget delta) Hc Hn) as (r & E & W & S & G).
  - split; [exact Wd|]. split; [exact Sd|]. auto.
  - exists r. split; [exact E|]. split; [exact W|]. split; [exact S|exact G].
Qed.
Print Assumptions C86_appendix_bc_batch_partial.

(** In all other cases it throws. *)
Theorem C86_appendix_bc_batch_throws :
  forall (T : Type) (ti : T -> Z) (tq : T -> Qc) (A : lil T) (src : list nat) (N n s v : nat) (delta : bvec Qc),
    wfm A -> nrows A = N -> ncols A = N -> Forall (fun s => s < N) src ->
    (forall u v x, mget A u v = Some x -> ti x = 1%Z /\ tq x = 1%Qc) ->
    length src <> N -> In s src -> v < N -> s <> v -> mget A s v <> None -> 0 < n ->
    BC_update_appendixB5 ti tq n delta A src = Throw DimensionException.
Proof.
  intros T ti tq A src N n s v delta WA RA CA Hs H1 Hl Is Hv Ne E Hn.
  apply (b5_throws ti tq A src N); try assumption. intro H. apply E, (H s v); assumption.
Qed.
Print Assumptions C86_appendix_bc_batch_throws.
Theorem C86_appendix_bc_batch_refuted :
  exists (A : lil Z) (src : list nat) (delta : bvec Qc),
    wfm A /\ nrows A = 8 /\ ncols A = 8 /\ src <> [] /\ Forall (fun s => s < 8) src /\ NoDup src /\
    (forall u v x, mget A u v = Some x -> x = 1%Z) /\ wfv delta /\ vsize delta = 8 /\
    forall n, 0 < n -> BC_update_appendixB5 idc zq n delta A src = Throw DimensionException.
Proof.
  exists (ebc_g 1%Z), [0; 4], (ebc_none 8). split; [apply ebc_g_wf|]. split; [reflexivity|]. split; [reflexivity|].
  split; [discriminate|]. split; [repeat constructor; lia|]. split; [repeat constructor; simpl; intuition lia|].
  split; [apply ebc_g_one|]. split; [wf_vec|]. split; [reflexivity|]. intros n Hn.
  apply (C86_appendix_bc_batch_throws Z idc zq (ebc_g 1%Z) [0; 4] 8 n 0 1); try reflexivity.
  - apply ebc_g_wf.
  - repeat constructor; lia.
  - intros u v x E. rewrite (ebc_g_one _ u v x E). split; reflexivity.
  - simpl. lia.
  - simpl. auto.
  - lia.
  - lia.
  - vm_compute. discriminate.
  - exact Hn.
Qed.
Print Assumptions C86_appendix_bc_batch_refuted.
Example C86_example :
  eq_vals (BC_update_appendixB5 idc zq 10 (ebc_none 8) (ebc_g 1%Z) (seq 0 8)) =
    Some (map (fun q => this (Q2Qc q)) [0; 4 # 3; 4 # 3; 4 # 3; 12; 5 # 2; 5 # 2; 0]%Q) /\
  eq_vals (BC_update_appendixB5 idc zq 10 (ebc_none 8) (ebc_g 1%Z) [7; 7]) = Some (repeat 0%Q 8).
Proof. split; vm_compute; reflexivity. Qed.

(** ** C87: maximal independent sets *)

(** The hypotheses on the random numbers are those of C47. *)
Theorem C87_appendix_mis :
  forall (T R : Type) (tb : T -> bool) (tr : T -> R) (r0 : R) (rplus : R -> R -> R)
    (rlt : R -> R -> bool) (rb : R -> bool) (draw : nat -> nat -> R -> R) (pos : R -> Prop)
    (A : lil T) (N n : nat) (iset : bvec bool),
    (forall x y, rlt x y = true -> rlt y x = false) ->
    (forall x y z, rlt x z = true -> rlt x y = true \/ rlt y z = true) ->
    (forall x, pos x -> rb x = true) ->
    (forall x y, pos x -> pos y -> pos (rplus x y)) ->
    (forall t i d, pos d -> pos (draw t i d)) ->
    wfm A -> nrows A = N -> ncols A = N -> N <> 0 ->
    (forall i j v, mget A i j = Some v -> tb v = true /\ pos (tr v)) ->
    (forall i j, edge A i j = edge A j i) -> (forall i, edge A i i = false) ->
    wfv0 iset -> vsize iset = N ->
    exists o, mis_appendixB6 tb tr r0 rplus rlt rb draw n iset A = Ok o /\
      (forall r, o = Some r ->
        wfv r /\ vsize r = N /\ (forall v x, vget r v = Some x -> x = true) /\
        maximal_independent N (edge A) (fun v => vget r v = Some true)) /\
      (N < n ->
       (forall t u v du dv, edge A u v = true -> pos du -> pos dv ->
          rlt (draw t u du) (draw t v dv) = true \/ rlt (draw t v dv) (draw t u du) = true) ->
       o <> None).
Proof.
  intros T R tb tr r0 rplus rlt rb draw pos A N n iset As Tr Pt Pp Pd WA RA CA HN HA Sy Ir Wi Si.
  assert (S : starts tb rlt rb draw A N pos (fun n => mis_appendixB6 tb tr r0 rplus rlt rb draw n iset A)).
  { apply b6_starts; auto. intros i j v E. eapply HA; eauto. }
  assert (HT : forall i j v, mget A i j = Some v -> tb v = true) by (intros i j v E; eapply HA; eauto).
  destruct (starts_ok tb r0 rlt rb draw A N WA RA CA HT Sy As Tr pos Pt Pd _ n S) as (o & E & H).
  exists o. split; [exact E|]. split; [exact H|]. intros Hn NT.
  destruct (starts_terminates tb r0 rlt rb draw A N WA RA CA HT As Tr pos Pt Pd _ n S Hn NT) as (r & E').
  rewrite E in E'. injection E' as ->. discriminate.
Qed.
Print Assumptions C87_appendix_mis.
(** The graph and the numbers of C47_example_theorems. *)
Definition emis6_run (draw : nat -> nat -> Z -> Z) (n : nat) : res (option (list nat)) :=
  r <- mis_appendixB6 ztrue idc 0%Z Z.add Z.ltb ztrue draw n
         (mkVec 5 1%Z (repeat true 5) [true; false; false; false; false]) emis_G ;;
  match r with Some r => ids <- get_vertex_IDs r ;; Ok (Some ids) | None => Ok None end.
Example C87_example :
  emis6_run emis_draw 6 = Ok (Some [1; 3; 4]) /\
  emis6_run (fun t i d => Z.of_nat (9 - i)) 6 = Ok (Some [0; 2; 4]) /\
  emis6_run (fun t i d => 1%Z) 6 = Ok None.
Proof. repeat split; vm_compute; reflexivity. Qed.

(** ** C88: triangles *)
Theorem C88_appendix_triangle_count :
  forall (N : nat) (G L : lil Z),
    simple_graph N G ->
    wfm L -> nrows L = N -> ncols L = N -> (forall i j, mget L i j = lower (mget G) i j) ->
    triangle_count_appendixB7 L = Ok (Z.of_nat (triangles N (edge G))).
Proof. intros. rewrite b7_masked by congruence. eapply triangle_count_masked_ok; eauto. Qed.
Print Assumptions C88_appendix_triangle_count.
(** The graph of C46_example. *)
Example C88_example : triangle_count_appendixB7 et_L = Ok 4%Z.
Proof. vm_compute. reflexivity. Qed.
