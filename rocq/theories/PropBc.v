(** Properties C76 to C81: betweenness centrality. *)
From Coq Require Import Lia QArith Qcanon.
From Verif Require Import Base ModelLil ModelVec ModelHelpers ModelViews ModelUtils ModelIndex ModelAlgoBase ModelRank ModelBc
  Spec SpecOps SpecRank SpecBc ProofBase ProofLil ProofViews ProofIndex ProofVis ProofRc ProofRank ProofBcPaths ProofBc ProofBcVert ProofEbc.
Local Open Scope nat_scope.

(** ** C76: the batch functions compute the betweenness as seen from the sources *)

(** The edges are the stored elements, whose values must convert to 1.  The sources need not be
    distinct, and self loops are allowed.  The searches end after at most N + 1 rounds. *)
Theorem C76_betweenness_batch :
  forall (T : Type) (ti : T -> Z) (tq : T -> Qc) (A : lil T) (src : list nat) (N n : nat),
    wfm A -> nrows A = N -> ncols A = N -> src <> [] -> Forall (fun s => s < N) src ->
    (forall u v x, mget A u v = Some x -> ti x = 1%Z /\ tq x = 1%Qc) -> S N < n ->
    let edge := fun u v => is_some (mget A u v) in
    let result := Ok (Some (map (betweenness N edge src) (seq 0 N))) in
    bc_batch_alt_trans ti tq n A src = result /\ bc_batch_alt ti tq n A src = result /\
    bc_batch ti tq n A src = result /\ bc_batch_old ti tq n A src = result.
Proof.
  intros T ti tq A src N n WA RA CA Hp Hs H1 Hn. cbv zeta. split; [|split; [|split]].
  - apply bc_alt_trans_ok; auto.
  - apply bc_alt_ok; auto.
  - apply bc_batch_ok; auto.
  - apply bc_old_ok; auto.
Qed.
Print Assumptions C76_betweenness_batch.

(** The graph of the repository's tests, with a source given twice. *)
Definition ebc_g {T} (one : T) : lil T :=
  mkLil 8 8 12%Z [[(1, one); (2, one); (3, one)]; [(2, one); (4, one)]; [(4, one)]; [(2, one); (4, one)];
    [(5, one); (6, one)]; [(7, one)]; [(7, one)]; []].
Lemma ebc_g_wf {T} (one : T) : wfm (ebc_g one).
Proof. unfold ebc_g. wf_mat. Qed.
Lemma ebc_g_one {T} (one : T) u v x : mget (ebc_g one) u v = Some x -> x = one.
Proof.
  destruct (Nat.lt_ge_cases u 8), (Nat.lt_ge_cases v 8).
  2, 3, 4: rewrite mget_oob; [discriminate|apply ebc_g_wf|simpl; lia].
  do 8 (destruct u as [|u]; [do 8 (destruct v as [|v]; [intro E; cbv in E; try discriminate; injection E; auto|]); lia|]). lia.
Qed.
Example C76_example :
  wfm (ebc_g 1%Z) /\ (forall u v x, mget (ebc_g 1%Z) u v = Some x -> idc x = 1%Z /\ zq x = 1%Qc) /\
  match bc_batch_alt_trans idc zq 10 (ebc_g 1%Z) [0; 4; 0] with
  | Ok (Some l) => map (fun q => this q) l = map (fun q => this (Q2Qc q)) [0; 8 # 3; 8 # 3; 8 # 3; 6; 3 # 2; 3 # 2; 0]%Q
  | _ => False
  end.
Proof.
  split; [apply ebc_g_wf|]. split; [|vm_compute; reflexivity].
  intros u v x E. rewrite (ebc_g_one _ u v x E). split; reflexivity.
Qed.

(** ** C77: [vertex_betweenness_centrality] takes every vertex as a source *)
Theorem C77_betweenness_vertex :
  forall (graph : lil Qc) (N n : nat),
    wfm graph -> nrows graph = N -> ncols graph = N -> N <> 0 ->
    (forall u v x, mget graph u v = Some x -> x = 1%Qc) -> N < n ->
    vertex_betweenness_centrality Qcplus Qcminus Qcmult Qcinv qn qtrue n graph =
      Ok (Some (map (betweenness N (fun u v => is_some (mget graph u v)) (seq 0 N)) (seq 0 N))).
Proof. intros. apply vertex_bc_ok; auto. Qed.
Print Assumptions C77_betweenness_vertex.
Example C77_example :
  wfm (ebc_g 1%Qc) /\ (forall u v x, mget (ebc_g 1%Qc) u v = Some x -> x = 1%Qc) /\
  match vertex_betweenness_centrality Qcplus Qcminus Qcmult Qcinv qn qtrue 10 (ebc_g 1%Qc) with
  | Ok (Some l) => map (fun q => this q) l = map (fun q => this (Q2Qc q)) [0; 4 # 3; 4 # 3; 4 # 3; 12; 5 # 2; 5 # 2; 0]%Q
  | _ => False
  end.
Proof. split; [wf_mat|]. split; [apply ebc_g_one|vm_compute; reflexivity]. Qed.

(** ** C78: the version that stops after ten levels *)

(** It is right when no shortest path from a source has more than ten edges. *)
Theorem C78_betweenness_v2_shallow :
  forall (T : Type) (ti : T -> Z) (tq : T -> Qc) (A : lil T) (src : list nat) (N n : nat),
    wfm A -> nrows A = N -> ncols A = N -> src <> [] -> Forall (fun s => s < N) src ->
    (forall u v x, mget A u v = Some x -> ti x = 1%Z /\ tq x = 1%Qc) -> 10 < n ->
    let edge := fun u v => is_some (mget A u v) in
    shallow N edge 10 src ->
    bc_batch_alt_trans_v2 ti tq n A src = Ok (Some (map (betweenness N edge src) (seq 0 N))).
Proof. intros. apply bc_v2_ok; auto. Qed.
Print Assumptions C78_betweenness_v2_shallow.

(** A path of 12 edges: the vertices near the end are missing. *)
Definition epath (K : nat) : lil Z :=
  mkLil K K (Z.of_nat (K - 1)) (map (fun u => if S u <? K then [(S u, 1%Z)] else []) (seq 0 K)).
Theorem C78_betweenness_v2_refuted :
  exists (A : lil Z) (src : list nat) (l : list Qc),
    wfm A /\ nrows A = 13 /\ ncols A = 13 /\ src <> [] /\ Forall (fun s => s < 13) src /\
    (forall u v x, mget A u v = Some x -> x = 1%Z) /\
    bc_batch_alt_trans_v2 idc zq 20 A src = Ok (Some l) /\
    l <> map (betweenness 13 (fun u v => is_some (mget A u v)) src) (seq 0 13).
Proof.
  exists (epath 13), [0]. eexists. split; [wf_mat|]. split; [reflexivity|]. split; [reflexivity|]. split; [discriminate|].
  split; [repeat constructor; lia|]. split; [|split].
  - intros u v x. destruct (Nat.lt_ge_cases u 13), (Nat.lt_ge_cases v 13).
    2, 3, 4: rewrite mget_oob by (try wf_mat; simpl; lia); discriminate.
    do 13 (destruct u as [|u]; [do 13 (destruct v as [|v]; [intro E; cbv in E; try discriminate; injection E; auto|]); lia|]). lia.
  - vm_compute. reflexivity.
  - intro E. apply (f_equal (map (fun q => this q))) in E. vm_compute in E. discriminate.
Qed.
Print Assumptions C78_betweenness_v2_refuted.
Example C78_example : shallow 3 (fun u v => is_some (mget (epath 3) u v)) 10 [0].
Proof.
  intros s t p [<-|[]] Ht I. do 3 (destruct t as [|t]; [vm_compute in I; repeat (destruct I as [<-|I]; [simpl; lia|]); contradiction|]). lia.
Qed.

(** ** C79: [vertex_betweenness_centrality] of a graph with an integer scalar type *)

(** 0 -> {1, 2} -> 3 -> 4: the inverse of the number of paths is rounded to 0. *)
Definition ebc_d : lil Z :=
  mkLil 5 5 5%Z [[(1, 1%Z); (2, 1%Z)]; [(3, 1%Z)]; [(3, 1%Z)]; [(4, 1%Z)]; []].
Theorem C79_betweenness_integer_refuted :
  exists (graph : lil Z) (l right : list Z),
    wfm graph /\ nrows graph = 5 /\ ncols graph = 5 /\ (forall u v x, mget graph u v = Some x -> x = 1%Z) /\
    vertex_betweenness_centrality Z.add Z.sub Z.mul (fun x => Z.quot 1 x) Z.of_nat ztrue 20 graph = Ok (Some l) /\
    map zq right = map (betweenness 5 (fun u v => is_some (mget graph u v)) (seq 0 5)) (seq 0 5) /\ l <> right.
Proof.
  exists ebc_d, [0; 0; 0; 2; 0]%Z, [0; 1; 1; 3; 0]%Z. split; [wf_mat|]. split; [reflexivity|]. split; [reflexivity|].
  split; [|split; [vm_compute; reflexivity|split; [|discriminate]]].
  - intros u v x. destruct (Nat.lt_ge_cases u 5), (Nat.lt_ge_cases v 5).
    2, 3, 4: rewrite mget_oob by (try wf_mat; simpl; lia); discriminate.
    do 5 (destruct u as [|u]; [do 5 (destruct v as [|v]; [intro E; cbv in E; try discriminate; injection E; auto|]); lia|]). lia.
  - cbn [map seq]. repeat (f_equal; [apply Qc_is_canon; vm_compute; reflexivity|]). reflexivity.
Qed.
Print Assumptions C79_betweenness_integer_refuted.

(** ** C80: [edge_betweenness_centrality] counts the shortest paths that use an edge *)

(** [T] is any scalar type whose numbers [ofn n] obey the laws of the natural numbers, with a
    division that is exact where it can be.  Edges that no shortest path uses, and pairs without an
    edge, have no element in the result. *)
Theorem C80_edge_betweenness :
  forall (T : Type) (add mul div : T -> T -> T) (ofn : nat -> T) (tb : T -> bool) (graph : lil T) (N n : nat),
    wfm graph -> nrows graph = N -> ncols graph = N ->
    (forall a b, add (ofn a) (ofn b) = ofn (a + b)) -> (forall a b, mul (ofn a) (ofn b) = ofn (a * b)) ->
    (forall x, mul x (ofn 1) = x) -> (forall a b, b <> 0 -> div (ofn (b * a)) (ofn b) = ofn a) ->
    (forall a, tb (ofn a) = negb (a =? 0)) ->
    (forall u v x, mget graph u v = Some x -> x = ofn 1) -> (forall v, v < N -> mget graph v v = None) -> N < n ->
    exists M, edge_betweenness_centrality add mul div ofn tb n graph = Ok (Some M) /\ wfm M /\ nrows M = N /\ ncols M = N /\
      forall u v, u < N -> v < N ->
        mget M u v = let c := edge_uses N (fun u v => is_some (mget graph u v)) u v in if c =? 0 then None else Some (ofn c).
Proof.
  intros T add mul div ofn tb graph N n WA RA CA Ha Hm Hm1 Hd Ht H1 Hl Hn.
  destruct (ebc_ok add mul div ofn tb graph N WA RA CA Ha Hm Hm1 Hd Ht H1) with (n := n) as (M & E & W & R & C & G); auto.
  - intros v Hv. unfold gedge. rewrite Hl; auto.
  - exists M. split; [auto|]. split; [auto|]. split; [auto|]. split; [auto|]. intros u v Hu Hv. rewrite G by auto. reflexivity.
Qed.
Print Assumptions C80_edge_betweenness.
Example C80_example :
  wfm (ebc_g 1%Z) /\ (forall a b, b <> 0 -> Z.quot (Z.of_nat (b * a)) (Z.of_nat b) = Z.of_nat a) /\
  (forall v, v < 8 -> mget (ebc_g 1%Z) v v = None) /\
  exists M, edge_betweenness_centrality Z.add Z.mul Z.quot Z.of_nat ztrue 10 (ebc_g 1%Z) = Ok (Some M) /\
    mget M 1 4 = Some 10%Z /\ mget M 4 5 = Some 14%Z /\ mget M 5 4 = None.
Proof.
  split; [wf_mat|]. split; [|split].
  - intros a b Hb. rewrite Nat2Z.inj_mul, Z.mul_comm. apply Z.quot_mul. lia.
  - intros v Hv. do 8 (destruct v as [|v]; [reflexivity|]). lia.
  - eexists. split; [vm_compute; reflexivity|]. vm_compute. auto.
Qed.

(** With a self loop at the root, the paths from it are counted twice. *)
Definition ebc_l : lil Z := mkLil 2 2 2%Z [[(0, 1%Z); (1, 1%Z)]; []].
Theorem C80_edge_betweenness_loop_refuted :
  exists (graph M : lil Z),
    wfm graph /\ nrows graph = 2 /\ ncols graph = 2 /\ (forall u v x, mget graph u v = Some x -> x = 1%Z) /\
    edge_betweenness_centrality Z.add Z.mul Z.quot Z.of_nat ztrue 10 graph = Ok (Some M) /\
    edge_uses 2 (fun u v => is_some (mget graph u v)) 0 1 = 1 /\ mget M 0 1 <> Some 1%Z.
Proof.
  exists ebc_l. eexists. split; [wf_mat|]. split; [reflexivity|]. split; [reflexivity|].
  split; [|split; [vm_compute; reflexivity|split; [reflexivity|vm_compute; discriminate]]].
  intros u v x. destruct (Nat.lt_ge_cases u 2), (Nat.lt_ge_cases v 2).
  2, 3, 4: rewrite mget_oob by (try wf_mat; simpl; lia); discriminate.
  do 2 (destruct u as [|u]; [do 2 (destruct v as [|v]; [intro E; cbv in E; try discriminate; injection E; auto|]); lia|]). lia.
Qed.
Print Assumptions C80_edge_betweenness_loop_refuted.

(** ** C81: arguments that are rejected *)
Definition all_batch {T} (ti : T -> Z) (tq : T -> Qc) : list (nat -> lil T -> list nat -> res (option (list Qc))) :=
  [bc_batch_alt_trans_v2 ti tq; bc_batch_alt_trans ti tq; bc_batch_alt ti tq; bc_batch ti tq; bc_batch_old ti tq].
Theorem C81_betweenness_errors :
  forall (T : Type) (ti : T -> Z) (tq : T -> Qc) (A : lil T) (src : list nat) (n : nat) f, In f (all_batch ti tq) ->
    (src = [] \/ nrows A <> ncols A -> f n A src = Throw DimensionException) /\
    (src <> [] -> nrows A = ncols A -> ~ Forall (fun s => s < nrows A) src -> f n A src = Throw IndexOutOfBoundsException).
Proof.
  intros T ti tq A src n f Hf. split.
  - intro H. assert (Q : forall X (r : res X), bc_check A src r = Throw DimensionException).
    { intros X r. unfold bc_check. destruct (Nat.eqb_spec (length src) 0) as [E|E]; auto.
      destruct H as [->|H]; [contradiction E; auto|]. rewrite (proj2 (Nat.eqb_neq _ _) H). auto. }
    repeat (destruct Hf as [<-|Hf]; [apply Q|]). contradiction.
  - intros H1 H2 H3. assert (Q : forall X (r : res X), bc_check A src r = r).
    { intros X r. unfold bc_check. destruct (Nat.eqb_spec (length src) 0) as [E|E]; [apply length_zero_iff_nil in E; contradiction|].
      rewrite H2, Nat.eqb_refl. auto. }
    assert (X : forall r c, extract_m btrue idc (NoAcc ti) mnomask MERGE (lil_new r c : lil Z) (Mat A) (IdxArr src) AllIdx = Throw IndexOutOfBoundsException
      \/ length src <> r).
    { intros r c. destruct (Nat.eq_dec (length src) r) as [E|]; auto. left.
      apply (extract_m_errors btrue idc (NoAcc ti) mnomask MERGE (lil_new r c) (Mat A) (IdxArr src) AllIdx); simpl; auto.
      tauto. }
    assert (X' : forall r c, extract_m btrue idc (NoAcc ti) mnomask MERGE (lil_new r c : lil Z) (Trn A) AllIdx (IdxArr src) = Throw IndexOutOfBoundsException
      \/ length src <> c).
    { intros r c. destruct (Nat.eq_dec (length src) c) as [E|]; auto. left.
      apply (extract_m_errors btrue idc (NoAcc ti) mnomask MERGE (lil_new r c) (Trn A) AllIdx (IdxArr src)); simpl; auto.
      tauto. }
    assert (B : forall (M : lil Z) ts, wfm M -> forallb (fun '(i, j, _) => (i <? nrows M) && (j <? ncols M)) ts = false ->
      build_or_throw M ts = Throw IndexOutOfBoundsException).
    { intros M ts WM F. unfold build_or_throw. destruct (build_wf (fun _ new => new) ts M WM) as (_ & _ & _ & E). rewrite F in E.
      destruct (lil_build _ M ts) as [M' r]. simpl in E. rewrite E. auto. }
    assert (R : exists i, i < length src /\ ncols A <= nth i src 0).
    { apply neg_Forall_Exists_neg in H3; [|intro x; apply lt_dec]. apply Exists_exists in H3. destruct H3 as (x & Ix & Hx).
      destruct (In_nth src x 0 Ix) as (i & Hi & <-). exists i. split; [auto|]. lia. }
    assert (FF : forall (h : nat * nat * Z -> bool) l, (exists x, In x l /\ h x = false) -> forallb h l = false).
    { intros h l (x & Ix & Hx). destruct (forallb h l) eqn:E; auto. rewrite forallb_forall in E. rewrite E in Hx; auto. }
    assert (Bc : build_or_throw (lil_new (ncols A) (length src)) (src_cols src) = Throw IndexOutOfBoundsException).
    { apply B; [apply lil_new_wf|]. apply FF. destruct R as (i & Hi & Hx). exists (nth i src 0, i, 1%Z). split.
      - apply in_map_iff. exists i. split; auto. apply in_seq. lia.
      - simpl. rewrite (proj2 (Nat.ltb_ge _ _) Hx). auto. }
    assert (Br : build_or_throw (lil_new (length src) (ncols A)) (src_rows src) = Throw IndexOutOfBoundsException).
    { apply B; [apply lil_new_wf|]. apply FF. destruct R as (i & Hi & Hx). exists (i, nth i src 0, 1%Z). split.
      - apply in_map_iff. exists i. split; auto. apply in_seq. lia.
      - simpl. rewrite (proj2 (Nat.ltb_ge _ _) Hx), andb_false_r. auto. }
    destruct (X (length src) (ncols A)) as [X1|X1]; [|contradiction]. destruct (X' (ncols A) (length src)) as [X2|X2]; [|contradiction].
    destruct Hf as [<-|[<-|[<-|[<-|[<-|[]]]]]].
    + unfold bc_batch_alt_trans_v2. rewrite Q, X1. auto.
    + unfold bc_batch_alt_trans. rewrite Q, X1. auto.
    + unfold bc_batch_alt. rewrite Q, X2. auto.
    + unfold bc_batch. rewrite Q, Bc. auto.
    + unfold bc_batch_old. rewrite Q, Br. auto.
Qed.
Print Assumptions C81_betweenness_errors.
Example C81_example :
  bc_batch idc zq 10 (ebc_g 1%Z) [0; 8] = Throw IndexOutOfBoundsException /\
  bc_batch idc zq 10 (ebc_g 1%Z) [] = Throw DimensionException.
Proof. split; reflexivity. Qed.
