(** Cluster assignments. *)
From Coq Require Import Lia QArith Qcanon Sorted.
From Verif Require Import Base ModelLil ModelVec ModelHelpers ModelViews ModelMul ModelElem ModelIndex ModelUtils
  ModelAlgoBase ModelRank ModelCluster Spec SpecOps SpecRank SpecCalls SpecCluster ProofBase ProofLil ProofVec ProofElem ProofMul ProofReduce
  ProofUtils ProofKron ProofAlgebra ProofCalls ProofContainers ProofGraph ProofParents ProofRank ProofVis ProofRc ProofCluster.
Local Open Scope nat_scope.

Lemma in_tuples {T} (M : lil T) i j x : wfm M -> (In (i, j, x) (lil_extractTuples M) <-> mget M i j = Some x).
Proof.
  intro W. rewrite (extractTuples_stuples M _ (mrel_self M W)). unfold stuples. simpl. rewrite in_flat_map. split.
  - intros (i' & Hi' & H). apply in_flat_map in H. destruct H as (j' & Hj' & H).
    destruct (mget M i' j') eqn:E; [|contradiction]. destruct H as [H|[]]. injection H as -> -> ->. auto.
  - intro E. assert (i < nrows M /\ j < ncols M) as (Hi & Hj).
    { split; apply Nat.nle_gt; intro; rewrite mget_oob in E; auto; discriminate. }
    exists i. split; [apply in_seq; lia|]. apply in_flat_map. exists j. split; [apply in_seq; lia|]. rewrite E. left; auto.
Qed.

Definition best (l : list (nat * nat * Qc)) (v : nat) (o : option nat) (y : Qc) : Prop :=
  match o with
  | None => y = (- (1))%Qc /\ forall i x, ~ In (i, v, x) l
  | Some i => In (i, v, y) l /\ forall i' x', In (i', v, x') l -> (x' < y)%Qc \/ (x' = y /\ i <= i')
  end.
Lemma assign_loop N l2 : forall l1 ys os,
  length ys = N -> length os = N ->
  (forall v, v < N -> best l1 v (nth v os None) (nth v ys 0%Qc)) ->
  (forall i v x, In (i, v, x) l2 -> v < N /\ (- (1) < x)%Qc /\ forall i' v' x', In (i', v', x') l1 -> i' <= i) ->
  StronglySorted (fun a b => fst (fst a) <= fst (fst b)) l2 ->
  exists ys' os', mfor l2 (fun t s => assign_step s t) (ys, os) = Ok (ys', os') /\ length os' = N /\
    forall v, v < N -> best (l1 ++ l2) v (nth v os' None) (nth v ys' 0%Qc).
Proof.
  induction l2 as [|((c & v0) & x) l2 IH]; intros l1 ys os Ly Lo B H S.
  - exists ys, os. rewrite app_nil_r. auto.
  - destruct (H c v0 x (or_introl eq_refl)) as (Hv & Hx & Hc).
    inversion S as [|a0 l0 S2 F Ea]. subst a0 l0. rewrite Forall_forall in F.
    replace (l1 ++ (c, v0, x) :: l2) with ((l1 ++ [(c, v0, x)]) ++ l2) by (rewrite <- app_assoc; auto).
    assert (H2 : forall i v y, In (i, v, y) l2 -> v < N /\ (- (1) < y)%Qc /\
      forall i' v' x', In (i', v', x') (l1 ++ [(c, v0, x)]) -> i' <= i).
    { intros i v y Hi. destruct (H i v y (or_intror Hi)) as (A1 & A2 & A3). split; [auto|split; [auto|]].
      intros i' v' x' I. apply in_app_or in I. destruct I as [I|[I|[]]]; [eapply A3; eauto|]. injection I as <- <- <-.
      apply (F _ Hi). }
    cbn [mfor]. unfold assign_step at 1. rewrite (vat_ok ys v0 0%Qc) by lia. cbn [bind].
    assert (Old : forall v, v < N -> v <> v0 -> best (l1 ++ [(c, v0, x)]) v (nth v os None) (nth v ys 0%Qc)).
    { intros v Hv' Ne. specialize (B v Hv'). unfold best in *. destruct (nth v os None) as [i|].
      - destruct B as (B1 & B2). split; [apply in_or_app; auto|]. intros i' x' I. apply in_app_or in I.
        destruct I as [I|[I|[]]]; [auto|]. injection I as _ E _. congruence.
      - destruct B as (B1 & B2). split; [auto|]. intros i y I. apply in_app_or in I. destruct I as [I|[I|[]]]; [eapply B2; eauto|].
        injection I as _ E _. congruence. }
    pose proof (B v0 Hv) as B0.
    destruct (Qclt_le_dec (nth v0 ys 0%Qc) x) as [L|L].
    + rewrite !vset_ok by lia. cbn [bind]. apply IH; rewrite ?upd_length; auto.
      intros v Hv'. rewrite !nth_upd by lia. destruct (Nat.eqb_spec v v0) as [->|Ne].
      * unfold best. split; [apply in_or_app; right; left; auto|]. intros i' x' I. apply in_app_or in I.
        destruct I as [I|[I|[]]].
        -- left. unfold best in B0. destruct (nth v0 os None).
           ++ destruct B0 as (_ & B0). destruct (B0 i' x' I) as [|(-> & _)]; qlra.
           ++ exfalso. eapply B0; eauto.
        -- injection I as <- <-. auto.
      * apply Old; auto.
    + apply IH; auto. intros v Hv'. destruct (Nat.eq_dec v v0) as [->|Ne]; [|apply Old; auto].
      unfold best in *. destruct (nth v0 os None) as [i|].
      * destruct B0 as (B1 & B2). split; [apply in_or_app; auto|]. intros i' x' I. apply in_app_or in I.
        destruct I as [I|[I|[]]]; [auto|]. injection I as <- <-.
        apply Qcle_lt_or_eq in L. destruct L as [|L]; [auto|]. right. split; [auto|]. eapply Hc; eauto.
      * destruct B0 as (B1 & _). rewrite B1 in L. exfalso. qlra.
Qed.

Lemma assignments_ok {T} (tq : T -> Qc) (M : lil T) :
  wfm M -> ncols M <= nrows M -> (forall i v x, mget M i v = Some x -> (- (1) < tq x)%Qc) ->
  exists l, get_cluster_assignments tq M = Ok l /\ length l = nrows M /\
    forall v, v < nrows M ->
      match nth v l None with
      | None => forall i, mget M i v = None
      | Some i => exists x, mget M i v = Some x /\
          forall i' x', mget M i' v = Some x' -> (tq x' < tq x)%Qc \/ (tq x' = tq x /\ i <= i')
      end.
Proof.
  intros W Le Gt. unfold get_cluster_assignments.
  set (g := fun '(i, j, x) => (i, j, tq x) : nat * nat * Qc).
  assert (IN : forall i v y, In (i, v, y) (map g (lil_extractTuples M)) <-> exists x, mget M i v = Some x /\ tq x = y).
  { intros i v y. rewrite in_map_iff. split.
    - intros (((i' & v') & x) & E & I). unfold g in E. injection E as -> -> <-. exists x. split; [apply in_tuples; auto|auto].
    - intros (x & E & <-). exists (i, v, x). split; [reflexivity|]. apply in_tuples; auto. }
  destruct (assign_loop (nrows M) (map g (lil_extractTuples M)) [] (repeat (- (1))%Qc (nrows M)) (repeat None (nrows M)))
    as (ys & os & E & L & B).
  - apply repeat_length.
  - apply repeat_length.
  - intros v Hv. rewrite nth_repeat. rewrite (nth_indep _ 0%Qc (- (1))%Qc) by (rewrite repeat_length; auto). rewrite nth_repeat.
    split; [auto|]. intros i x [].
  - intros i v y I. apply IN in I. destruct I as (x & E & <-). split; [|split; [eapply Gt; eauto|intros i' v' x' []]].
    assert (v < ncols M); [|lia]. apply Nat.nle_gt; intro; rewrite mget_oob in E; auto; discriminate.
  - pose proof (tuples_sorted M W) as S. clear -S. induction S as [|a l S IH F]; simpl; constructor; auto.
    rewrite Forall_forall in *. intros b Hb. apply in_map_iff in Hb. destruct Hb as (b' & <- & Hb). apply F in Hb.
    destruct a as ((? & ?) & ?), b' as ((? & ?) & ?). unfold SpecCalls.pos_lt in Hb. simpl in *. lia.
  - rewrite E. cbn [bind snd]. exists os. split; [auto|]. split; [auto|]. intros v Hv. specialize (B v Hv). simpl in B. unfold best in B.
    destruct (nth v os None) as [i|].
    + destruct B as (B1 & B2). apply IN in B1. destruct B1 as (x & E1 & E2). exists x. split; [auto|]. intros i' x' E'. rewrite E2.
      apply B2. apply IN. eauto.
    + destruct B as (_ & B2). intro i. destruct (mget M i v) as [x|] eqn:Em; auto. exfalso. apply (B2 i (tq x)). apply IN. eauto.
Qed.

Lemma osum_nmax (l : list (option nat)) :
  match osum nmax l with
  | Some m => In (Some m) l /\ forall x, In (Some x) l -> x <= m
  | None => forall x, In x l -> x = None
  end.
Proof.
  induction l as [|x l IH] using rev_ind; [simpl; tauto|]. rewrite osum_snoc'.
  assert (X : forall a b, nmax a b = Nat.max a b) by (intros a b; unfold nmax; destruct (Nat.ltb_spec a b); lia).
  destruct (osum nmax l) as [m|] eqn:E; destruct x as [x|]; cbn [oadd].
  - destruct IH as (I & L). rewrite X. split.
    + apply in_or_app. destruct (Nat.max_spec m x) as [(_ & ->)|(_ & ->)]; [right; left; auto|left; auto].
    + intros y Hy. apply in_app_or in Hy. destruct Hy as [Hy|[Hy|[]]]; [specialize (L y Hy); lia|injection Hy as ->; lia].
  - destruct IH as (I & L). split; [apply in_or_app; auto|]. intros y Hy. apply in_app_or in Hy.
    destruct Hy as [Hy|[Hy|[]]]; [auto|discriminate].
  - split; [apply in_or_app; right; left; auto|]. intros y Hy. apply in_app_or in Hy. destruct Hy as [Hy|[Hy|[]]].
    + specialize (IH _ Hy). discriminate.
    + injection Hy as ->. auto.
  - intros y Hy. apply in_app_or in Hy. destruct Hy as [Hy|[Hy|[]]]; auto.
Qed.

Lemma assignments_v2_ok {T} (M : lil T) :
  wfm M -> nrows M <> 0 -> ncols M <> 0 ->
  exists w, get_cluster_assignments_v2 M = Ok w /\ wfv w /\ vsize w = ncols M /\
    forall v, v < ncols M ->
      match vget w v with
      | None => forall i, mget M i v = None
      | Some i => mget M i v <> None /\ forall i', mget M i' v <> None -> i' <= i
      end.
Proof.
  intros W R0 C0. unfold get_cluster_assignments_v2.
  destruct (vis_new 0 (ncols M) C0) as (c & -> & Hc). cbn [bind].
  destruct (index_ramp_ok (nrows M) R0) as (r & -> & Wr & Sr & Gr). cbn [bind].
  destruct (vis_written (ncols M) btrue vnomask _ MERGE c _ _ _ Hc (vmis_none (ncols M) btrue)
    (vxm_ok nmax (fun (i : nat) (_ : T) => i) btrue idc (NoAcc idc) vnomask MERGE c r (Mat M) (proj1 (proj1 Hc)) W
      (wfv_wfvn _ Wr) Logic.I Logic.I ltac:(simpl; apply Hc) ltac:(simpl; auto))) as (w & E & (Ww & Sw & Gw)).
  exists w. split; [exact E|]. split; [auto|]. split; [auto|]. intros v Hv. rewrite Gw by auto. cbv beta. unfold wr, svmul.
  cbn [vrows sview].
  pose proof (osum_nmax (map (fun k => omap2 (fun (i : nat) (_ : T) => i) (vget r k) (mget M k v)) (seq 0 (nrows M)))) as H.
  assert (IN : forall k, In (Some k) (map (fun k => omap2 (fun (i : nat) (_ : T) => i) (vget r k) (mget M k v)) (seq 0 (nrows M))) <->
    mget M k v <> None).
  { intro k. rewrite in_map_iff. split.
    - intros (k' & Ek & Ik). apply in_seq in Ik. rewrite Gr, (proj2 (Nat.ltb_lt k' (nrows M))) in Ek by lia.
      destruct (mget M k' v) eqn:Em; [|discriminate]. injection Ek as ->. congruence.
    - intro NE. assert (k < nrows M). { apply Nat.nle_gt. intro. apply NE. apply mget_oob; auto. }
      exists k. split; [|apply in_seq; lia]. rewrite Gr, (proj2 (Nat.ltb_lt k (nrows M))) by lia. destruct (mget M k v); [auto|congruence]. }
  destruct (osum nmax _) as [m|].
  - destruct H as (H1 & H2). unfold idc. cbn [option_map]. split; [apply IN; auto|]. intros i' N'. apply H2, IN. auto.
  - cbn [option_map]. intro i. destruct (mget M i v) eqn:Em; auto. assert (F : mget M i v <> None) by congruence.
    apply IN in F. apply H in F. discriminate.
Qed.
