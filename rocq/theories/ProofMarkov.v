(** Markov clustering. *)
From Coq Require Import Lia QArith Qcanon.
From Verif Require Import Base ModelLil ModelVec ModelHelpers ModelViews ModelMul ModelElem ModelIndex ModelUtils
  ModelAlgoBase ModelRank ModelCluster Spec SpecOps SpecRank SpecCluster ProofBase ProofLil ProofVec ProofElem ProofReduce
  ProofUtils ProofAlgebra ProofContainers ProofGraph ProofRank ProofVis ProofRc ProofCluster.
Local Open Scope nat_scope.

(** Nonnegative matrices that store exactly the numbers other than 0. *)
Definition onz (x : Qc) : option Qc := if Qc_eq_dec x 0 then None else Some x.
Definition nn (N : nat) (a : nat -> nat -> Qc) : Prop := forall i j, i < N -> j < N -> (0 <= a i j)%Qc.
Definition pm (N : nat) (M : lil Qc) (a : nat -> nat -> Qc) : Prop := rc N N M (fun i j => onz (a i j)) /\ nn N a.

Lemma oq_onz x : oq (onz x) = x.
Proof. unfold onz. destruct (Qc_eq_dec x 0); simpl; auto. Qed.
Lemma onz_mul a b : omap2 Qcmult (onz a) (onz b) = onz (a * b)%Qc.
Proof.
  unfold onz. destruct (Qc_eq_dec a 0) as [Ha|Ha], (Qc_eq_dec b 0) as [Hb|Hb], (Qc_eq_dec (a * b) 0) as [H|H]; cbn [omap2]; auto; exfalso.
  - apply H. rewrite Ha. ring.
  - apply H. rewrite Ha. ring.
  - apply H. rewrite Hb. ring.
  - apply Qcmult_integral in H. tauto.
Qed.
Lemma onz_true x : otrue qtrue (onz x) = if Qc_eq_dec x 0 then false else true.
Proof. unfold onz, qtrue. destruct (Qc_eq_dec x 0) as [|H]; simpl; auto. destruct (Qc_eq_dec x 0); tauto. Qed.
Lemma osum_onz N h (a : nat -> Qc) : (forall i, i < N -> h i = onz (a i)) -> (forall i, i < N -> (0 <= a i)%Qc) ->
  osum Qcplus (map h (seq 0 N)) = onz (qsum N a).
Proof.
  intros Hh Ha.
  assert (Q : oq (osum Qcplus (map h (seq 0 N))) = qsum N a).
  { rewrite osum_q. apply qsum_ext. intros i Hi. rewrite Hh, oq_onz by auto. auto. }
  destruct (osum Qcplus (map h (seq 0 N))) as [x|] eqn:E; simpl in Q.
  - subst x. unfold onz. destruct (Qc_eq_dec (qsum N a) 0) as [Z|]; auto. exfalso.
    assert (NE : osum Qcplus (map h (seq 0 N)) <> None) by congruence. apply NE. apply osum_none_iff.
    intros o Ho. apply in_map_iff in Ho. destruct Ho as (i & <- & Hi). apply in_seq in Hi. rewrite Hh by lia.
    unfold onz. destruct (Qc_eq_dec (a i) 0) as [|Nz]; auto. exfalso.
    assert (0 < a i)%Qc.
    { assert (L : (0 <= a i)%Qc) by (apply Ha; lia). apply Qcle_lt_or_eq in L. destruct L; [auto|congruence]. }
    assert (0 < qsum N a)%Qc by (apply (qsum_pos N a i); auto; lia). rewrite Z in *. qlra.
  - rewrite <- Q. reflexivity.
Qed.
Lemma qmul_nonneg a b : (0 <= a -> 0 <= b -> 0 <= a * b)%Qc.
Proof. intros Ha Hb. replace 0%Qc with (0 * b)%Qc by ring. apply Qcmult_le_compat_r; auto. Qed.
Lemma qinv_nonneg a : (0 <= a -> 0 <= / a)%Qc.
Proof.
  intro H. apply Qcle_lt_or_eq in H. destruct H as [H|<-]; [|discriminate]. apply Qclt_le_weak, inv_pos. auto.
Qed.
Lemma qpow_nonneg a n : (0 <= a -> 0 <= a ^ n)%Qc.
Proof. intro H. induction n; simpl; [discriminate|apply qmul_nonneg; auto]. Qed.

Lemma pm_ext N M a b : pm N M a -> (forall i j, i < N -> j < N -> a i j = b i j) -> pm N M b.
Proof.
  intros (H & P) E. split.
  - eapply rc_ext; [exact H|]. intros i j Hi Hj. cbv beta. rewrite E by auto. auto.
  - intros i j Hi Hj. rewrite <- E by auto. auto.
Qed.
Lemma pm_weight N M a i j : pm N M a -> i < N -> j < N -> weight (fun x => x) M i j = a i j.
Proof. intros (H & _) Hi Hj. unfold weight. rewrite (rc_get _ _ _ _ _ _ H) by auto. apply oq_onz. Qed.

Lemma pm_normal N M a : N <> 0 -> pm N M a -> exists M', normalize_cols 0%Qc Qcplus Qcmult Qcinv M = Ok M' /\ pm N M' (normal N a).
Proof.
  intros N0 ((W & R & C & G) & P).
  destruct (normalize_cols_ok 0%Qc Qcplus Qcmult Qcinv M W) as (M' & E & W' & R' & C' & G'); [congruence|congruence|].
  exists M'. split; [exact E|]. rewrite R, C in *. split.
  - split; [auto|split; [auto|split; [auto|]]]. intros i j Hi Hj. rewrite G', G by auto. unfold normal.
    rewrite (osum_onz N _ (fun k => a k j)); [|intros k Hk; apply G; auto|intros k Hk; apply P; auto].
    unfold Qcdiv. rewrite <- onz_mul. unfold onz at 2. destruct (Qc_eq_dec (a i j) 0) as [Z|NZ].
    { unfold onz at 2. destruct (Qc_eq_dec (a i j) 0); [|contradiction]. destruct (onz (qsum N (fun k => a k j))); auto. }
    assert (Sp : (0 < qsum N (fun k => a k j))%Qc).
    { apply (qsum_pos N _ i); auto. assert (L : (0 <= a i j)%Qc) by auto. apply Qcle_lt_or_eq in L. destruct L; [auto|congruence]. }
    pose proof (inv_pos _ Sp) as Ip.
    unfold onz. destruct (Qc_eq_dec (qsum N (fun k => a k j)) 0) as [Z|_]; [rewrite Z in Sp; exfalso; qlra|].
    destruct (Qc_eq_dec (/ qsum N (fun k => a k j)) 0) as [Z|_]; [rewrite Z in Ip; exfalso; qlra|].
    destruct (Qc_eq_dec (a i j) 0); [contradiction|]. reflexivity.
  - intros i j Hi Hj. unfold normal, Qcdiv. apply qmul_nonneg; [auto|]. apply qinv_nonneg, qsum_nonneg. auto.
Qed.

Lemma pm_expand1 N A a B b : pm N A a -> pm N B b ->
  exists B', mxm Qcplus Qcmult Qcmult idc idc qtrue idc (NoAcc idc) (MVal B) REPLACE B (Mat B) (Mat A) = Ok B' /\
    pm N B' (expand1 N a b).
Proof.
  intros (HA & PA) (HB & PB).
  destruct (rc_mxm N N N Qcplus Qcmult Qcmult idc idc qtrue (MVal B) _ REPLACE B B A _ _ _ HB HB HA (mrc_val N N qtrue B _ HB))
    as (B' & -> & HB'). exists B'. split; [auto|].
  assert (NS : forall i j, i < N -> j < N -> forall k, k < N -> (0 <= b i k * a k j)%Qc).
  { intros. apply qmul_nonneg; auto. }
  split.
  - eapply rc_ext; [exact HB'|]. intros i j Hi Hj. cbv beta. rewrite onz_true. unfold wr, expand1.
    destruct (Qc_eq_dec (b i j) 0); [reflexivity|]. apply osum_onz; auto. intros. apply onz_mul.
  - intros i j Hi Hj. unfold expand1. destruct (Qc_eq_dec (b i j) 0); [qlra|]. apply qsum_nonneg. auto.
Qed.
Lemma pm_expand N n A a : pm N A a -> forall B b, pm N B b ->
  exists B', times n (fun Apower => mxm Qcplus Qcmult Qcmult idc idc qtrue idc (NoAcc idc) (MVal Apower) REPLACE
                                 Apower (Mat Apower) (Mat A)) B = Ok B' /\ pm N B' (expand N n a b).
Proof.
  intros HA. induction n as [|n IH]; intros B b HB; [exists B; auto|]. cbn [times expand].
  destruct (pm_expand1 N A a B b HA HB) as (B1 & -> & HB1). cbn [bind]. apply IH; auto.
Qed.
Lemma pm_pow N n B b : pm N B b -> forall P p, pm N P p ->
  exists B', times n (fun Ainfl => eWiseMult Qcmult Qcmult idc qtrue idc (NoAcc idc) (MVal Ainfl) REPLACE
                                         Ainfl (Mat Ainfl) (Mat B)) P = Ok B' /\ pm N B' (fun i j => p i j * b i j ^ n)%Qc.
Proof.
  intros (HB & NB). induction n as [|n IH]; intros P p (HP & NP).
  - exists P. split; [auto|]. apply (pm_ext N P p); [split; auto|]. intros. simpl. ring.
  - cbn [times].
    destruct (rc_mult N N Qcmult Qcmult idc qtrue (MVal P) _ REPLACE P P B _ _ _ HP HP HB (mrc_val N N qtrue P _ HP)) as (P1 & -> & HP1).
    cbn [bind].
    destruct (IH P1 (fun i j => p i j * b i j)%Qc) as (B' & E & H).
    { split; [|intros i j Hi Hj; apply qmul_nonneg; auto]. eapply rc_ext; [exact HP1|]. intros i j Hi Hj. cbv beta.
      rewrite onz_true, onz_mul. unfold wr. destruct (Qc_eq_dec (p i j) 0) as [Z|]; [|reflexivity]. rewrite Z.
      unfold onz. destruct (Qc_eq_dec (0 * b i j) 0) as [|F]; auto. exfalso. apply F. ring. }
    exists B'. split; [exact E|]. eapply pm_ext; [exact H|]. intros i j Hi Hj. simpl. ring.
Qed.

Lemma oq_oadd a b : oq (oadd Qcplus a b) = (oq a + oq b)%Qc.
Proof. destruct a, b; cbn [oadd oq]; ring. Qed.
Lemma oq_osum_app l1 l2 : oq (osum Qcplus (l1 ++ l2)) = (oq (osum Qcplus l1) + oq (osum Qcplus l2))%Qc.
Proof.
  induction l2 as [|x l2 IH] using rev_ind; [rewrite app_nil_r; change (osum Qcplus []) with (@None Qc); cbn [oq]; ring|].
  rewrite app_assoc, !osum_snoc', !oq_oadd, IH. ring.
Qed.
Lemma sum_rows_q N (f : nat -> nat -> option Qc) :
  total 0%Qc idc Qcplus N N f = qsum N (fun i => qsum N (fun j => oq (f i j))).
Proof.
  unfold total. change (match ?o with Some s => s | None => 0%Qc end) with (oq o).
  assert (H : forall n, oq (osum Qcplus (map (fun '(i, j) => option_map idc (f i j)) (list_prod (seq 0 n) (seq 0 N)))) =
    qsum n (fun i => qsum N (fun j => oq (f i j)))); [|apply H].
  induction n as [|n IH]; [reflexivity|].
  assert (L : forall l1 l2 : list nat, list_prod (l1 ++ l2) (seq 0 N) = list_prod l1 (seq 0 N) ++ list_prod l2 (seq 0 N)).
  { induction l1; intros; simpl; auto. rewrite IHl1, app_assoc. auto. }
  rewrite seq_S, L, map_app, oq_osum_app. cbn [qsum]. rewrite IH. f_equal. simpl list_prod. rewrite app_nil_r, map_map, osum_q.
  apply qsum_ext. intros j Hj. unfold idc. destruct (f n j); auto.
Qed.

Lemma mk_error_ok N A a B b : pm N A a -> pm N B b -> mk_error N A B = Ok (mean_diff N a b).
Proof.
  intros (HA & _) (HB & _). unfold mk_error.
  destruct (rc_add N N Qcminus idc idc Qcminus idc idc btrue mnomask _ MERGE (lil_new N N) A B _ _ _ (rc_new N N) HA HB (mrc_none N N btrue))
    as (E & -> & HE). cbn [bind].
  destruct (rc_mult N N Qcmult Qcmult idc btrue mnomask _ MERGE E E E _ _ _ HE HE HE (mrc_none N N btrue)) as (E' & -> & HE'). cbn [bind].
  rewrite (reduce_ms_total 0%Qc idc Qcplus Qcplus Qcplus) by (try reflexivity; try (intros; unfold idc; ring); apply HE').
  cbn [bind]. f_equal. unfold mean_diff. rewrite !qn_nat_q. f_equal. unfold idc at 1 2.
  rewrite (proj1 (rc_dims _ _ _ _ HE')), (proj2 (rc_dims _ _ _ _ HE')), sum_rows_q.
  apply qsum_ext. intros i Hi. apply qsum_ext. intros j Hj. rewrite (rc_get _ _ _ _ _ _ HE') by auto. cbv beta. unfold wr.
  generalize (oq_onz (a i j)) (oq_onz (b i j)). destruct (onz (a i j)), (onz (b i j)); simpl; unfold idc; intros <- <-; ring.
Qed.

Lemma mk_loop_ok N e r t n : N <> 0 -> 1 <= r -> forall A a, pm N A a ->
  exists B k, mk_loop n N e r t A = Ok B /\ pm N B (mcl N e r k a) /\ k <= n /\
    (forall j, 1 <= j -> j < k -> (t <= mean_diff N (mcl N e r (j - 1) a) (mcl N e r j a))%Qc) /\
    (k = n \/ 1 <= k /\ (mean_diff N (mcl N e r (k - 1) a) (mcl N e r k a) < t)%Qc).
Proof.
  intros N0 Hr. induction n as [|n IH]; intros A a HA.
  - exists A, 0. split; [reflexivity|]. split; [auto|]. split; [auto|]. split; [intros; lia|auto].
  - cbn [mk_loop]. unfold mk_expand, mk_inflate.
    destruct (pm_expand N (e - 1) A a HA A a HA) as (P & -> & HP). cbn [bind].
    destruct (pm_pow N (r - 1) P _ HP P _ HP) as (I & -> & HI). cbn [bind].
    destruct (pm_normal N I _ N0 HI) as (Q & -> & HQ). cbn [bind].
    apply (pm_ext N Q _ (mcl_step N e r a)) in HQ.
    2:{ intros i j Hi Hj. unfold mcl_step, normal.
        assert (E : forall x, (x * x ^ (r - 1) = x ^ r)%Qc) by (intro x; destruct r; [lia|]; simpl; rewrite Nat.sub_0_r; auto).
        rewrite E. f_equal. apply qsum_ext. intros. apply E. }
    rewrite (mk_error_ok N A a Q _ HA HQ). cbn [bind].
    destruct (Qclt_le_dec (mean_diff N a (mcl_step N e r a)) t) as [L|L].
    + exists Q, 1. split; [auto|]. split; [exact HQ|]. split; [lia|]. split; [intros; lia|]. right. split; [lia|exact L].
    + rewrite (lil_assign_ok N A Q _ _ (proj1 HA) (proj1 HQ)). cbn [bind].
      destruct (IH Q _ HQ) as (B & k & E & HB & Hk & H1 & H2). exists B, (S k). split; [exact E|]. split; [exact HB|]. split; [lia|]. split.
      * intros j J1 J2. destruct j as [|[|j]]; [lia|exact L|]. specialize (H1 (S j) ltac:(lia) ltac:(lia)).
        simpl in *. rewrite Nat.sub_0_r in H1. exact H1.
      * destruct H2 as [->|(K1 & H2)]; [auto|]. right. split; [lia|]. destruct k as [|k]; [lia|]. simpl in *. rewrite Nat.sub_0_r in H2. exact H2.
Qed.

Lemma markov_ok {T} (tq : T -> Qc) (G : lil T) N e r t n :
  wfm G -> N <> 0 -> nrows G = N -> ncols G = N -> (forall u v x, mget G u v = Some x -> (0 < tq x)%Qc) -> 1 <= r ->
  let s := normal N (weight tq G) in
  exists B k, markov_cluster tq G e r t n = Ok B /\ pm N B (mcl N e r k s) /\ k <= n /\
    (forall j, 1 <= j -> j < k -> (t <= mean_diff N (mcl N e r (j - 1) s) (mcl N e r j s))%Qc) /\
    (k = n \/ 1 <= k /\ (mean_diff N (mcl N e r (k - 1) s) (mcl N e r k s) < t)%Qc).
Proof.
  intros WG N0 RG CG Pos Hr s. unfold markov_cluster. rewrite RG, CG, Nat.eqb_refl. cbn [negb].
  assert (HG : rc N N G (mget G)) by (split; auto).
  destruct (rc_apply N N tq btrue mnomask _ MERGE (lil_new N N) G _ _ (rc_new N N) HG (mrc_none N N btrue)) as (M & -> & HM). cbn [bind].
  assert (HM' : pm N M (weight tq G)).
  { split; [|intros i j _ _; apply weight_nonneg; auto]. eapply rc_ext; [exact HM|]. intros i j Hi Hj. cbv beta. unfold wr, weight.
    destruct (mget G i j) as [x|] eqn:E; simpl; [|reflexivity]. unfold onz. destruct (Qc_eq_dec (tq x) 0) as [Z|]; auto.
    specialize (Pos i j x E). rewrite Z in Pos. exfalso. qlra. }
  destruct (pm_normal N M _ N0 HM') as (A & -> & HA). cbn [bind]. apply mk_loop_ok; auto.
Qed.

(** ** Consequences *)
Lemma qpos_nz x : (0 <= x)%Qc -> (x <> 0%Qc <-> (0 < x)%Qc).
Proof.
  intro H. apply Qcle_lt_or_eq in H. split; intro P.
  - destruct H; [auto|congruence].
  - intro Z. rewrite Z in P. qlra.
Qed.
Lemma normal_nn N a : nn N a -> nn N (normal N a).
Proof.
  intros P i j Hi Hj. unfold normal, Qcdiv. apply qmul_nonneg; [auto|]. apply qinv_nonneg, qsum_nonneg. auto.
Qed.
Lemma col_pos N a i j : nn N a -> i < N -> j < N -> a i j <> 0%Qc -> (0 < qsum N (fun k => a k j))%Qc.
Proof. intros P Hi Hj H. apply (qsum_pos N _ i); auto. apply qpos_nz; auto. Qed.
Lemma normal_nz N a i j : nn N a -> i < N -> j < N -> (normal N a i j <> 0%Qc <-> a i j <> 0%Qc).
Proof.
  intros P Hi Hj. unfold normal, Qcdiv. split; intros H Z.
  - apply H. rewrite Z. ring.
  - apply Qcmult_integral in Z. destruct Z as [|Z]; [auto|].
    pose proof (inv_pos _ (col_pos N a i j P Hi Hj H)) as Ip. rewrite Z in Ip. qlra.
Qed.
Lemma normal_sum N a i j : nn N a -> i < N -> j < N -> a i j <> 0%Qc -> qsum N (fun k => normal N a k j) = 1%Qc.
Proof.
  intros P Hi Hj H. unfold normal, Qcdiv.
  rewrite (qsum_ext N _ (fun k => / qsum N (fun k => a k j) * a k j)%Qc) by (intros; ring). rewrite qsum_scale, Qcmult_comm.
  apply Qcmult_inv_r. pose proof (col_pos N a i j P Hi Hj H) as C. intro Z. rewrite Z in C. qlra.
Qed.
Lemma expand_nn N n a : nn N a -> forall b, nn N b -> nn N (expand N n a b).
Proof.
  intro Pa. induction n as [|n IH]; intros b Pb; [auto|]. apply IH. intros i j Hi Hj. unfold expand1.
  destruct (Qc_eq_dec (b i j) 0); [qlra|]. apply qsum_nonneg. intros. apply qmul_nonneg; auto.
Qed.
Lemma expand_nz N n a : nn N a -> (forall j, j < N -> a j j <> 0%Qc) -> forall b, nn N b ->
  forall i j, i < N -> j < N -> (expand N n a b i j <> 0%Qc <-> b i j <> 0%Qc).
Proof.
  intros Pa D. induction n as [|n IH]; intros b Pb i j Hi Hj; [tauto|]. cbn [expand].
  assert (N1 : nn N (expand1 N a b)).
  { intros i' j' Hi' Hj'. unfold expand1. destruct (Qc_eq_dec (b i' j') 0); [qlra|]. apply qsum_nonneg. intros. apply qmul_nonneg; auto. }
  rewrite IH by auto. unfold expand1. destruct (Qc_eq_dec (b i j) 0) as [Z|NZ]; [split; congruence|].
  split; [auto|]. intros _. apply qpos_nz.
  - apply qsum_nonneg. intros. apply qmul_nonneg; auto.
  - apply (qsum_pos N _ j); auto. { intros; apply qmul_nonneg; auto. }
    apply qpos_nz; [apply qmul_nonneg; auto|]. intro Z. apply Qcmult_integral in Z. destruct Z as [|Z]; [auto|apply (D j Hj Z)].
Qed.
Lemma qpow_nz (x : Qc) r : 1 <= r -> ((x ^ r)%Qc <> 0%Qc <-> x <> 0%Qc).
Proof.
  intro Hr. split.
  - intros H Z. apply H. rewrite Z. destruct r; [lia|]. simpl. ring.
  - intros H. induction r as [|r IH]; [lia|]. simpl. intro Z. apply Qcmult_integral in Z. destruct Z as [|Z]; [auto|].
    destruct r; [discriminate Z|]. apply IH; [lia|auto].
Qed.
Lemma step_nn N e r a : nn N a -> nn N (mcl_step N e r a).
Proof. intro P. apply normal_nn. intros i j Hi Hj. apply qpow_nonneg. apply expand_nn; auto. Qed.
Lemma mcl_nn N e r k : forall a, nn N a -> nn N (mcl N e r k a).
Proof. induction k as [|k IH]; intros a P; [auto|]. apply IH, step_nn; auto. Qed.
Lemma mcl_nz N e r k : 1 <= r -> forall a, nn N a -> (forall j, j < N -> a j j <> 0%Qc) ->
  forall i j, i < N -> j < N -> (mcl N e r k a i j <> 0%Qc <-> a i j <> 0%Qc).
Proof.
  intro Hr. induction k as [|k IH]; intros a P D i j Hi Hj; [tauto|]. cbn [mcl].
  assert (S : forall i j, i < N -> j < N -> (mcl_step N e r a i j <> 0%Qc <-> a i j <> 0%Qc)).
  { intros i' j' Hi' Hj'. unfold mcl_step. rewrite normal_nz by (auto; intros ? ? ? ?; apply qpow_nonneg, expand_nn; auto).
    rewrite qpow_nz by auto. apply expand_nz; auto. }
  rewrite IH; auto.
  - apply step_nn; auto.
  - intros j' Hj'. apply S; auto.
Qed.
(** The columns of the normalised matrices are empty or have sum 1. *)
Definition stochastic (N : nat) (a : nat -> nat -> Qc) : Prop :=
  forall j, j < N -> (forall i, i < N -> a i j = 0%Qc) \/ qsum N (fun i => a i j) = 1%Qc.
Lemma normal_stoch N a : nn N a -> stochastic N (normal N a).
Proof.
  intros P j Hj.
  assert (D : forall n, (forall i, i < n -> a i j = 0%Qc) \/ exists i, i < n /\ a i j <> 0%Qc).
  { induction n as [|n [IH|(i & Hi & H)]].
    - left. intros; lia.
    - destruct (Qc_eq_dec (a n j) 0) as [Z|NZ]; [|right; exists n; split; [lia|auto]].
      left. intros i Hi. destruct (Nat.eq_dec i n) as [->|]; [auto|apply IH; lia].
    - right. exists i. split; [lia|auto]. }
  destruct (D N) as [Z|(i & Hi & H)].
  - left. intros i Hi. unfold normal. rewrite Z by auto. unfold Qcdiv. ring.
  - right. eapply normal_sum; eauto.
Qed.
Lemma mcl_stoch N e r k : forall a, nn N a -> stochastic N a -> stochastic N (mcl N e r k a).
Proof.
  induction k as [|k IH]; intros a P S; [auto|]. apply IH; [apply step_nn; auto|]. apply normal_stoch.
  intros i j Hi Hj. apply qpow_nonneg. apply expand_nn; auto.
Qed.
