(** Page rank: the loop computes the iterates of the random surfer. *)
From Coq Require Import Lia QArith Qcanon Qcabs Lqa.
From Verif Require Import Base ModelLil ModelVec ModelHelpers ModelViews ModelMul ModelElem
  ModelIndex ModelUtils ModelAlgoBase ModelRank Spec SpecOps SpecRank ProofBase ProofLil ProofVec
  ProofGraph ProofReduce ProofViews ProofUtils ProofVis.
Local Open Scope nat_scope.
Local Open Scope Qc_scope.

(** Linear arithmetic on [Qc] through [Q]. *)
Lemma plus_q x y : (this (x + y)%Qc == this x + this y)%Q.
Proof. apply Qred_correct. Qed.
Lemma mult_q x y : (this (x * y)%Qc == this x * this y)%Q.
Proof. apply Qred_correct. Qed.
Lemma opp_q x : (this (- x)%Qc == - this x)%Q.
Proof. apply Qred_correct. Qed.
Lemma minus_q x y : (this (x - y)%Qc == this x - this y)%Q.
Proof. unfold Qcminus. rewrite plus_q, opp_q. reflexivity. Qed.
Lemma zero_q : this 0%Qc = 0%Q.
Proof. reflexivity. Qed.
Lemma one_q : this 1%Qc = 1%Q.
Proof. reflexivity. Qed.
Lemma eq_q (x y : Qc) : x = y -> (this x == this y)%Q.
Proof. intros ->. reflexivity. Qed.
Ltac qc_q :=
  unfold Qcle, Qclt in *; try apply Qc_is_canon;
  repeat match goal with
  | H : @eq Qc ?x ?y |- _ => apply eq_q in H
  end;
  rewrite ?minus_q, ?plus_q, ?mult_q, ?opp_q, ?zero_q, ?one_q in *.
Ltac qlra := qc_q; lra.
Ltac qnra := qc_q; nra.

Lemma Qc_test (x y z : Qc) : x <= y -> 0 < z -> x + 1 < y + z + 1.
Proof. intros. qlra. Qed.
Lemma Qc_le_lt_dec' (x y : Qc) : {x <= y} + {y < x}.
Proof. destruct (Qclt_le_dec y x); auto. Qed.
Lemma Qc_mult_le x y z : 0 <= z -> x <= y -> x * z <= y * z.
Proof. intros. apply Qcmult_le_compat_r; auto. Qed.
Lemma Qc_mult_nonneg x y : 0 <= x -> 0 <= y -> 0 <= x * y.
Proof. intros. replace 0 with (0 * y) by ring. apply Qc_mult_le; auto. Qed.
Lemma Qc_mult_pos x y : 0 < x -> 0 < y -> 0 < x * y.
Proof. intros. replace 0 with (0 * y) by ring. apply Qcmult_lt_compat_r; auto. Qed.
Lemma Qc_pos_neq x : 0 < x -> x <> 0.
Proof. intros H E. subst. qlra. Qed.
Lemma Qc_inv_pos x : 0 < x -> 0 < / x.
Proof.
  intro H. destruct (Qc_le_lt_dec' (/ x) 0) as [L|]; [|auto]. exfalso.
  assert (E : x * / x = 1) by (apply Qcmult_inv_r, Qc_pos_neq; auto).
  assert (K : / x * x <= 0 * x) by (apply Qc_mult_le; [qlra|auto]).
  replace (/ x * x) with 1 in K by (rewrite <- E; ring). qlra.
Qed.
Lemma nat_q_S n : nat_q (S n) = nat_q n + 1.
Proof.
  apply Qc_is_canon. unfold nat_q, Qcplus, Q2Qc. cbn [this]. rewrite !Qred_correct. unfold Qeq. simpl. lia.
Qed.
Lemma nat_q_nonneg n : 0 <= nat_q n.
Proof. induction n; [discriminate|]. rewrite nat_q_S. qlra. Qed.
Lemma nat_q_pos n : (n <> 0)%nat -> 0 < nat_q n.
Proof. destruct n; [congruence|]. intros _. rewrite nat_q_S. pose proof (nat_q_nonneg n). qlra. Qed.

(** ** Sums *)
Lemma qsum_ext N f g : (forall i, (i < N)%nat -> f i = g i) -> qsum N f = qsum N g.
Proof. induction N; simpl; intros; auto. rewrite IHN by auto. rewrite H by auto. reflexivity. Qed.
Lemma qsum_zero N f : (forall i, (i < N)%nat -> f i = 0) -> qsum N f = 0.
Proof. induction N; simpl; intros; auto. rewrite IHN, H by auto. ring. Qed.
Lemma qsum_add N f g : qsum N (fun i => f i + g i) = qsum N f + qsum N g.
Proof. induction N; simpl; [ring|]. rewrite IHN. ring. Qed.
Lemma qsum_sub N f g : qsum N (fun i => f i - g i) = qsum N f - qsum N g.
Proof. induction N; simpl; [ring|]. rewrite IHN. ring. Qed.
Lemma qsum_scale N f c : qsum N (fun i => c * f i) = c * qsum N f.
Proof. induction N; simpl; [ring|]. rewrite IHN. ring. Qed.
Lemma qsum_const N c : qsum N (fun _ => c) = nat_q N * c.
Proof. induction N; [change (nat_q 0) with 0; cbn [qsum]; ring|]. cbn [qsum]. rewrite IHN, nat_q_S. ring. Qed.
Lemma qsum_swap N M f : qsum N (fun i => qsum M (fun j => f i j)) = qsum M (fun j => qsum N (fun i => f i j)).
Proof.
  induction N; simpl; [symmetry; apply qsum_zero; auto|]. rewrite IHN, <- qsum_add. reflexivity.
Qed.
Lemma qsum_le N f g : (forall i, (i < N)%nat -> f i <= g i) -> qsum N f <= qsum N g.
Proof.
  induction N; simpl; intros H; [qlra|]. assert (qsum N f <= qsum N g) by (apply IHN; auto).
  assert (f N <= g N) by auto. qlra.
Qed.
Lemma qsum_nonneg N f : (forall i, (i < N)%nat -> 0 <= f i) -> 0 <= qsum N f.
Proof. intro H. rewrite <- (qsum_zero N (fun _ => 0)) by auto. apply qsum_le; auto. Qed.
Lemma qsum_pos N f i : (forall j, (j < N)%nat -> 0 <= f j) -> (i < N)%nat -> 0 < f i -> 0 < qsum N f.
Proof.
  induction N as [|N IH]; intros H Hi P; [lia|]. simpl.
  assert (0 <= qsum N f) by (apply qsum_nonneg; auto). assert (0 <= f N) by auto.
  destruct (Nat.eq_dec i N) as [->|]; [qlra|]. assert (0 < qsum N f) by (apply IH; auto; lia). qlra.
Qed.
Lemma qsum_abs N f : Qcabs (qsum N f) <= qsum N (fun i => Qcabs (f i)).
Proof.
  induction N; simpl; [discriminate|]. pose proof (Qcabs_triangle (qsum N f) (f N)). qlra.
Qed.

Lemma osum_snoc' {X} (op : X -> X -> X) l o : osum op (l ++ [o]) = oadd op (osum op l) o.
Proof. unfold osum. rewrite fold_left_app. reflexivity. Qed.

(** Sums of stored numbers. *)
Definition oq (o : option Qc) : Qc := match o with Some x => x | None => 0 end.
Lemma osum_q N h : oq (osum Qcplus (map h (seq 0 N))) = qsum N (fun i => oq (h i)).
Proof.
  induction N; [reflexivity|]. rewrite seq_S, map_app. cbn [map]. rewrite osum_snoc'. cbn [qsum]. rewrite <- IHN.
  change (0 + N)%nat with N. cbv beta. destruct (osum Qcplus (map h (seq 0 N))), (h N); cbn [oadd oq]; ring.
Qed.
Lemma osum_q_some N h : (exists i, (i < N)%nat /\ h i <> None) ->
  osum Qcplus (map h (seq 0 N)) = Some (qsum N (fun i => oq (h i))).
Proof.
  intros (i & Hi & E). rewrite <- osum_q. destruct (osum Qcplus (map h (seq 0 N))) eqn:Eo; [reflexivity|].
  exfalso. apply E. rewrite osum_none_iff in Eo. apply Eo. apply in_map_iff. exists i. split; [auto|apply in_seq; lia].
Qed.

(** ** One iteration of the model *)
Lemma pr_body_ok N m tele p nr dl fp fn fd fm :
  vis N p fp -> vis N nr fn -> vis N dl fd -> sq N m fm ->
  exists nr' dl' e,
    let prod v := osum Qcplus (map (fun u => omap2 Qcmult (fp u) (fm u v)) (seq 0 N)) in
    let fn' v := option_map (fun x => x + tele) (ounion (fun _ y => y) idc idc (fn v) (prod v)) in
    pr_body m tele p nr dl = Ok (nr', dl', e) /\ vis N nr' fn' /\ (exists fd', vis N dl' fd') /\
    e = qsum N (fun v => let x := oq (fp v) - oq (fn' v) in x * x).
Proof.
  intros Vp Vn Vd Vm. unfold pr_body.
  destruct (vis_vxm_acc N Qcplus Qcmult (fun _ y => y) idc btrue vnomask _ MERGE _ _ m _ _ _ Vn Vp Vm (vmis_none N btrue))
    as (n1 & -> & N1). cbn [bind].
  destruct (vis_apply N (fun x => x + tele) btrue vnomask _ MERGE _ _ _ _ N1 N1 (vmis_none N btrue)) as (n2 & -> & N2).
  cbn [bind].
  destruct (vis_add N Qcminus idc idc btrue vnomask _ MERGE _ _ _ _ _ _ Vd Vp N2 (vmis_none N btrue)) as (d1 & -> & D1).
  cbn [bind].
  destruct (vis_mult N Qcmult btrue vnomask _ MERGE _ _ _ _ _ _ D1 D1 D1 (vmis_none N btrue)) as (d2 & -> & D2).
  cbn [bind].
  rewrite (reduce_vs_ok 0 idc Qcplus Qcplus) by (try reflexivity; apply wfv_wfvn, D2). cbn [bind].
  match goal with |- context [Ok (_, _, idc (idc ?s))] => change (idc (idc s)) with s end.
  do 3 eexists. split; [reflexivity|]. split; [exact N2|]. split; [eexists; exact D2|].
  rewrite (ofold_osum idc Qcplus Qcplus) by reflexivity.
  match goal with |- match ?o with _ => _ end = _ => change (oq o = qsum N (fun v =>
     let x := oq (fp v) - oq (option_map (fun x => x + tele) (ounion (fun _ y => y) idc idc (fn v) 
       (osum Qcplus (map (fun u => omap2 Qcmult (fp u) (fm u v)) (seq 0 N))))) in x * x)) end.
  rewrite map_map. destruct D2 as (_ & -> & G2). rewrite osum_q. apply qsum_ext. intros v Hv. rewrite G2 by auto.
  unfold wr. cbv zeta. match goal with |- context [oq (fp v) - oq ?o] => destruct o as [b|] end;
    destruct (fp v) as [a|]; cbn [ounion omap2 oq option_map]; unfold idc; ring.
Qed.

Lemma qn_nat_q n : qn n = nat_q n.
Proof. reflexivity. Qed.

Section Rank.
Context {T : Type} (tr : T -> Qc) (G : lil T) (N : nat) (d : Qc).
Hypothesis WG : wfm G.
Hypothesis RG : nrows G = N.
Hypothesis CG : ncols G = N.
Hypothesis N0 : N <> 0%nat.
Let A := weight tr G.

Lemma pr_matrix :
  exists m1 m2 m, apply tr btrue idc (NoAcc idc) mnomask MERGE (lil_new N N) (Mat G) = Ok m1 /\
    normalize_rows 0 Qcplus Qcmult Qcinv m1 = Ok m2 /\
    apply (fun x => x * d) btrue idc (NoAcc idc) mnomask MERGE m2 (Mat m2) = Ok m /\
    sq N m (fun u v => option_map (fun g => / qsum N (A u) * tr g * d) (mget G u v)).
Proof.
  assert (HG : sq N G (mget G)) by (split; auto).
  destruct (sq_apply N tr btrue mnomask _ MERGE _ G _ _ (sq_new N) HG (mmis_none N btrue)) as (m1 & E1 & M1).
  destruct M1 as (W1 & R1 & C1 & G1).
  destruct (normalize_rows_ok 0 Qcplus Qcmult Qcinv m1 W1) as (m2 & E2 & W2 & R2 & C2 & G2); [congruence|].
  rewrite R1, C1 in *.
  assert (M2 : sq N m2 (fun u v => option_map (fun g => / qsum N (A u) * tr g) (mget G u v))).
  { split; [auto|split; [auto|split; [auto|]]]. intros u v Hu Hv. rewrite G2, G1 by auto. unfold wr.
    destruct (mget G u v) as [g|] eqn:Eg; simpl; [|destruct (osum _ _); reflexivity].
    rewrite (osum_q_some N (mget m1 u)).
    2:{ exists v. split; [auto|]. rewrite G1 by auto. unfold wr. rewrite Eg. discriminate. }
    cbn [omap2 option_map]. do 3 f_equal. apply qsum_ext. intros i Hi. rewrite G1 by auto. unfold wr, A, weight.
    destruct (mget G u i); reflexivity. }
  destruct (sq_apply N (fun x => x * d) btrue mnomask _ MERGE _ _ _ _ M2 M2 (mmis_none N btrue)) as (m & E3 & M3).
  exists m1, m2, m. do 3 (split; [assumption|]). eapply sq_ext; [exact M3|]. intros u v Hu Hv. unfold wr.
  destruct (mget G u v); reflexivity.
Qed.

Hypothesis Apos : forall u v g, mget G u v = Some g -> 0 < tr g.
Lemma A_def u v : A u v = match mget G u v with Some g => tr g | None => 0 end.
Proof. reflexivity. Qed.
Lemma A_nonneg u v : 0 <= A u v.
Proof. unfold A, weight. destruct (mget G u v) eqn:E; [|discriminate]. specialize (Apos _ _ _ E). qlra. Qed.
Lemma out_nonneg u : 0 <= qsum N (A u).
Proof. apply qsum_nonneg. intros. apply A_nonneg. Qed.
Lemma out_pos u v g : mget G u v = Some g -> 0 < qsum N (A u).
Proof.
  intro E. apply (qsum_pos N (A u) v).
  - intros. apply A_nonneg.
  - destruct (Nat.lt_ge_cases v N); auto. rewrite mget_oob in E by (auto; lia). discriminate.
  - unfold A, weight. rewrite E. eapply Apos; eauto.
Qed.
(** The probability of following the edge. *)
Lemma prob_nonneg u v : 0 <= A u v / qsum N (A u).
Proof.
  unfold A at 1, weight at 1. destruct (mget G u v) as [g|] eqn:E.
  - apply Qclt_le_weak. apply Qc_mult_pos; [eapply Apos; eauto|]. apply Qc_inv_pos. eapply out_pos; eauto.
  - unfold Qcdiv. replace (0 * / qsum N (A u)) with 0 by ring. discriminate.
Qed.
Lemma prob_sum u : qsum N (fun v => A u v / qsum N (A u)) <= 1.
Proof.
  rewrite (qsum_ext N _ (fun v => / qsum N (A u) * A u v)) by (intros; unfold Qcdiv; ring).
  rewrite qsum_scale. destruct (Qc_eq_dec (qsum N (A u)) 0) as [->|NE].
  - replace (/ 0 * 0) with 0 by ring. discriminate.
  - rewrite Qcmult_comm, Qcmult_inv_r by auto. discriminate.
Qed.

Hypothesis d0 : 0 <= d.
Hypothesis d1 : d <= 1.
(** Every vertex has an incoming edge. *)
Hypothesis in_edge : forall v, (v < N)%nat -> exists u, mget G u v <> None.

Lemma in_edge_lt v : (v < N)%nat -> exists u g, (u < N)%nat /\ mget G u v = Some g.
Proof.
  intro Hv. destruct (in_edge v Hv) as (u & E). destruct (mget G u v) as [g|] eqn:Eg; [|congruence].
  exists u, g. split; [|auto]. destruct (Nat.lt_ge_cases u N); auto. rewrite mget_oob in Eg by (auto; lia). discriminate.
Qed.

Lemma step_pos r : (forall u, (u < N)%nat -> 0 < r u) -> forall v, (v < N)%nat -> 0 < rank_step N A d r v.
Proof.
  intros HR v Hv. unfold rank_step.
  assert (P : 0 < qsum N (fun u => r u * (A u v / qsum N (A u)))).
  { destruct (in_edge_lt v Hv) as (u & g & Hu & E). apply (qsum_pos _ _ u); auto.
    - intros j Hj. apply Qc_mult_nonneg; [apply Qclt_le_weak; auto|apply prob_nonneg].
    - apply Qc_mult_pos; auto. apply Qc_mult_pos; [|apply Qc_inv_pos; eapply out_pos; eauto].
      unfold A, weight. rewrite E. eapply Apos; eauto. }
  pose proof (Qc_inv_pos _ (nat_q_pos N N0)) as Q. unfold Qcdiv at 1.
  destruct (Qc_eq_dec d 1) as [->|NE].
  - replace ((1 - 1) * / nat_q N) with 0 by ring. qlra.
  - assert (0 < (1 - d) * / nat_q N).
    { apply Qc_mult_pos; auto. destruct (Qc_le_lt_dec' 1 d) as [L|L]; [|qlra].
      exfalso. apply NE. apply Qcle_antisym; auto. }
    assert (0 <= d * qsum N (fun u => r u * (A u v / qsum N (A u)))).
    { apply Qc_mult_nonneg; auto. apply Qclt_le_weak; auto. }
    qlra.
Qed.
Lemma iter_pos k v : (v < N)%nat -> 0 < rank_iter N A d k v.
Proof.
  revert v. induction k; intros v Hv; simpl.
  - unfold Qcdiv. replace (1 * / nat_q N) with (/ nat_q N) by ring. apply Qc_inv_pos, nat_q_pos; auto.
  - apply step_pos; auto.
Qed.

Lemma pr_loop_ok m thr tele : forall max j p nr dl fn fd,
  tele = (1 - d) / nat_q N ->
  sq N m (fun u v => option_map (fun g => / qsum N (A u) * tr g * d) (mget G u v)) ->
  vis N p (fun v => Some (rank_iter N A d j v)) -> vis N nr fn -> vis N dl fd ->
  exists k p' nr', pr_loop max N m tele thr p nr dl = Ok (p', nr') /\
    (j <= k <= j + max)%nat /\ vis N p' (fun v => Some (rank_iter N A d k v)) /\ (exists fn', vis N nr' fn') /\
    ((k < j + max)%nat -> (j < k)%nat /\ mean_square N (rank_iter N A d (k - 1)) (rank_iter N A d k) < thr) /\
    (forall i, (j <= i)%nat -> (i + 1 < k)%nat ->
       thr <= mean_square N (rank_iter N A d i) (rank_iter N A d (i + 1))).
Proof.
  induction max as [|max IH]; intros j p nr dl fn fd Et Hm Vp Vn Vd; simpl.
  - exists j, p, nr. split; [reflexivity|]. split; [lia|]. split; [auto|]. split; [eauto|]. split; [lia|]. intros; lia.
  - destruct (pr_body_ok N m tele p nr dl _ _ _ _ Vp Vn Vd Hm) as (nr' & dl' & e & -> & Vn' & (fd' & Vd') & Ee).
    cbn [bind].
    assert (PR : forall v, (v < N)%nat ->
      option_map (fun x => x + tele) (ounion (fun _ y => y) idc idc (fn v)
        (osum Qcplus (map (fun u => omap2 Qcmult (Some (rank_iter N A d j u))
           (option_map (fun g => / qsum N (A u) * tr g * d) (mget G u v))) (seq 0 N)))) =
      Some (rank_iter N A d (S j) v)).
    { intros v Hv. rewrite osum_q_some.
      - destruct (fn v); cbn [ounion option_map]; unfold idc; f_equal; simpl; unfold rank_step; rewrite Et;
          rewrite (qsum_ext N _ (fun u => d * (rank_iter N A d j u * (A u v / qsum N (A u)))));
          rewrite ?qsum_scale; try ring;
          intros u Hu; rewrite A_def; destruct (mget G u v); cbn [oq omap2 option_map]; unfold Qcdiv; ring.
      - destruct (in_edge_lt v Hv) as (u & g & Hu & E). exists u. split; [auto|]. rewrite E. discriminate. }
    assert (Vn2 : vis N nr' (fun v => Some (rank_iter N A d (S j) v))).
    { eapply vis_ext; [exact Vn'|]. intros v Hv. apply PR; auto. }
    assert (E2 : e / qn N = mean_square N (rank_iter N A d j) (rank_iter N A d (S j))).
    { unfold mean_square. rewrite qn_nat_q. f_equal. rewrite Ee. apply qsum_ext. intros v Hv. cbv zeta beta.
      rewrite PR by auto. reflexivity. }
    destruct (Qclt_le_dec (e / qn N) thr) as [L|L].
    + exists (S j), nr', nr'. split; [reflexivity|]. split; [lia|]. split; [auto|]. split; [eauto|].
      split; [|intros; lia]. intros _. split; [lia|]. replace (S j - 1)%nat with j by lia. rewrite <- E2. exact L.
    + destruct (IH (S j) nr' nr' dl' _ _ Et Hm Vn2 Vn2 Vd') as (k & p' & nr2 & E & Hk & Vk & Vnk & Hlt & Hge).
      exists k, p', nr2. split; [exact E|]. split; [lia|]. split; [auto|]. split; [auto|]. split.
      * intro. destruct Hlt as (? & ?); [lia|]. split; [lia|auto].
      * intros i Hi Hik. destruct (Nat.eq_dec i j) as [->|]; [|apply Hge; lia].
        replace (j + 1)%nat with (S j) by lia. rewrite <- E2. exact L.
Qed.

Theorem page_rank_ok (rt : nat -> Qc) p thr max :
  rt N = nat_q N -> wfv p -> vsize p = N ->
  exists p', page_rank tr rt G p d thr max = Ok p' /\ wfv p' /\ vsize p' = N /\
    exists k, (k <= max)%nat /\
      (forall v, (v < N)%nat -> vget p' v = Some (rank_iter N A d k v)) /\
      ((k < max)%nat -> (0 < k)%nat /\ mean_square N (rank_iter N A d (k - 1)) (rank_iter N A d k) < thr) /\
      (forall i, (i + 1 < k)%nat -> thr <= mean_square N (rank_iter N A d i) (rank_iter N A d (i + 1))).
Proof.
  intros Hrt Wp Sp. unfold page_rank. rewrite RG, CG, Sp, !Nat.eqb_refl. cbn [negb orb].
  destruct pr_matrix as (m1 & m2 & m & -> & E2 & E3 & Hm). cbn [bind]. rewrite E2. cbn [bind]. rewrite E3. cbn [bind].
  destruct (vis_fill N btrue vnomask _ MERGE p _ (1 / qn N) (conj Wp (conj Sp (fun i _ => eq_refl))) (vmis_none N btrue))
    as (p1 & -> & P1). cbn [bind].
  destruct (vis_new 0 N N0) as (n1 & -> & Vn1). cbn [bind].
  assert (P2 : vis N p1 (fun v => Some (rank_iter N A d 0 v))).
  { eapply vis_ext; [exact P1|]. intros. reflexivity. }
  destruct (pr_loop_ok m thr ((1 - d) / rt N) max 0 p1 n1 n1 _ _ ltac:(rewrite Hrt; reflexivity) Hm P2 Vn1 Vn1)
    as (k & p' & nr' & -> & Hk & Vk & (fn' & Vn') & Hlt & Hge). cbn [bind].
  destruct (vis_fill N btrue vnomask _ MERGE nr' _ ((1 - d) / rt N) Vn' (vmis_none N btrue)) as (nr2 & -> & Vn2).
  cbn [bind].
  destruct (vis_add N Qcplus idc idc qtrue (MComp p') _ MERGE p' p' nr2 _ _ _ Vk Vk Vn2 (vmis_comp N qtrue p' _ Vk))
    as (p2 & -> & V2). exists p2. split; [reflexivity|]. split; [apply V2|]. split; [apply V2|].
  exists k. split; [lia|]. split; [|split].
  - intros v Hv. rewrite (vis_get _ _ _ _ V2 Hv). unfold wr, otrue, qtrue.
    destruct (Qc_eq_dec (rank_iter N A d k v) 0) as [E|]; [|reflexivity]. exfalso.
    apply (Qc_pos_neq _ (iter_pos k v Hv)). exact E.
  - intro. apply Hlt. lia.
  - intros. apply Hge; lia.
Qed.
End Rank.

(** ** Convergence *)
Definition l1 (N : nat) (r s : nat -> Qc) : Qc := qsum N (fun v => Qcabs (r v - s v)).

Lemma l1_nonneg N r s : 0 <= l1 N r s.
Proof. apply qsum_nonneg. intros. apply Qcabs_nonneg. Qed.
Lemma l1_triangle N r s t : l1 N r t <= l1 N r s + l1 N s t.
Proof.
  unfold l1. rewrite <- qsum_add. apply qsum_le. intros i _.
  pose proof (Qcabs_triangle (r i - s i) (s i - t i)) as H.
  replace (r i - s i + (s i - t i)) with (r i - t i) in H by ring. exact H.
Qed.
Lemma l1_ext N r r' s s' : (forall v, (v < N)%nat -> r v = r' v) -> (forall v, (v < N)%nat -> s v = s' v) ->
  l1 N r s = l1 N r' s'.
Proof. intros. apply qsum_ext. intros. rewrite H, H0 by auto. reflexivity. Qed.

Lemma sq_abs x : Qcabs x * Qcabs x = x * x.
Proof. apply Qcabs_case; intros; ring. Qed.
Lemma sq_nonneg x : 0 <= x * x.
Proof. rewrite <- sq_abs. apply Qc_mult_nonneg; apply Qcabs_nonneg. Qed.

(** The sum of the squares and the square of the sum. *)
Lemma squares_le N f : (forall i, (i < N)%nat -> 0 <= f i) -> qsum N (fun i => f i * f i) <= qsum N f * qsum N f.
Proof.
  induction N as [|N IH]; intro H; cbn [qsum]; [discriminate|].
  assert (I1 : qsum N (fun i => f i * f i) <= qsum N f * qsum N f) by (apply IH; auto).
  assert (I2 : 0 <= qsum N f * f N) by (apply Qc_mult_nonneg; [apply qsum_nonneg; auto|auto]).
  replace ((qsum N f + f N) * (qsum N f + f N))
    with (qsum N f * qsum N f + (qsum N f * f N + qsum N f * f N) + f N * f N) by ring.
  revert I1 I2. generalize (qsum N f * qsum N f) (qsum N f * f N) (f N * f N) (qsum N (fun i => f i * f i)).
  intros a b c e I1 I2. qlra.
Qed.
Lemma cauchy N f : qsum N f * qsum N f <= nat_q N * qsum N (fun i => f i * f i).
Proof.
  assert (H : 0 <= qsum N (fun i => qsum N (fun j => (f i - f j) * (f i - f j)))).
  { apply qsum_nonneg. intros. apply qsum_nonneg. intros. apply sq_nonneg. }
  set (Q := qsum N (fun i => f i * f i)) in *.
  rewrite (qsum_ext N _ (fun i => nat_q N * (f i * f i) + ((- (1 + 1) * qsum N f) * f i + Q))) in H.
  2:{ intros i _. rewrite (qsum_ext N _ (fun j => f i * f i + ((- (1 + 1) * f i) * f j + f j * f j))) by (intros; ring).
      rewrite !qsum_add, qsum_const, qsum_scale. fold Q. ring. }
  rewrite !qsum_add, !qsum_scale, qsum_const in H. fold Q in H.
  replace (nat_q N * Q + (- (1 + 1) * qsum N f * qsum N f + nat_q N * Q))
    with (nat_q N * Q + nat_q N * Q - (qsum N f * qsum N f + qsum N f * qsum N f)) in H by ring.
  revert H. generalize (nat_q N * Q) (qsum N f * qsum N f). intros. qlra.
Qed.

(** Powers of a number below one. *)
Lemma pow_small x eps : 0 <= x -> x < 1 -> 0 < eps -> exists k, Qcpower x k < eps.
Proof.
  intros X0 X1 He.
  assert (B : forall k, 0 <= Qcpower x k /\ Qcpower x k * (1 + nat_q k * (1 - x)) <= 1).
  { induction k as [|k (I0 & I1)]; [split; discriminate|]. cbn [Qcpower]. split; [apply Qc_mult_nonneg; auto|].
    rewrite nat_q_S. pose proof (nat_q_nonneg k) as K0.
    assert (P : 0 <= Qcpower x k * ((nat_q k + 1) * ((1 - x) * (1 - x)))).
    { apply Qc_mult_nonneg; auto. apply Qc_mult_nonneg; [qlra|]. apply sq_nonneg. }
    replace (x * Qcpower x k * (1 + (nat_q k + 1) * (1 - x)))
      with (Qcpower x k * (1 + nat_q k * (1 - x)) - Qcpower x k * ((nat_q k + 1) * ((1 - x) * (1 - x)))) by ring.
    revert I1 P. generalize (Qcpower x k * (1 + nat_q k * (1 - x))) (Qcpower x k * ((nat_q k + 1) * ((1 - x) * (1 - x)))).
    intros. qlra. }
  assert (AR : forall y : Qc, exists k, y < nat_q k).
  { intro y. exists (Z.to_nat (Z.max 0 (Qnum y)) + 1)%nat. unfold Qclt, nat_q, Q2Qc. cbn [this]. rewrite Qred_correct.
    unfold Qlt. cbn [Qnum Qden]. nia. }
  destruct (AR (/ (eps * (1 - x)))) as (k & Hk). exists k. destruct (B k) as (P0 & P1).
  assert (X2 : 0 < 1 - x) by qlra.
  assert (EX : 0 < eps * (1 - x)) by (apply Qc_mult_pos; auto).
  assert (K1 : 1 < nat_q k * (eps * (1 - x))).
  { pose proof (Qcmult_lt_compat_r _ _ _ EX Hk) as K. rewrite (Qcmult_comm (/ _)), Qcmult_inv_r in K; auto.
    apply Qc_pos_neq; auto. }
  destruct (Qc_le_lt_dec' eps (Qcpower x k)) as [L|L]; [exfalso|auto].
  assert (L2 : eps * (1 + nat_q k * (1 - x)) <= Qcpower x k * (1 + nat_q k * (1 - x))).
  { apply Qc_mult_le; auto. assert (0 <= nat_q k * (1 - x)).
    { apply Qc_mult_nonneg; [apply nat_q_nonneg|apply Qclt_le_weak; auto]. } 
    revert H. generalize (nat_q k * (1 - x)). intros. qlra. }
  replace (eps * (1 + nat_q k * (1 - x))) with (eps + nat_q k * (eps * (1 - x))) in L2 by ring.
  revert L2 K1 P1. generalize (nat_q k * (eps * (1 - x))) (Qcpower x k * (1 + nat_q k * (1 - x))). intros. qlra.
Qed.

Section Contraction.
Context (N : nat) (A : nat -> nat -> Qc) (d : Qc).
Hypothesis P0 : forall u v, 0 <= A u v / qsum N (A u).
Hypothesis P1 : forall u, qsum N (fun v => A u v / qsum N (A u)) <= 1.
Hypothesis d0 : 0 <= d.

Lemma step_contracts r s : l1 N (rank_step N A d r) (rank_step N A d s) <= d * l1 N r s.
Proof.
  unfold l1.
  assert (H : forall v, (v < N)%nat -> Qcabs (rank_step N A d r v - rank_step N A d s v) <=
            d * qsum N (fun u => Qcabs (r u - s u) * (A u v / qsum N (A u)))).
  { intros v _. unfold rank_step.
    replace ((1 - d) / nat_q N + d * qsum N (fun u => r u * (A u v / qsum N (A u))) -
             ((1 - d) / nat_q N + d * qsum N (fun u => s u * (A u v / qsum N (A u)))))
      with (d * qsum N (fun u => (r u - s u) * (A u v / qsum N (A u)))).
    2:{ rewrite (qsum_ext N (fun u => (r u - s u) * (A u v / qsum N (A u)))
          (fun u => r u * (A u v / qsum N (A u)) - s u * (A u v / qsum N (A u)))) by (intros; ring).
        rewrite qsum_sub. ring. }
    rewrite Qcabs_Qcmult, (Qcabs_pos d) by auto. rewrite !(Qcmult_comm d). apply Qc_mult_le; auto.
    eapply Qcle_trans; [apply qsum_abs|]. apply qsum_le. intros u _. rewrite Qcabs_Qcmult, (Qcabs_pos (A u v / _)) by auto.
    apply Qcle_refl. }
  eapply Qcle_trans; [apply qsum_le; exact H|]. rewrite qsum_scale. rewrite !(Qcmult_comm d). apply Qc_mult_le; auto.
  rewrite qsum_swap. apply qsum_le. intros u _. rewrite qsum_scale. rewrite Qcmult_comm.
  replace (Qcabs (r u - s u)) with (1 * Qcabs (r u - s u)) at 2 by ring. apply Qc_mult_le; [apply Qcabs_nonneg|auto].
Qed.

Lemma iter_l1 k : l1 N (rank_iter N A d k) (rank_iter N A d (S k)) <=
  Qcpower d k * l1 N (rank_iter N A d 0) (rank_iter N A d 1).
Proof.
  induction k as [|k IH].
  - cbn [Qcpower]. rewrite Qcmult_1_l. apply Qcle_refl.
  - eapply Qcle_trans; [apply (step_contracts (rank_iter N A d k) (rank_iter N A d (S k)))|].
    change (Qcpower d (S k)) with (d * Qcpower d k). rewrite <- Qcmult_assoc, !(Qcmult_comm d). apply Qc_mult_le; auto.
Qed.

Hypothesis d1 : d < 1.
Hypothesis N0 : N <> 0%nat.

Lemma iter_converges thr : 0 < thr ->
  exists k, mean_square N (rank_iter N A d k) (rank_iter N A d (k + 1)) < thr.
Proof.
  intro Ht. set (C := l1 N (rank_iter N A d 0) (rank_iter N A d 1)). pose proof (l1_nonneg N _ _ : 0 <= C) as C0.
  pose proof (nat_q_pos N N0) as NP. set (eps := (if Qclt_le_dec thr 1 then thr else 1) * / (C + 1)).
  assert (CP : 0 < C + 1) by qlra. pose proof (Qc_inv_pos _ CP) as CI.
  set (e1 := if Qclt_le_dec thr 1 then thr else 1) in *.
  assert (E1 : 0 < e1 /\ e1 <= 1 /\ e1 <= thr).
  { unfold e1. destruct (Qclt_le_dec thr 1); repeat split; auto; try qlra. }
  destruct (pow_small d eps) as (k & Hk); auto; [apply Qc_mult_pos; [apply E1|auto]|].
  exists k. replace (k + 1)%nat with (S k) by lia. pose proof (iter_l1 k) as L. fold C in L.
  set (D := l1 N (rank_iter N A d k) (rank_iter N A d (S k))) in *.
  assert (D0 : 0 <= D) by apply l1_nonneg.
  assert (D1 : D < e1).
  { assert (K : Qcpower d k * C <= eps * C) by (apply Qc_mult_le; [auto|apply Qclt_le_weak; auto]).
    assert (Q : eps * (C + 1) = e1).
    { unfold eps. rewrite <- Qcmult_assoc, (Qcmult_comm (/ _)), Qcmult_inv_r by (apply Qc_pos_neq; auto). ring. }
    assert (EP : 0 < eps) by (apply Qc_mult_pos; [apply E1|auto]).
    replace (eps * (C + 1)) with (eps * C + eps) in Q by ring. revert Q K L. generalize (eps * C) (Qcpower d k * C).
    intros. qlra. }
  unfold mean_square.
  assert (SQ : qsum N (fun v => (rank_iter N A d k v - rank_iter N A d (S k) v) * (rank_iter N A d k v - rank_iter N A d (S k) v))
               <= D * D).
  { rewrite (qsum_ext N _ (fun v => Qcabs (rank_iter N A d k v - rank_iter N A d (S k) v) *
        Qcabs (rank_iter N A d k v - rank_iter N A d (S k) v))) by (intros; rewrite sq_abs; reflexivity).
    apply squares_le. intros. apply Qcabs_nonneg. }
  assert (DD : D * D < thr).
  { destruct E1 as (E1 & E2 & E3). assert (D * D <= 1 * D) by (apply Qc_mult_le; [auto|qlra]).
    replace (1 * D) with D in H by ring. revert H. generalize (D * D). intros. qlra. }
  assert (NI : / nat_q N <= 1).
  { assert (1 <= nat_q N).
    { destruct N as [|n]; [congruence|]. rewrite nat_q_S. pose proof (nat_q_nonneg n). qlra. }
    pose proof (Qc_inv_pos _ NP). assert (1 * / nat_q N <= nat_q N * / nat_q N) by (apply Qc_mult_le; [qlra|auto]).
    rewrite Qcmult_inv_r, Qcmult_1_l in H1 by (apply Qc_pos_neq; auto). auto. }
  set (X := qsum N _) in *. assert (X0 : 0 <= X) by (apply qsum_nonneg; intros; apply sq_nonneg).
  unfold Qcdiv. assert (X * / nat_q N <= 1 * X) by (rewrite Qcmult_comm; apply Qc_mult_le; auto).
  replace (1 * X) with X in H by ring. revert H. generalize (X * / nat_q N). intros. qlra.
Qed.

(** The distance to a fixed point. *)
Lemma iter_accuracy r k thr :
  (forall v, (v < N)%nat -> r v = rank_step N A d r v) -> (0 < k)%nat ->
  mean_square N (rank_iter N A d (k - 1)) (rank_iter N A d k) < thr ->
  let D := (1 - d) * l1 N (rank_iter N A d k) r in D * D <= d * nat_q N * (d * nat_q N) * thr.
Proof.
  intros Hr Hk HT D. destruct k as [|k]; [lia|]. replace (S k - 1)%nat with k in HT by lia.
  set (s := rank_iter N A d k) in *. set (s' := rank_iter N A d (S k)) in *.
  assert (L1 : l1 N s' r <= d * l1 N s r).
  { rewrite (l1_ext N s' s' r (rank_step N A d r)) by auto. apply (step_contracts s r). }
  pose proof (l1_triangle N s s' r) as TR. set (E := l1 N s s') in *.
  assert (E0 : 0 <= E) by apply l1_nonneg.
  assert (DE : D <= d * E).
  { unfold D. assert (K : l1 N s r * d <= (E + l1 N s' r) * d) by (apply Qc_mult_le; auto).
    replace ((1 - d) * l1 N s' r) with (l1 N s' r - d * l1 N s' r) by ring.
    replace ((E + l1 N s' r) * d) with (d * E + d * l1 N s' r) in K by ring.
    replace (l1 N s r * d) with (d * l1 N s r) in K by ring.
    revert K L1. generalize (d * E) (d * l1 N s' r) (d * l1 N s r) (l1 N s' r). intros. qlra. }
  assert (D0 : 0 <= D).
  { apply Qc_mult_nonneg; [qlra|apply l1_nonneg]. }
  assert (C : E * E <= nat_q N * nat_q N * thr).
  { unfold E, l1. eapply Qcle_trans; [apply cauchy|]. cbv beta.
    rewrite (qsum_ext N _ (fun v => (s v - s' v) * (s v - s' v))) by (intros; apply sq_abs).
    unfold mean_square in HT. set (X := qsum N _) in *. pose proof (nat_q_pos N N0) as NP.
    assert (K : X <= thr * nat_q N).
    { assert (K : X / nat_q N * nat_q N <= thr * nat_q N) by (apply Qc_mult_le; [apply nat_q_nonneg|apply Qclt_le_weak; auto]).
      unfold Qcdiv in K. rewrite <- Qcmult_assoc, (Qcmult_comm (/ _)), Qcmult_inv_r, Qcmult_1_r in K by (apply Qc_pos_neq; auto). auto. }
    replace (nat_q N * nat_q N * thr) with (thr * nat_q N * nat_q N) by ring. rewrite Qcmult_comm.
    apply Qc_mult_le; auto. apply nat_q_nonneg. }
  assert (S1 : D * D <= d * E * D) by (apply Qc_mult_le; auto).
  assert (S2 : D * (d * E) <= d * E * (d * E)) by (apply Qc_mult_le; [apply Qc_mult_nonneg; auto|auto]).
  assert (S3 : E * E * (d * d) <= nat_q N * nat_q N * thr * (d * d)) by (apply Qc_mult_le; [apply sq_nonneg|auto]).
  replace (d * nat_q N * (d * nat_q N) * thr) with (nat_q N * nat_q N * thr * (d * d)) by ring.
  replace (d * E * (d * E)) with (E * E * (d * d)) in S2 by ring. replace (D * (d * E)) with (d * E * D) in S2 by ring.
  eapply Qcle_trans; [exact S1|]. eapply Qcle_trans; [exact S2|exact S3].
Qed.

(** Probabilities sum to one. *)
Lemma iter_sum k : (forall u, (u < N)%nat -> qsum N (A u) <> 0) -> qsum N (rank_iter N A d k) = 1.
Proof.
  intro HO. pose proof (nat_q_pos N N0) as NP. induction k as [|k IH].
  - cbn [rank_iter]. rewrite qsum_const. unfold Qcdiv. rewrite Qcmult_1_l. apply Qcmult_inv_r, Qc_pos_neq; auto.
  - cbn [rank_iter]. unfold rank_step. rewrite qsum_add, qsum_const, qsum_scale, qsum_swap.
    rewrite (qsum_ext N _ (rank_iter N A d k)).
    + rewrite IH. unfold Qcdiv. field. apply Qc_pos_neq; auto.
    + intros u Hu. rewrite qsum_scale.
      rewrite (qsum_ext N _ (fun v => / qsum N (A u) * A u v)) by (intros; unfold Qcdiv; ring).
      rewrite qsum_scale. rewrite Qcmult_comm, (Qcmult_comm (/ _)), Qcmult_inv_r by auto. ring.
Qed.
End Contraction.

(** ** A vertex that no edge leads to: the path 0 -> 1 -> 2 *)
Definition chain3 : lil Z := mkLil 3 3 2%Z (cons (cons (1%nat, 1%Z) nil) (cons (cons (2%nat, 1%Z) nil) (cons nil nil))).
Definition z_q (z : Z) : Qc := Q2Qc (z # 1).
Definition chain_f (o : option Qc) (a b : Qc) (v : nat) : option Qc :=
  match v with O => o | 1%nat => Some a | _ => Some b end.

Lemma chain3_body m p nr dl a b fd :
  let d := Q2Qc (17 # 20) in let tele := Q2Qc (1 # 20) in
  sq 3 m (fun u v => option_map (fun g => / qsum 3 (weight z_q chain3 u) * z_q g * d) (mget chain3 u v)) ->
  vis 3 p (chain_f None a b) -> vis 3 nr (chain_f None a b) -> vis 3 dl fd ->
  exists nr' dl' e b', pr_body m tele p nr dl = Ok (nr', dl', e) /\
    vis 3 nr' (chain_f None (a + tele) b') /\ (exists fd', vis 3 dl' fd') /\ tele * tele <= e.
Proof.
  intros d tele Hm Vp Vn Vd.
  destruct (pr_body_ok 3 m tele p nr dl _ _ _ _ Vp Vn Vd Hm) as (nr' & dl' & e & E & V' & D' & Ee).
  exists nr', dl', e, (oq (option_map (fun x => x + tele)
     (ounion (fun _ y => y) idc idc (Some b)
       (osum Qcplus (map (fun u => omap2 Qcmult (chain_f None a b u)
         (option_map (fun g => / qsum 3 (weight z_q chain3 u) * z_q g * d) (mget chain3 u 2%nat))) (seq 0 3)))))).
  split; [exact E|]. split; [|split; [exact D'|]].
  - eapply vis_ext; [exact V'|]. intros v Hv. destruct v as [|[|[|v]]]; [reflexivity|reflexivity|reflexivity|lia].
  - rewrite Ee. apply Qcle_trans with (y := qsum 3 (fun v => if Nat.eqb v 1 then tele * tele else 0)).
    + cbn [qsum Nat.eqb]. qlra.
    + apply qsum_le. intros v Hv. destruct (Nat.eqb_spec v 1) as [->|]; cbv zeta; [|apply sq_nonneg].
      replace (oq (chain_f None a b 1)) with a by reflexivity.
      match goal with |- _ <= (a - ?x) * _ => replace x with (a + tele) by reflexivity end.
      replace ((a - (a + tele)) * (a - (a + tele))) with (tele * tele) by ring. apply Qcle_refl.
Qed.

Lemma chain3_loop m max : forall p nr dl a b fd,
  let d := Q2Qc (17 # 20) in let tele := Q2Qc (1 # 20) in let thr := Q2Qc (1 # 100000) in
  sq 3 m (fun u v => option_map (fun g => / qsum 3 (weight z_q chain3 u) * z_q g * d) (mget chain3 u v)) ->
  vis 3 p (chain_f None a b) -> vis 3 nr (chain_f None a b) -> vis 3 dl fd ->
  exists p' nr' b' fn', pr_loop max 3 m tele thr p nr dl = Ok (p', nr') /\
    vis 3 p' (chain_f None (a + nat_q max * tele) b') /\ vis 3 nr' fn'.
Proof.
  induction max as [|max IH]; intros p nr dl a b fd d tele thr Hm Vp Vn Vd; cbn [pr_loop].
  - exists p, nr, b, (chain_f None a b). split; [reflexivity|]. split; [|auto].
    replace (a + nat_q 0 * tele) with a by (change (nat_q 0) with 0; ring). auto.
  - destruct (chain3_body m p nr dl a b fd Hm Vp Vn Vd) as (nr' & dl' & e & b' & E & V' & (fd' & Vd') & L).
    fold tele in E, V', L. rewrite E. cbn [bind].
    destruct (Qclt_le_dec (e / qn 3) thr) as [C|C].
    + exfalso. assert (K : tele * tele * / qn 3 <= e * / qn 3) by (apply Qc_mult_le; [discriminate|auto]).
      apply (Qcle_not_lt _ _ K). eapply Qclt_le_trans; [exact C|]. vm_compute. discriminate.
    + destruct (IH nr' nr' dl' (a + tele) b' fd' Hm V' V' Vd') as (p2 & nr2 & b2 & fn2 & E2 & P2 & N2).
      exists p2, nr2, b2, fn2. split; [exact E2|]. split; [|auto].
      replace (a + nat_q (S max) * tele) with (a + tele + nat_q max * tele) by (rewrite nat_q_S; ring). auto.
Qed.

Theorem chain3_rank max p :
  wfv p -> vsize p = 3%nat ->
  exists p', page_rank z_q nat_q chain3 p (Q2Qc (17 # 20)) (Q2Qc (1 # 100000)) (S max) = Ok p' /\
    vget p' 1%nat = Some (Q2Qc (1 # 3) + nat_q max * Q2Qc (1 # 20)).
Proof.
  intros Wp Sp. unfold page_rank. change (nrows chain3) with 3%nat. change (ncols chain3) with 3%nat. rewrite Sp.
  cbn [negb orb Nat.eqb].
  assert (WC : wfm chain3) by wf_mat.
  destruct (pr_matrix z_q chain3 3 (Q2Qc (17 # 20)) WC eq_refl eq_refl ltac:(discriminate))
    as (m1 & m2 & m & -> & E2 & E3 & Hm). cbn [bind]. rewrite E2. cbn [bind]. rewrite E3. cbn [bind].
  destruct (vis_fill 3 btrue vnomask _ MERGE p _ (1 / qn 3) (conj Wp (conj Sp (fun i _ => eq_refl))) (vmis_none 3 btrue))
    as (p1 & -> & P1). cbn [bind].
  destruct (vis_new 0 3 ltac:(discriminate)) as (n1 & -> & Vn1). cbn [bind].
  assert (ET : (1 - Q2Qc (17 # 20)) / nat_q 3 = Q2Qc (1 # 20)) by (apply Qc_is_canon; reflexivity).
  rewrite ET. cbn [pr_loop].
  destruct (pr_body_ok 3 m (Q2Qc (1 # 20)) p1 n1 n1 _ _ _ _ P1 Vn1 Vn1 Hm) as (nr & dl & e & -> & Vr & (fd & Vd) & Ee).
  cbn [bind].
  assert (Vr2 : vis 3 nr (chain_f None (Q2Qc (1 # 3)) (Q2Qc (1 # 3)))).
  { eapply vis_ext; [exact Vr|]. intros v Hv.
    destruct v as [|[|[|v]]]; [reflexivity| | |lia]; cbn [chain_f]; vm_compute; f_equal; apply Qc_is_canon; reflexivity. }
  destruct (Qclt_le_dec (e / qn 3) (Q2Qc (1 # 100000))) as [C|C].
  { exfalso. rewrite Ee in C. vm_compute in C. discriminate. }
  destruct (chain3_loop m max nr nr dl _ _ _ Hm Vr2 Vr2 Vd) as (p2 & nr2 & b2 & fn2 & -> & P2 & N2). cbn [bind].
  destruct (vis_fill 3 btrue vnomask _ MERGE nr2 _ (Q2Qc (1 # 20)) N2 (vmis_none 3 btrue)) as (nr3 & -> & Vn3).
  cbn [bind].
  destruct (vis_add 3 Qcplus idc idc qtrue (MComp p2) _ MERGE p2 p2 nr3 _ _ _ P2 P2 Vn3 (vmis_comp 3 qtrue p2 _ P2))
    as (p3 & -> & V3). exists p3. split; [reflexivity|]. rewrite (vis_get _ _ _ _ V3) by lia. unfold wr, otrue, qtrue.
  cbn [chain_f]. destruct (Qc_eq_dec _ 0) as [E|]; [|reflexivity]. exfalso.
  assert (0 <= nat_q max * Q2Qc (1 # 20)) by (apply Qc_mult_nonneg; [apply nat_q_nonneg|discriminate]).
  assert (0 < Q2Qc (1 # 3)) by reflexivity.
  revert E H H0. generalize (nat_q max * Q2Qc (1 # 20)) (Q2Qc (1 # 3)). intros. qlra.
Qed.

Lemma chain3_true k : rank_iter 3 (weight z_q chain3) (Q2Qc (17 # 20)) (S (S k)) 1%nat = Q2Qc (37 # 400).
Proof.
  cbn [rank_iter]. unfold rank_step at 1. cbn [qsum].
  assert (E0 : rank_step 3 (weight z_q chain3) (Q2Qc (17 # 20)) (rank_iter 3 (weight z_q chain3) (Q2Qc (17 # 20)) k) 0%nat
               = Q2Qc (1 # 20)).
  { unfold rank_step. generalize (rank_iter 3 (weight z_q chain3) (Q2Qc (17 # 20)) k). intro r. cbn [qsum].
    replace (weight z_q chain3 0 0) with 0 by reflexivity. replace (weight z_q chain3 1 0) with 0 by reflexivity.
    replace (weight z_q chain3 2 0) with 0 by reflexivity. unfold Qcdiv at 2 3 4.
    replace ((1 - Q2Qc (17 # 20)) / nat_q 3) with (Q2Qc (1 # 20)) by (apply Qc_is_canon; reflexivity). ring. }
  rewrite E0. set (r := rank_step 3 _ _ _). 
  replace (weight z_q chain3 0 1) with 1 by reflexivity. replace (weight z_q chain3 1 1) with 0 by reflexivity.
  replace (weight z_q chain3 2 1) with 0 by reflexivity.
  replace ((1 - Q2Qc (17 # 20)) / nat_q 3) with (Q2Qc (1 # 20)) by (apply Qc_is_canon; reflexivity).
  unfold Qcdiv at 2 3.
  match goal with |- _ + _ * (0 + ?a * (1 / ?b) + ?c * (0 * ?e) + ?f * (0 * ?g)) = _ =>
    replace (0 + a * (1 / b) + c * (0 * e) + f * (0 * g)) with (a * (1 / b)) by ring end.
  apply Qc_is_canon. reflexivity.
Qed.
