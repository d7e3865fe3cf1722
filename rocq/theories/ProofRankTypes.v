(** Page rank over any type of numbers, and over [double]. *)
From Coq Require Import ZArith QArith Qabs Qcanon Lia Lqa Floats.SpecFloat.
From Verif Require Import Base ModelLil ModelVec ModelHelpers ModelViews ModelMul ModelElem ModelIndex ModelUtils ModelAlgoBase ModelRank ModelFloat ModelFsssp ModelConv ModelRankTypes
  Spec SpecOps SpecRank SpecFloats SpecFpaths SpecIntPaths SpecConv SpecNormalize SpecRankTypes
  ProofBase ProofLil ProofVec ProofGraph ProofReduce ProofViews ProofUtils ProofVis ProofRank ProofFloat ProofConv ProofNormalize ProofNormalizeRows ProofApprox.
Local Open Scope nat_scope.

(** ** Over the rational numbers it is the function of ModelRank.v *)
Definition qless (x y : Qc) : bool := if Qclt_le_dec x y then true else false.
Lemma rt_loop_q max N m tele thr : forall p nr dl,
  rt_loop 0%Qc Qcplus Qcminus Qcmult Qcdiv qless qn max N m tele thr p nr dl = pr_loop max N m tele thr p nr dl.
Proof.
  induction max as [|max IH]; intros p nr dl; [reflexivity|]. cbn [rt_loop pr_loop]. change (rt_body 0%Qc Qcplus Qcminus Qcmult m tele p nr dl) with (pr_body m tele p nr dl).
  destruct (pr_body m tele p nr dl) as [[[nr' dl'] e]| |]; cbn [bind]; auto. unfold qless. destruct (Qclt_le_dec (e / qn N)%Qc thr); auto.
Qed.
Lemma bind_ext {A B} (x : res A) (f g : A -> res B) : (forall a, f a = g a) -> bind x f = bind x g.
Proof. intros H. destruct x; cbn; auto. Qed.
Lemma rt_page_rank_q {T} (tr : T -> Qc) rt G p d thr max :
  rt_page_rank 0%Qc 1%Qc Qcplus Qcminus Qcmult Qcdiv Qcinv qless qtrue qn tr rt G p d thr max = page_rank tr rt G p d thr max.
Proof.
  unfold rt_page_rank, page_rank. destruct (negb (nrows G =? ncols G) || negb (vsize p =? nrows G)); [reflexivity|]. cbv zeta.
  do 3 (apply bind_ext; intro). do 3 (apply bind_ext; intro). rewrite rt_loop_q. reflexivity.
Qed.

Section Generic.
Context {R : Type} (zero one : R) (plus minus times div : R -> R -> R) (inv : R -> R) (less : R -> R -> bool)
  (truthy : R -> bool) (of_index : nat -> R).
Definition oget (o : option R) : R := match o with Some x => x | None => zero end.
Lemma osum_ne N (h : nat -> option R) i : i < N -> h i <> None -> exists s, osum plus (map h (seq 0 N)) = Some s.
Proof.
  intros Hi E. destruct (osum plus (map h (seq 0 N))) eqn:Eo; [eauto|]. exfalso. apply E. rewrite osum_none_iff in Eo.
  apply Eo. apply in_map_iff. exists i. split; auto. apply in_seq. lia.
Qed.
Lemma osum_ge N (h : nat -> option R) s : osum plus (map h (seq 0 N)) = Some s -> osum plus (map h (seq 0 N)) = Some (oget (osum plus (map h (seq 0 N)))).
Proof. intros ->. reflexivity. Qed.

(** The new rank of [v] and the squared change. *)
Definition gstep (N : nat) (fm : nat -> nat -> option R) (tele : R) (r : nat -> R) (v : nat) : R :=
  plus (oget (osum plus (map (fun u => option_map (times (r u)) (fm u v)) (seq 0 N)))) tele.
Definition gchange (N : nat) (r s : nat -> R) : R :=
  let square v := times (minus (r v) (s v)) (minus (r v) (s v)) in
  div (fold_left plus (map square (seq 1 (N - 1))) (square 0)) (of_index N).
Fixpoint giter (N : nat) (fm : nat -> nat -> option R) (tele init : R) (k : nat) : nat -> R :=
  match k with O => fun _ => init | S j => gstep N fm tele (giter N fm tele init j) end.

Lemma osum_some_all N (f : nat -> R) : N <> 0 -> osum plus (map (fun v => Some (f v)) (seq 0 N)) = Some (fold_left plus (map f (seq 1 (N - 1))) (f 0)).
Proof.
  intros H. destruct N as [|n]; [lia|]. cbn [seq map]. replace (S n - 1) with n by lia. unfold osum. cbn [fold_left oadd].
  generalize (f 0) as a. generalize (seq 1 n) as l. induction l as [|x l IH]; intro a; cbn; auto.
Qed.

Lemma rt_body_ok N m tele p nr dl fp fn fd fm : N <> 0 ->
  vis N p (fun v => Some (fp v)) -> vis N nr fn -> vis N dl fd -> sq N m fm ->
  (forall v, v < N -> exists u, u < N /\ fm u v <> None) ->
  exists nr' dl' e, rt_body zero plus minus times m tele p nr dl = Ok (nr', dl', e) /\
    vis N nr' (fun v => Some (gstep N fm tele fp v)) /\ (exists fd', vis N dl' fd') /\
    div e (of_index N) = gchange N fp (gstep N fm tele fp).
Proof.
  intros N0 Vp Vn Vd Vm IN. unfold rt_body.
  destruct (vis_vxm_acc N plus times (fun _ y => y) idc btrue vnomask _ MERGE _ _ m _ _ _ Vn Vp Vm (vmis_none N btrue))
    as (n1 & -> & N1). cbn [bind].
  destruct (vis_apply N (fun x => plus x tele) btrue vnomask _ MERGE _ _ _ _ N1 N1 (vmis_none N btrue)) as (n2 & -> & N2).
  cbn [bind].
  destruct (vis_add N minus idc idc btrue vnomask _ MERGE _ _ _ _ _ _ Vd Vp N2 (vmis_none N btrue)) as (d1 & -> & D1).
  cbn [bind].
  destruct (vis_mult N times btrue vnomask _ MERGE _ _ _ _ _ _ D1 D1 D1 (vmis_none N btrue)) as (d2 & -> & D2).
  cbn [bind].
  rewrite (reduce_vs_ok zero idc plus plus) by (try reflexivity; apply wfv_wfvn, D2). cbn [bind].
  match goal with |- context [Ok (_, _, idc (idc ?s))] => change (idc (idc s)) with s end.
  assert (PR : forall v, v < N -> option_map (fun x => plus x tele) (ounion (fun _ y => y) idc idc (fn v)
       (osum plus (map (fun u => omap2 times (Some (fp u)) (fm u v)) (seq 0 N)))) = Some (gstep N fm tele fp v)).
  { intros v Hv. destruct (IN v Hv) as (u & Hu & E).
    rewrite (map_ext (fun u => omap2 times (Some (fp u)) (fm u v)) (fun u => option_map (times (fp u)) (fm u v))) by (intro a; destruct (fm a v); reflexivity).
    unfold gstep. destruct (osum_ne N (fun u => option_map (times (fp u)) (fm u v)) u Hu) as (s & ->); [destruct (fm u v); [discriminate|congruence]|].
    destruct (fn v); reflexivity. }
  do 3 eexists. split; [reflexivity|]. split; [|split; [eexists; exact D2|]].
  - eapply vis_ext; [exact N2|]. intros v Hv. apply PR; auto.
  - unfold gchange. f_equal. rewrite (ofold_osum idc plus plus) by reflexivity. rewrite map_map. destruct D2 as (_ & -> & G2).
    rewrite (map_ext_in _ (fun v => Some (times (minus (fp v) (gstep N fm tele fp v)) (minus (fp v) (gstep N fm tele fp v))))).
    + rewrite osum_some_all by auto. reflexivity.
    + intros v Hv. apply in_seq in Hv. rewrite G2 by lia. unfold wr. rewrite PR by lia. reflexivity.
Qed.

Lemma rt_loop_ok N m tele thr fm init : N <> 0 -> sq N m fm -> (forall v, v < N -> exists u, u < N /\ fm u v <> None) ->
  let r := giter N fm tele init in
  forall max j p nr dl fn fd, vis N p (fun v => Some (r j v)) -> vis N nr fn -> vis N dl fd ->
  exists k p' nr', rt_loop zero plus minus times div less of_index max N m tele thr p nr dl = Ok (p', nr') /\
    j <= k <= j + max /\ vis N p' (fun v => Some (r k v)) /\ (exists fn', vis N nr' fn') /\
    (k < j + max -> j < k /\ less (gchange N (r (k - 1)) (r k)) thr = true) /\
    (forall i, j <= i -> i + 1 < k -> less (gchange N (r i) (r (i + 1))) thr = false).
Proof.
  intros N0 Hm IN r. induction max as [|max IH]; intros j p nr dl fn fd Vp Vn Vd; cbn [rt_loop].
  - exists j, p, nr. split; [reflexivity|]. split; [lia|]. split; [auto|]. split; [eauto|]. split; intros; lia.
  - destruct (rt_body_ok N m tele p nr dl _ _ _ _ N0 Vp Vn Vd Hm IN) as (nr' & dl' & e & -> & Vn' & (fd' & Vd') & Ee).
    cbn [bind]. rewrite Ee. change (gstep N fm tele (r j)) with (r (S j)) in *.
    destruct (less (gchange N (r j) (r (S j))) thr) eqn:L.
    + exists (S j), nr', nr'. split; [reflexivity|]. split; [lia|]. split; [auto|]. split; [eauto|].
      split; [|intros; lia]. intros _. split; [lia|]. replace (S j - 1) with j by lia. exact L.
    + destruct (IH (S j) nr' nr' dl' _ _ Vn' Vn' Vd') as (k & p' & nr2 & E & Hk & Vk & Vnk & Hlt & Hge).
      exists k, p', nr2. split; [exact E|]. split; [lia|]. split; [auto|]. split; [auto|]. split.
      * intro. destruct Hlt as (? & ?); [lia|]. split; [lia|auto].
      * intros i Hi Hik. destruct (Nat.eq_dec i j) as [->|]; [|apply Hge; lia].
        replace (j + 1) with (S j) by lia. exact L.
Qed.

Section Graph.
Context {T : Type} (tr : T -> R) (G : lil T) (N : nat) (d : R).
Hypothesis WG : wfm G.
Hypothesis RG : nrows G = N.
Hypothesis CG : ncols G = N.
Hypothesis N0 : N <> 0.
(** The sum of the weights of the edges that leave [u]; the matrix. *)
Definition gout (u : nat) : R := oget (osum plus (map (fun v => option_map tr (mget G u v)) (seq 0 N))).
Definition gmat (u v : nat) : option R := option_map (fun g => times (times (inv (gout u)) (tr g)) d) (mget G u v).

Lemma rt_matrix :
  exists m1 m2 m, apply tr btrue idc (NoAcc idc) mnomask MERGE (lil_new N N) (Mat G) = Ok m1 /\
    normalize_rows zero plus times inv m1 = Ok m2 /\
    apply (fun x => times x d) btrue idc (NoAcc idc) mnomask MERGE m2 (Mat m2) = Ok m /\ sq N m gmat.
Proof.
  assert (HG : sq N G (mget G)) by (split; auto).
  destruct (sq_apply N tr btrue mnomask _ MERGE _ G _ _ (sq_new N) HG (mmis_none N btrue)) as (m1 & E1 & M1).
  destruct M1 as (W1 & R1 & C1 & G1).
  destruct (normalize_rows_ok zero plus times inv m1 W1) as (m2 & E2 & W2 & R2 & C2 & G2); [congruence|].
  rewrite R1, C1 in *.
  assert (M2 : sq N m2 (fun u v => option_map (fun g => times (inv (gout u)) (tr g)) (mget G u v))).
  { split; [auto|split; [auto|split; [auto|]]]. intros u v Hu Hv. rewrite G2, G1 by auto. unfold wr.
    destruct (mget G u v) as [g|] eqn:Eg; simpl; [|destruct (osum _ _); reflexivity].
    rewrite (map_ext_in (mget m1 u) (fun v => option_map tr (mget G u v))).
    2:{ intros w Hw. apply in_seq in Hw. rewrite G1 by lia. reflexivity. }
    unfold gout. destruct (osum_ne N (fun v => option_map tr (mget G u v)) v Hv) as (s & ->); [rewrite Eg; discriminate|]. reflexivity. }
  destruct (sq_apply N (fun x => times x d) btrue mnomask _ MERGE _ _ _ _ M2 M2 (mmis_none N btrue)) as (m & E3 & M3).
  exists m1, m2, m. do 3 (split; [assumption|]). eapply sq_ext; [exact M3|]. intros u v Hu Hv. unfold wr, gmat.
  destruct (mget G u v); reflexivity.
Qed.

Hypothesis in_edge : forall v, v < N -> exists u, mget G u v <> None.
Lemma gmat_in v : v < N -> exists u, u < N /\ gmat u v <> None.
Proof.
  intros Hv. destruct (in_edge v Hv) as (u & E). exists u. split.
  - destruct (Nat.lt_ge_cases u N); auto. exfalso. apply E. apply mget_oob; auto. lia.
  - unfold gmat. destruct (mget G u v); [discriminate|congruence].
Qed.

(** [page_rank] returns an iterate, provided the ranks are not 0. *)
Lemma rt_page_rank_ok (rt : nat -> R) p thr max : wfv p -> vsize p = N ->
  let r := giter N gmat (div (minus one d) (rt N)) (div one (of_index N)) in
  (forall k v, k <= max -> v < N -> truthy (r k v) = true) ->
  exists p' k, rt_page_rank zero one plus minus times div inv less truthy of_index tr rt G p d thr max = Ok p' /\ wfv p' /\ vsize p' = N /\ k <= max /\
    (forall v, v < N -> vget p' v = Some (r k v)) /\
    (k < max -> 0 < k /\ less (gchange N (r (k - 1)) (r k)) thr = true) /\
    (forall i, i + 1 < k -> less (gchange N (r i) (r (i + 1))) thr = false).
Proof.
  intros Wp Sp r TR. unfold rt_page_rank. rewrite RG, CG, Sp, !Nat.eqb_refl. cbn [negb orb].
  destruct rt_matrix as (m1 & m2 & m & -> & E2 & E3 & Hm). cbn [bind]. rewrite E2. cbn [bind]. rewrite E3. cbn [bind].
  destruct (vis_fill N btrue vnomask _ MERGE p _ (div one (of_index N)) (conj Wp (conj Sp (fun i _ => eq_refl))) (vmis_none N btrue))
    as (p1 & -> & P1). cbn [bind].
  destruct (vis_new zero N N0) as (n1 & -> & Vn1). cbn [bind].
  destruct (rt_loop_ok N m (div (minus one d) (rt N)) thr gmat (div one (of_index N)) N0 Hm gmat_in max 0 p1 n1 n1 _ _ P1 Vn1 Vn1)
    as (k & p' & nr' & -> & Hk & Vk & (fn' & Vn') & Hlt & Hge). cbn [bind].
  destruct (vis_fill N btrue vnomask _ MERGE nr' _ (div (minus one d) (rt N)) Vn' (vmis_none N btrue)) as (nr2 & -> & Vn2).
  cbn [bind].
  destruct (vis_add N plus idc idc truthy (MComp p') _ MERGE p' p' nr2 _ _ _ Vk Vk Vn2 (vmis_comp N truthy p' _ Vk))
    as (p2 & -> & V2). exists p2, k. split; [reflexivity|]. split; [apply V2|]. split; [apply V2|].
  split; [lia|]. split; [|split].
  - intros v Hv. rewrite (vis_get _ _ _ _ V2 Hv). unfold wr, otrue. fold r. rewrite (TR k v) by lia. reflexivity.
  - intro. apply Hlt. lia.
  - intros. apply Hge; lia.
Qed.
End Graph.
End Generic.
