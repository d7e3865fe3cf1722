(** Proofs about the minimum spanning tree algorithm. *)
From Coq Require Import Lia Permutation.
From Verif Require Import Base ModelLil ModelVec ModelHelpers ModelViews ModelMul ModelElem
  ModelIndex ModelUtils ModelAlgoBase ModelMst Spec SpecOps SpecIndex SpecGraph SpecMst ProofBase ProofRow ProofLil
  ProofVec ProofContainers ProofWrite ProofViews ProofMul ProofElem ProofReduce ProofIndex ProofAssign ProofAssignRC
  ProofUtils ProofGraph ProofVis.

(** ** Paths in lists of edges *)
Lemma joined_trans es a b c : joined es a b -> joined es b c -> joined es a c.
Proof. intros H1 H2. induction H2; auto. eapply joined_step; eauto. Qed.
Lemma joined_edge es a b : In (a, b) es \/ In (b, a) es -> joined es a b.
Proof. intro. eapply joined_step; [apply joined_refl|auto]. Qed.
Lemma joined_sym es a b : joined es a b -> joined es b a.
Proof.
  induction 1; [apply joined_refl|]. eapply joined_trans; [|eauto]. apply joined_edge. tauto.
Qed.
(** Every edge of [es] can be replaced by a path in [fs]. *)
Lemma joined_map es fs u v : (forall a b, In (a, b) es -> joined fs a b) -> joined es u v -> joined fs u v.
Proof.
  intros H. induction 1; [apply joined_refl|]. eapply joined_trans; [eauto|].
  destruct H1; [auto|]. apply joined_sym. auto.
Qed.
Lemma joined_incl es fs u v : incl es fs -> joined es u v -> joined fs u v.
Proof. intro H. apply joined_map. intros. apply joined_edge. auto. Qed.

(** A path that enters the set [S] does so by a first edge. *)
Lemma first_crossing (S : nat -> bool) es v x :
  joined es v x -> S v = false -> S x = true ->
  exists a b, S a = false /\ S b = true /\ (In (a, b) es \/ In (b, a) es) /\
    joined (filter (fun e => negb (S (fst e)) && negb (S (snd e))) es) v a.
Proof.
  intros H Hv. 
  assert (K : (S x = false /\ joined (filter (fun e => negb (S (fst e)) && negb (S (snd e))) es) v x) \/
    exists a b, S a = false /\ S b = true /\ (In (a, b) es \/ In (b, a) es) /\
    joined (filter (fun e => negb (S (fst e)) && negb (S (snd e))) es) v a).
  { induction H as [|a b H IH E].
    - left. split; auto. apply joined_refl.
    - destruct IH as [(Sa & Ja)|?]; auto. destruct (S b) eqn:Sb.
      + right. exists a, b. auto.
      + left. split; auto. eapply joined_step; [exact Ja|]. rewrite !filter_In. simpl.
        rewrite Sa, Sb. simpl. tauto. }
  intro Hx. destruct K as [(K & _)|K]; [congruence|auto].
Qed.

(** ** Prim's algorithm *)
Section Prim.
Context (N : nat) (w : nat -> nat -> option Z).
Hypothesis sym : forall a b, w a b = w b a.
Hypothesis bound : forall a b, w a b <> None -> a < N /\ b < N.

Let wt (e : nat * nat) : Z := match w (fst e) (snd e) with Some x => x | None => 0%Z end.

Lemma weight_cons e es : tree_weight w (e :: es) = (wt e + tree_weight w es)%Z.
Proof. reflexivity. Qed.
Lemma weight_app es fs : tree_weight w (es ++ fs) = (tree_weight w es + tree_weight w fs)%Z.
Proof. induction es; simpl app; [reflexivity|]. rewrite !weight_cons, IHes. lia. Qed.
Lemma weight_perm es fs : Permutation es fs -> tree_weight w es = tree_weight w fs.
Proof. induction 1; rewrite ?weight_cons; lia. Qed.

(** The vertices reached when the edges [P] have been chosen. *)
Definition reached (P : list (nat * nat)) : list nat := map snd P ++ [0].
Definition inb (P : list (nat * nat)) (v : nat) : bool := existsb (Nat.eqb v) (reached P).
Lemma inb_iff P v : inb P v = true <-> In v (reached P).
Proof.
  unfold inb. rewrite existsb_exists. split.
  - intros (x & Hx & E). apply Nat.eqb_eq in E. subst; auto.
  - intro H. exists v. split; auto. apply Nat.eqb_refl.
Qed.
Lemma inb_cons p u P v : inb ((p, u) :: P) v = (v =? u) || inb P v.
Proof. reflexivity. Qed.

Definition growing (P : list (nat * nat)) : Prop :=
  NoDup (reached P) /\ (forall v, In v (reached P) -> v < N) /\
  (forall a b, In (a, b) P -> In a (reached P) /\ w a b <> None) /\
  (forall v, In v (reached P) -> joined P 0 v) /\
  (forall X, spanning_tree N w X ->
     exists Q, spanning_tree N w (P ++ Q) /\ (tree_weight w (P ++ Q) <= tree_weight w X)%Z).

Lemma growing_nil : 0 < N -> growing [].
Proof.
  intro H0. split; [|split; [|split; [|split]]].
  - repeat constructor. auto.
  - simpl. intros v [<-|[]]. auto.
  - intros a b [].
  - simpl. intros v [<-|[]]. apply joined_refl.
  - intros X HX. exists X. simpl. split; [auto|lia].
Qed.

Lemma growing_step P p u x :
  growing P -> In p (reached P) -> inb P u = false -> w p u = Some x ->
  (forall a b y, In a (reached P) -> inb P b = false -> w a b = Some y -> (x <= y)%Z) ->
  growing ((p, u) :: P).
Proof.
  intros (ND & LT & PE & JO & OPT) Hp Hu Wx MIN.
  assert (Nu : ~ In u (reached P)) by (rewrite <- inb_iff; congruence).
  assert (L : forall v, In v (reached P) -> In v (reached ((p, u) :: P))) by (intros; simpl; auto).
  split; [|split; [|split; [|split]]].
  - simpl. constructor; auto.
  - simpl. intros v [<-|Hv]; auto. apply (bound p u). congruence.
  - intros a b [E|H].
    + injection E as <- <-. split; [auto|congruence].
    + destruct (PE a b H). auto.
  - intros v Hv. simpl in Hv. destruct Hv as [<-|Hv].
    + eapply joined_trans; [eapply joined_incl; [|apply (JO p Hp)]; red; simpl; auto|].
      apply joined_edge. simpl; auto.
    + eapply joined_incl; [|apply (JO v Hv)]. red; simpl; auto.
  - intros X HX. destruct (OPT X HX) as (Q & (LE & ED & CO) & WE).
    assert (Bu : u < N) by (apply (bound p u); congruence).
    assert (B0 : 0 < N) by lia.
    destruct (first_crossing (inb P) (P ++ Q) u 0) as (a & b & Ha & Hb & He & Hj).
    { auto. } { auto. } { apply inb_iff. unfold reached. rewrite in_app_iff. simpl; auto. }
    assert (Hb' : In b (reached P)) by (apply inb_iff; auto).
    assert (exists e, (e = (a, b) \/ e = (b, a)) /\ In e (P ++ Q)) as (e & Ee & He').
    { destruct He; eauto. }
    assert (NP : ~ In e P).
    { intro H. assert (In (fst e) (reached P) /\ In (snd e) (reached P)) as (I1 & I2).
      { split.
        - destruct e. apply (PE _ _ H).
        - unfold reached. rewrite in_app_iff. left. apply in_map. auto. }
      rewrite <- inb_iff in I1, I2. destruct Ee; subst; simpl in *; congruence. }
    apply in_app_iff in He'. destruct He' as [He'|He']; [contradiction|].
    apply in_split in He'. destruct He' as (Q1 & Q2 & EQ).
    exists (Q1 ++ Q2).
    assert (INC : forall e', In e' (P ++ Q) -> e' = e \/ In e' (((p, u) :: P) ++ Q1 ++ Q2)).
    { intros e' H. subst Q. simpl. rewrite !in_app_iff in *. simpl in H. intuition. }
    assert (JAB : joined (((p, u) :: P) ++ Q1 ++ Q2) a b).
    { apply joined_trans with u; [|apply joined_trans with p; [|apply joined_trans with 0]].
      - apply joined_sym. eapply joined_incl; [|exact Hj]. intros e' H.
        apply filter_In in H. destruct H as (H & F). destruct (INC e' H) as [->|]; auto.
        exfalso. destruct Ee; subst; simpl in F; rewrite Ha, Hb in F; discriminate.
      - apply joined_edge. simpl. auto.
      - apply joined_sym. eapply joined_incl; [|apply (JO p Hp)].
        intros e' H. simpl. rewrite in_app_iff. auto.
      - eapply joined_incl; [|apply (JO b Hb')].
        intros e' H. simpl. rewrite in_app_iff. auto. }
    split.
    + split; [|split].
      * rewrite <- LE, EQ. simpl. rewrite !app_length. simpl. lia.
      * intros c d H. destruct H as [H|H].
        -- injection H as <- <-. assert (w p u <> None) as H by congruence.
           destruct (bound p u H). auto.
        -- apply ED. subst Q. rewrite !in_app_iff in *. simpl. intuition.
      * intros c d Hc Hd. eapply joined_map; [|apply (CO c d Hc Hd)].
        intros y z H. destruct (INC _ H) as [H'|H']; [|apply joined_edge; auto].
        subst e. destruct Ee as [E|E]; injection E as -> ->; auto. apply joined_sym; auto.
    + assert (Wab : exists y, w a b = Some y /\ wt e = y).
      { assert (In e (P ++ Q)) as HI by (subst Q; rewrite !in_app_iff; simpl; auto).
        destruct Ee as [E|E]; subst e; destruct (ED _ _ HI) as (_ & _ & Hw); unfold wt; simpl.
        - destruct (w a b); [eauto|congruence].
        - rewrite (sym b a) in *. destruct (w a b); [eauto|congruence]. }
      destruct Wab as (y & Wy & Ey).
      assert (x <= y)%Z by (apply (MIN b a y); auto; rewrite sym; auto).
      assert (wt (p, u) = x) by (unfold wt; simpl; rewrite Wx; auto).
      subst Q. simpl app. rewrite weight_cons, !weight_app in *. rewrite weight_cons in WE. lia.
Qed.

Lemma growing_end P :
  growing P -> length (reached P) = N -> minimum_spanning_tree N w P.
Proof.
  intros (ND & LT & PE & JO & OPT) L.
  assert (LP : length P = N - 1).
  { unfold reached in L. rewrite app_length, map_length in L. simpl in L. lia. }
  assert (ALL : forall v, v < N -> In v (reached P)).
  { assert (IN : incl (seq 0 N) (reached P)).
    { apply (NoDup_length_incl ND).
      - rewrite seq_length. lia.
      - intros x Hx. apply in_seq. specialize (LT x Hx). lia. }
    intros v Hv. apply IN, in_seq. lia. }
  split.
  - split; [auto|]. split.
    + intros a b H. destruct (PE a b H) as (_ & Hw). destruct (bound a b Hw). auto.
    + intros u v Hu Hv. apply joined_trans with 0; [apply joined_sym|]; apply JO; auto.
  - intros X HX. destruct (OPT X HX) as (Q & (LQ & _) & WE).
    rewrite app_length in LQ. assert (Q = []) as -> by (destruct Q; simpl in LQ; [auto|lia]).
    rewrite app_nil_r in WE. auto.
Qed.
End Prim.

(** ** argmin *)
Lemma argmin_fold l : forall t, In (fold_left argmin_step l t) (t :: l) /\
  forall t', In t' (t :: l) -> (snd (fold_left argmin_step l t) <= snd t')%Z.
Proof.
  induction l as [|a l IH]; intro t; simpl.
  - split; auto. intros t' [<-|[]]. lia.
  - destruct (IH (argmin_step t a)) as (H1 & H2).
    assert (M : (snd (argmin_step t a) <= snd t)%Z /\ (snd (argmin_step t a) <= snd a)%Z /\
                (argmin_step t a = t \/ argmin_step t a = a)).
    { unfold argmin_step. destruct (Z.ltb_spec (snd a) (snd t)); [split; [lia|split; [lia|auto]]|split; [lia|split; [lia|auto]]]. }
    destruct M as (M1 & M2 & M3).
    assert (M4 : (snd (fold_left argmin_step l (argmin_step t a)) <= snd (argmin_step t a))%Z)
      by (apply H2; simpl; auto).
    split.
    + destruct H1 as [H1|H1]; [|auto]. rewrite <- H1. destruct M3 as [->| ->]; auto.
    + intros t' [<-|[<-|H]]; [lia|lia|]. apply H2. simpl; auto.
Qed.

Lemma argmin_ok N v f :
  vis N v f -> has_vals (vnvals v) = true ->
  exists u x, argmin v = Ok u /\ u < N /\ f u = Some x /\
    forall k y, k < N -> f k = Some y -> (x <= y)%Z.
Proof.
  intros (W & S & G) H. unfold argmin. rewrite H. cbn [negb]. unfold vec_extractTuples.
  destruct (getContents_ok v (proj1 W)) as (c & -> & Wc & Gc). cbn [bind].
  assert (L : Z.of_nat (length c) = vnvals v).
  { destruct W as (W & C). rewrite C. f_equal. rewrite (wfrow_vcount (vsize v) c) by auto.
    apply vcount_ext. intros. rewrite Gc. auto. }
  rewrite L, Z.leb_refl. rewrite <- L, Nat2Z.id, Nat.sub_diag. simpl. rewrite app_nil_r.
  destruct c as [|t c].
  { simpl in L. rewrite <- L in H. discriminate. }
  destruct (argmin_fold c t) as (H1 & H2). destruct (fold_left argmin_step c t) as [u x] eqn:E.
  exists u, x. split; [reflexivity|].
  assert (K : forall k y, In (k, y) (t :: c) <-> vget v k = Some y).
  { intros k y. rewrite <- Gc. symmetry. eapply rget_In; eauto. }
  apply K in H1.
  assert (u < N). { destruct (Nat.lt_ge_cases u N); auto. rewrite vget_oob in H1; [discriminate|apply W|lia]. }
  split; [auto|]. split; [rewrite <- G; auto|]. intros k y Hk Hy. rewrite <- G in Hy by auto.
  apply K in Hy. apply (H2 _ Hy).
Qed.

(** ** The loop *)
Section Mst.
Context (G : lil Z) (N : nat).
Hypothesis WG : wfm G.
Hypothesis RG : nrows G = N.
Hypothesis CG : ncols G = N.
Hypothesis N0 : N <> 0.
Let w : nat -> nat -> option Z := mget G.
Hypothesis sym : forall a b, w a b = w b a.

Lemma mst_bound a b : w a b <> None -> a < N /\ b < N.
Proof.
  intro H. destruct (Nat.lt_ge_cases a N), (Nat.lt_ge_cases b N); auto; exfalso; apply H;
    apply mget_oob; auto; lia.
Qed.

Definition edges_of (i j : nat) : option (nat * Z) := option_map (fun x => (i, x)) (w i j).

Lemma mst_build :
  exists A, build_or_throw (lil_new (nrows G) (ncols G))
      (map (fun '(i, j, x) => (i, j, (i, x))) (lil_extractTuples G)) = Ok A /\ sq N A edges_of.
Proof.
  destruct (build_distinct (lil_new (nrows G) (ncols G))
      (map (fun '(i, j, x) => (i, j, (i, x))) (lil_extractTuples G)) (lil_new_wf _ _)) as (A & E & W & R & C & M).
  { apply Forall_forall. intros [[i j] v] H. apply in_map_iff in H. destruct H as ([[i' j'] v'] & H1 & H2).
    injection H1 as -> -> <-. apply (wfm_no_outside G i j v' WG) in H2. simpl. auto. }
  exists A. split; [exact E|]. split; [auto|]. split; [simpl in R; congruence|]. split; [simpl in C; congruence|].
  intros i j Hi Hj. rewrite M, mget_new. unfold edges_of, w.
  pose proof (filter_pos _ i j (tuples_sorted G WG)) as H.
  assert (F : filter (fun '(i', j', _) => (i' =? i) && (j' =? j))
      (map (fun '(i, j, x) => (i, j, (i, x))) (lil_extractTuples G)) =
    map (fun '(i, j, x) => (i, j, (i, x)))
      (filter (fun '(i', j', _) => (i' =? i) && (j' =? j)) (lil_extractTuples G))).
  { generalize (lil_extractTuples G). induction l as [|[[a b] v] l IH]; simpl; auto. rewrite IH.
    destruct ((a =? i) && (b =? j)); reflexivity. }
  rewrite F. destruct (filter _ (lil_extractTuples G)) as [|[[a b] v] [|]]; [| |contradiction].
  - simpl. destruct (mget G i j) eqn:Em; auto. apply tuples_In in Em; auto. exfalso. eapply H; eauto.
  - destruct H as (-> & -> & HI). apply tuples_In in HI; auto. rewrite HI. reflexivity.
Qed.

Definition nearest (P : list (nat * nat)) (v : nat) (o : option (nat * Z)) : Prop :=
  match o with
  | Some (p, x) => In p (reached P) /\ w p v = Some x /\
      forall a y, In a (reached P) -> w a v = Some y -> (x <= y)%Z
  | None => forall a, In a (reached P) -> w a v = None
  end.

Definition mst_inv (P : list (nat * nat)) (s : mst_state) : Prop :=
  growing N w P /\ mst_weight s = tree_weight w P /\
  vis N (mst_mask s) (fun v => if inb P v then Some true else None) /\
  vis N (mst_s s) (fun v => if inb P v then None else Some 0%Z) /\
  (exists fd, vis N (mst_d s) fd /\ forall v, v < N -> nearest P v (fd v)) /\
  (exists fp, vis N (mst_par s) fp /\ forall p v, v < N -> (fp v = Some p <-> In (p, v) P)).

Lemma mask_count P s : mst_inv P s -> vnvals (mst_mask s) = Z.of_nat (length (reached P)).
Proof.
  intros ((ND & LT & _) & _ & M & _). rewrite (vis_nvals _ _ _ M). f_equal.
  rewrite <- (vcount_ind N (reached P) ND) by (apply Forall_forall; auto).
  unfold vcount. f_equal. apply filter_ext. intro v. unfold inb. destruct (existsb _ _); reflexivity.
Qed.

Lemma mst_step A P s :
  sq N A edges_of -> mst_inv P s ->
  (exists p u s', mst_body N A s = Ok s' /\ mst_inv ((p, u) :: P) s') \/
  (mst_body N A s = Throw PanicException /\
   forall a b, In a (reached P) -> inb P b = false -> w a b = None).
Proof.
  intros HA (GR & WT & M & S & (fd & D & ND) & (fp & PA & NP)). unfold mst_body.
  destruct (vis_new 0%Z N N0) as (t0 & -> & T0). cbn [bind].
  destruct (vis_mult N mst_plus btrue vnomask _ MERGE t0 _ _ _ _ _ T0 S D (vmis_none N btrue)) as (t & -> & T1).
  cbn [bind]. cbv beta in T1.
  destruct (has_vals (vnvals t)) eqn:HV.
  2: { right. unfold argmin. rewrite HV. cbn [negb bind]. split; [reflexivity|].
       intros a b Ha Hb. destruct (w a b) as [y|] eqn:E; auto. exfalso.
       assert (Bb : b < N) by (apply (mst_bound a b); congruence).
       pose proof (vis_no_vals _ _ _ T1 HV b Bb) as Q. simpl in Q. rewrite Hb in Q.
       specialize (ND b Bb). destruct (fd b) as [[p x]|]; [discriminate|]. simpl in ND.
       rewrite ND in E by auto. discriminate. }
  destruct (argmin_ok N t _ T1 HV) as (u & x & -> & Hu & Fu & MIN). cbn [bind]. simpl in Fu.
  destruct (inb P u) eqn:Iu; [discriminate|].
  destruct (fd u) as [[p x']|] eqn:Du; [|discriminate]. simpl in Fu. injection Fu as Fu.
  unfold mst_plus in Fu. simpl in Fu. subst x'.
  pose proof (ND u Hu) as Nu. rewrite Du in Nu. destruct Nu as (Hp & Wpu & Mpu).
  left. exists p, u.
  destruct (vis_set N _ _ u true M Hu) as (mask & -> & M' & _). cbn [bind].
  destruct (vis_apply N (@idc Z) btrue (MComp mask) _ REPLACE _ _ _ _ S S
              (vmis_comp N btrue mask _ M')) as (s1 & -> & S'). cbn [bind].
  rewrite (vis_extract N _ _ u _ D Hu Du). cbn [bind]. cbn [fst snd].
  destruct (vis_set N _ _ u p PA Hu) as (par & -> & PA' & _). cbn [bind].
  assert (CA : ncols A = N) by apply HA. rewrite CA.
  destruct (vis_new (0, 0%Z) N N0) as (r0 & -> & R0). cbn [bind].
  destruct (vis_extract_row N btrue vnomask _ MERGE r0 A _ _ u R0 HA (vmis_none N btrue) Hu) as (r & -> & R').
  cbn [bind]. cbv beta in R'. simpl in R'.
  destruct (vis_add N mst_min idc idc btrue vnomask _ MERGE _ _ _ _ _ _ D D R' (vmis_none N btrue)) as (d & -> & D').
  cbn [bind]. cbv beta in D'. simpl in D'. eexists. split; [reflexivity|].
  assert (GR' : growing N w ((p, u) :: P)).
  { eapply growing_step; eauto.
    - apply mst_bound.
    - intros a b y Ha Hb E. assert (Bb : b < N) by (apply (mst_bound a b); congruence).
      pose proof (ND b Bb) as Q. destruct (fd b) as [[q z]|] eqn:Db; simpl in Q.
      + destruct Q as (_ & _ & Q). specialize (Q a y Ha E).
        assert (x <= z)%Z; [|lia]. apply (MIN b); auto. simpl. rewrite Hb, Db. simpl. unfold mst_plus.
        simpl. f_equal.
      + rewrite Q in E by auto. discriminate. }
  split; [auto|]. simpl. split.
  { rewrite WT. change (((p, u) :: P)) with ([(p, u)] ++ P). unfold tree_weight at 2. simpl. rewrite Wpu.
    fold (tree_weight w P). lia. }
  split.
  { eapply vis_ext; [exact M'|]. intros v Hv. rewrite inb_cons. simpl. destruct (v =? u); reflexivity. }
  split.
  { eapply vis_ext; [exact S'|]. intros v Hv. rewrite inb_cons. simpl.
    destruct (v =? u); simpl; [reflexivity|]. destruct (inb P v); reflexivity. }
  split.
  { eexists. split; [exact D'|]. intros v Hv. simpl. specialize (ND v Hv). unfold edges_of.
    destruct (fd v) as [[q z]|] eqn:Dv, (w u v) as [y|] eqn:Wv; simpl in ND |- *.
    - destruct ND as (Hq & Wq & Mq). unfold mst_min. simpl. destruct (Z.ltb_spec z y).
      + split; [auto|]. split; [auto|]. intros a c [<-|Ha] E; [|eauto]. assert (c = y) by congruence. lia.
      + split; [auto|]. split; [auto|]. intros a c [<-|Ha] E; [|specialize (Mq a c Ha E); lia].
        assert (c = y) by congruence. lia.
    - destruct ND as (Hq & Wq & Mq). unfold idc. split; [auto|]. split; [auto|].
      intros a c [<-|Ha] E; [congruence|eauto].
    - unfold idc. split; [auto|]. split; [auto|].
      intros a c [<-|Ha] E; [assert (c = y) by congruence; lia|]. rewrite ND in E by auto. discriminate.
    - intros a [<-|Ha]; auto. }
  eexists. split; [exact PA'|]. intros q v Hv. simpl.
  destruct (Nat.eqb_spec v u) as [->|Nv].
  - split.
    + intro E. injection E as <-. auto.
    + intros [E|E]; [congruence|]. exfalso.
      assert (inb P u = true); [|congruence]. apply inb_iff. unfold reached. apply in_app_iff. left.
      change u with (snd (q, u)). apply in_map. auto.
  - rewrite NP by auto. split; [auto|]. intros [E|E]; [congruence|auto].
Qed.

(** How the loop ends. *)
Lemma mst_loop A n : forall P s,
  sq N A edges_of -> mst_inv P s -> N - length (reached P) < n ->
  (exists P' s', mwhile n (fun s => (vnvals (mst_mask s) <? Z.of_nat N)%Z) (mst_body N A) s = Ok (Some s') /\
     mst_inv P' s' /\ length (reached P') = N) \/
  (mwhile n (fun s => (vnvals (mst_mask s) <? Z.of_nat N)%Z) (mst_body N A) s = Throw PanicException /\
   exists P', growing N w P' /\ length (reached P') < N /\
     forall a b, In a (reached P') -> inb P' b = false -> w a b = None).
Proof.
  induction n as [|n IH]; intros P s HA HI Hn; [lia|]. simpl.
  rewrite (mask_count P s HI).
  assert (L : length (reached P) <= N).
  { destruct HI as ((ND & LT & _) & _). rewrite <- (seq_length N 0). apply NoDup_incl_length; auto.
    intros v Hv. apply in_seq. specialize (LT v Hv). lia. }
  destruct (Z.ltb_spec (Z.of_nat (length (reached P))) (Z.of_nat N)).
  - destruct (mst_step A P s HA HI) as [(p & u & s' & -> & HI')|(-> & HC)]; cbn [bind].
    + apply (IH _ _ HA HI'). change (length (reached ((p, u) :: P))) with (S (length (reached P))). lia.
    + right. split; [reflexivity|]. exists P. split; [apply HI|]. split; [lia|auto].
  - left. exists P, s. split; [reflexivity|]. split; [auto|lia].
Qed.

(** The loop as it is entered. *)
Lemma mst_start n par :
  vsize par = N -> wfv0 par ->
  exists A s, mst n G par =
    (o <- mwhile n (fun s => (vnvals (mst_mask s) <? Z.of_nat N)%Z) (mst_body N A) s ;;
     match o with Some s => Ok (Some (mst_weight s, mst_par s)) | None => Ok None end) /\
    sq N A edges_of /\ mst_inv [] s.
Proof.
  intros Sp Wp. unfold mst. rewrite RG, CG, Sp, Nat.eqb_refl. cbn [negb orb].
  destruct mst_build as (A & EA & HA). rewrite RG, CG in EA. rewrite EA. cbn [bind].
  destruct (vis_new (0, 0%Z) N N0) as (d0 & -> & D0). cbn [bind].
  destruct (vis_new false N N0) as (m0 & -> & M0). cbn [bind].
  destruct (vis_set N m0 _ 0 true M0) as (m & -> & M & _); [lia|]. cbn [bind].
  destruct (vis_new 0%Z N N0) as (s0 & -> & S0). cbn [bind].
  destruct (vis_fill N btrue (MComp m) _ REPLACE s0 _ 0%Z S0 (vmis_comp N btrue m _ M)) as (s & -> & S').
  cbn [bind].
  destruct (vis_extract_row N btrue vnomask _ MERGE d0 A _ _ 0 D0 HA (vmis_none N btrue)) as (d & -> & D); [lia|].
  cbn [bind]. exists A, (mkMst 0 d m s (vec_clear par)). split; [reflexivity|]. split; [auto|].
  split; [apply growing_nil; lia|]. simpl. split; [reflexivity|].
  split.
  { eapply vis_ext; [exact M|]. intros v Hv. unfold inb. simpl. destruct (v =? 0); reflexivity. }
  split.
  { eapply vis_ext; [exact S'|]. intros v Hv. unfold inb. simpl. destruct (v =? 0); reflexivity. }
  split.
  - eexists. split; [exact D|]. intros v Hv. simpl. unfold edges_of.
    destruct (w 0 v) as [x|] eqn:E; simpl.
    + split; [auto|]. split; [auto|]. intros a y [<-|[]] E'. assert (y = x) by congruence. lia.
    + intros a [<-|[]]. auto.
  - eexists. split; [apply vis_clear; auto|]. intros p v Hv. simpl. split; [discriminate|tauto].
Qed.

(** The edges chosen are those of the parent list. *)
Lemma parent_edges_perm P fp :
  growing N w P -> length (reached P) = N ->
  (forall p v, v < N -> (fp v = Some p <-> In (p, v) P)) ->
  Permutation P (parent_edges N fp).
Proof.
  intros (ND & LT & PE & _) L H.
  assert (ND2 : NoDup (map snd P)).
  { unfold reached in ND. apply NoDup_remove_1 in ND. rewrite app_nil_r in ND. auto. }
  assert (N1 : ~ In 0 (map snd P)).
  { unfold reached in ND. apply NoDup_remove_2 in ND. rewrite app_nil_r in ND. auto. }
  apply NoDup_Permutation_bis.
  - apply NoDup_map_inv in ND2. auto.
  - unfold parent_edges. rewrite map_length, seq_length. unfold reached in L.
    rewrite app_length, map_length in L. simpl in L. lia.
  - intros [p v] Hin.
    assert (Hv : In v (map snd P)) by (change v with (snd (p, v)); apply in_map; auto).
    assert (v < N) by (apply LT; unfold reached; apply in_app_iff; auto).
    assert (v <> 0) by (intro; subst; auto).
    unfold parent_edges. apply in_map_iff. exists v. split; [|apply in_seq; lia].
    rewrite (proj2 (H p v ltac:(auto)) Hin). reflexivity.
Qed.

Lemma minimum_perm es fs :
  Permutation es fs -> minimum_spanning_tree N w es -> minimum_spanning_tree N w fs.
Proof.
  intros P ((L & E & C) & M). split.
  - split; [rewrite <- (Permutation_length P); auto|]. split.
    + intros a b H. apply E. eapply Permutation_in; [apply Permutation_sym; exact P|auto].
    + intros u v Hu Hv. eapply joined_incl; [|apply (C u v Hu Hv)].
      intros e He. eapply Permutation_in; eauto.
  - intros X HX. rewrite <- (weight_perm w es fs P). auto.
Qed.

(** Only vertices joined to 0 are reached. *)
Lemma reached_reachable P v :
  growing N w P -> In v (reached P) -> reachable (edge G) (fun u => u = 0) v.
Proof.
  intros (ND & LT & PE & JO & _) Hv. specialize (JO v Hv).
  assert (K : forall x, joined P 0 x -> reachable (edge G) (fun u => u = 0) x).
  { induction 1 as [|a b J (k & Wk) E].
    - exists 0. reflexivity.
    - exists (S k). simpl. exists a. split; auto. unfold edge.
      change (is_some (w a b) = true).
      destruct E as [E|E]; destruct (PE _ _ E) as (_ & Hw); [|rewrite sym].
      + destruct (w a b); [reflexivity|congruence].
      + destruct (w b a); [reflexivity|congruence]. }
  auto.
Qed.
Lemma closed_reachable P v :
  In 0 (reached P) ->
  (forall a b, In a (reached P) -> inb P b = false -> w a b = None) ->
  reachable (edge G) (fun u => u = 0) v -> In v (reached P).
Proof.
  intros H0 HC (k & Wk). revert v Wk. induction k as [|k IH]; intros v Wk; simpl in Wk.
  - subst. auto.
  - destruct Wk as (u & Wu & E). specialize (IH u Wu). apply inb_iff.
    destruct (inb P v) eqn:I; auto. exfalso. change (is_some (w u v) = true) in E.
    rewrite (HC u v IH I) in E. discriminate.
Qed.

Theorem mst_ok n par :
  vsize par = N -> wfv0 par -> N < n ->
  (forall v, v < N -> reachable (edge G) (fun u => u = 0) v) ->
  exists x r, mst n G par = Ok (Some (x, r)) /\ wfv r /\ vsize r = N /\
    vget r 0 = None /\ (forall v, 0 < v < N -> vget r v <> None) /\
    minimum_spanning_tree N w (parent_edges N (vget r)) /\ x = tree_weight w (parent_edges N (vget r)).
Proof.
  intros Sp Wp Hn CO. destruct (mst_start n par Sp Wp) as (A & s & -> & HA & HI).
  destruct (mst_loop A n [] s HA HI) as [(P & s' & -> & HI' & L)|(E & P & GR & L & HC)].
  { simpl. lia. }
  - cbn [bind]. destruct HI' as (GR & WT & _ & _ & _ & (fp & PA & NP)).
    exists (mst_weight s'), (mst_par s'). split; [reflexivity|].
    destruct PA as (W & Sz & Gp). split; [auto|]. split; [auto|].
    assert (NP' : forall p v, v < N -> (vget (mst_par s') v = Some p <-> In (p, v) P)).
    { intros p v Hv. rewrite Gp by auto. auto. }
    assert (PP : Permutation P (parent_edges N (vget (mst_par s')))) by (apply parent_edges_perm; auto).
    assert (ND : NoDup (reached P)) by apply GR.
    split.
    { destruct (vget (mst_par s') 0) as [p|] eqn:E; auto. exfalso. apply NP' in E; [|lia].
      unfold reached in ND. apply NoDup_remove_2 in ND. rewrite app_nil_r in ND. apply ND.
      change 0 with (snd (p, 0)). apply in_map. auto. }
    split.
    { intros v Hv. assert (Hin : In v (reached P)).
      { assert (IN : incl (seq 0 N) (reached P)).
        { apply (NoDup_length_incl ND).
          - rewrite seq_length. lia.
          - intros y Hy. apply in_seq. destruct GR as (_ & LT & _). specialize (LT y Hy). lia. }
        apply IN, in_seq. lia. }
      unfold reached in Hin. apply in_app_iff in Hin. destruct Hin as [Hin|[Hin|[]]]; [|lia].
      apply in_map_iff in Hin. destruct Hin as ([p v'] & E & Hin). simpl in E. subst v'.
      apply NP' in Hin; [|lia]. congruence. }
    split.
    + eapply minimum_perm; [exact PP|]. apply growing_end; auto. apply mst_bound.
    + rewrite WT. apply weight_perm; auto.
  - exfalso.
    assert (H0 : In 0 (reached P)) by (unfold reached; apply in_app_iff; simpl; auto).
    assert (IN : incl (seq 0 N) (reached P)).
    { intros v Hv. apply in_seq in Hv. apply closed_reachable; auto. apply CO. lia. }
    apply NoDup_incl_length in IN; [|apply seq_NoDup]. rewrite seq_length in IN. lia.
Qed.

Theorem mst_disconnected n par v :
  vsize par = N -> wfv0 par -> N < n ->
  v < N -> ~ reachable (edge G) (fun u => u = 0) v ->
  mst n G par = Throw PanicException.
Proof.
  intros Sp Wp Hn Hv NR. destruct (mst_start n par Sp Wp) as (A & s & -> & HA & HI).
  destruct (mst_loop A n [] s HA HI) as [(P & s' & -> & HI' & L)|(E & _)].
  { simpl. lia. }
  - exfalso. apply NR. destruct HI' as (GR & _). apply (reached_reachable P); auto.
    pose proof GR as (ND & LT & _).
    assert (IN : incl (seq 0 N) (reached P)).
    { apply (NoDup_length_incl ND).
      - rewrite seq_length. lia.
      - intros y Hy. apply in_seq. specialize (LT y Hy). lia. }
    apply IN, in_seq. lia.
  - rewrite E. reflexivity.
Qed.
End Mst.

Lemma mst_throws n (G : lil Z) par :
  nrows G <> ncols G \/ nrows G <> vsize par -> mst n G par = Throw DimensionException.
Proof.
  intro H. unfold mst. destruct (Nat.eqb_spec (nrows G) (ncols G)), (Nat.eqb_spec (nrows G) (vsize par));
    try reflexivity. exfalso. destruct H; auto.
Qed.
