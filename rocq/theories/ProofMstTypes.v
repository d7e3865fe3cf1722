(** Proofs about the minimum spanning tree algorithm over the built-in types; follows ProofMst. *)
From Coq Require Import Lia Permutation.
From Verif Require Import Base ModelLil ModelVec ModelHelpers ModelViews ModelMul ModelElem
  ModelIndex ModelUtils ModelAlgoBase ModelMst ModelMstTypes Spec SpecOps SpecIndex SpecGraph SpecMst SpecMstTypes ProofBase ProofRow ProofLil
  ProofVec ProofContainers ProofWrite ProofViews ProofMul ProofElem ProofReduce ProofIndex ProofAssign ProofAssignRC
  ProofUtils ProofGraph ProofVis ProofMst SpecRel.

(** ** The loop *)
Section Mst.
Context {D : Type} (ltb : D -> D -> bool) (plus : D -> D -> D) (zero : D)
  (chk : D -> res D) (chkv : bvec D -> res (bvec D)) (valid : D -> Prop) (key : D -> Z).
Context (G : lil D) (N : nat).
Hypothesis VG : forall i j x, mget G i j = Some x -> valid x.
Hypothesis HL : forall x y, valid x -> valid y -> ltb x y = (key x <? key y)%Z.
Hypothesis HP : forall x, valid x -> valid (plus zero x) /\ key (plus zero x) = key x.
Hypothesis HV : forall u, wfv u -> (forall i x, vget u i = Some x -> valid x) -> chkv u = Ok u.
Hypothesis WG : wfm G.
Hypothesis RG : nrows G = N.
Hypothesis CG : ncols G = N.
Hypothesis N0 : N <> 0.
Let w : nat -> nat -> option Z := fun i j => option_map key (mget G i j).
Let gbody := gmst_body ltb plus zero chk chkv.
(** The weights of the edges [P], latest first, added up. *)
Let sumD (P : list (nat * nat)) : D :=
  fold_right (fun e acc => match mget G (fst e) (snd e) with Some x => plus acc x | None => acc end) zero P.
Hypothesis HC : forall P p u x, growing N w ((p, u) :: P) -> mget G p u = Some x ->
  chk (plus (sumD P) x) = Ok (plus (sumD P) x).
Lemma gargmin_fold l : forall t, (forall e, In e (t :: l) -> valid (snd e)) ->
  In (fold_left (gargmin_step ltb) l t) (t :: l) /\
  forall t', In t' (t :: l) -> (key (snd (fold_left (gargmin_step ltb) l t)) <= key (snd t'))%Z.
Proof.
  induction l as [|a l IH]; intros t V; simpl.
  - split; auto. intros t' [<-|[]]. lia.
  - assert (M : (key (snd (gargmin_step ltb t a)) <= key (snd t))%Z /\ (key (snd (gargmin_step ltb t a)) <= key (snd a))%Z /\
                (gargmin_step ltb t a = t \/ gargmin_step ltb t a = a)).
    { unfold gargmin_step. rewrite HL by (apply V; simpl; auto).
      destruct (Z.ltb_spec (key (snd a)) (key (snd t))); [split; [lia|split; [lia|auto]]|split; [lia|split; [lia|auto]]]. }
    destruct M as (M1 & M2 & M3).
    destruct (IH (gargmin_step ltb t a)) as (H1 & H2).
    { intros e [<-|He]; [destruct M3 as [->| ->]|]; apply V; simpl; auto. }
    assert (M4 : (key (snd (fold_left (gargmin_step ltb) l (gargmin_step ltb t a))) <= key (snd (gargmin_step ltb t a)))%Z)
      by (apply H2; simpl; auto).
    split.
    + destruct H1 as [H1|H1]; [|auto]. rewrite <- H1. destruct M3 as [->| ->]; auto.
    + intros t' [<-|[<-|H]]; [lia|lia|]. apply H2. simpl; auto.
Qed.

Lemma gargmin_ok v f :
  vis N v f -> (forall k y, k < N -> f k = Some y -> valid y) -> has_vals (vnvals v) = true ->
  exists u x, gargmin ltb zero v = Ok u /\ u < N /\ f u = Some x /\
    forall k y, k < N -> f k = Some y -> (key x <= key y)%Z.
Proof.
  intros (W & S & Gv) VF H. unfold gargmin. rewrite H. cbn [negb]. unfold vec_extractTuples.
  destruct (getContents_ok v (proj1 W)) as (c & -> & Wc & Gc). cbn [bind].
  assert (L : Z.of_nat (length c) = vnvals v).
  { destruct W as (W & C). rewrite C. f_equal. rewrite (wfrow_vcount (vsize v) c) by auto.
    apply vcount_ext. intros. rewrite Gc. auto. }
  rewrite L, Z.leb_refl. rewrite <- L, Nat2Z.id, Nat.sub_diag. simpl. rewrite app_nil_r.
  destruct c as [|t c].
  { simpl in L. rewrite <- L in H. discriminate. }
  assert (K : forall k y, In (k, y) (t :: c) <-> vget v k = Some y).
  { intros k y. rewrite <- Gc. symmetry. eapply ProofRow.rget_In; eauto. }
  assert (B : forall k y, vget v k = Some y -> k < N).
  { intros k y E. destruct (Nat.lt_ge_cases k N); auto. rewrite vget_oob in E; [discriminate|apply W|lia]. }
  destruct (gargmin_fold c t) as (H1 & H2).
  { intros [k y] He. apply K in He. simpl. pose proof (B _ _ He). apply (VF k); auto. rewrite <- Gv; auto. }
  destruct (fold_left (gargmin_step ltb) c t) as [u x] eqn:E.
  exists u, x. split; [reflexivity|]. apply K in H1. pose proof (B _ _ H1).
  split; [auto|]. split; [rewrite <- Gv; auto|]. intros k y Hk Hy. rewrite <- Gv in Hy by auto.
  apply K in Hy. apply (H2 _ Hy).
Qed.
Hypothesis sym : forall a b, w a b = w b a.

Lemma gmst_bound a b : w a b <> None -> a < N /\ b < N.
Proof.
  intro H. destruct (Nat.lt_ge_cases a N), (Nat.lt_ge_cases b N); auto; exfalso; apply H;
    unfold w; rewrite mget_oob; auto; lia.
Qed.
Lemma w_some a b x : mget G a b = Some x -> w a b = Some (key x).
Proof. intro E. unfold w. rewrite E. reflexivity. Qed.
Lemma w_none a b : mget G a b = None -> w a b = None.
Proof. intro E. unfold w. rewrite E. reflexivity. Qed.

Definition gedges_of (i j : nat) : option (nat * D) := option_map (fun x => (i, x)) (mget G i j).

Lemma gmst_build :
  exists A, build_or_throw (lil_new (nrows G) (ncols G))
      (map (fun '(i, j, x) => (i, j, (i, x))) (lil_extractTuples G)) = Ok A /\ sq N A gedges_of.
Proof.
  destruct (build_distinct (lil_new (nrows G) (ncols G))
      (map (fun '(i, j, x) => (i, j, (i, x))) (lil_extractTuples G)) (lil_new_wf _ _)) as (A & E & W & R & C & M).
  { apply Forall_forall. intros [[i j] v] H. apply in_map_iff in H. destruct H as ([[i' j'] v'] & H1 & H2).
    injection H1 as -> -> <-. apply (wfm_no_outside G i j v' WG) in H2. simpl. auto. }
  exists A. split; [exact E|]. split; [auto|]. split; [simpl in R; congruence|]. split; [simpl in C; congruence|].
  intros i j Hi Hj. rewrite M, mget_new. unfold gedges_of.
  pose proof (filter_pos _ i j (tuples_sorted G WG)) as H.
  assert (F : filter (fun '(i', j', _) => (i' =? i) && (j' =? j))
      (map (fun '(i, j, x) => (i, j, (i, x))) (lil_extractTuples G)) =
    map (fun '(i, j, x) => (i, j, (i, x)))
      (filter (fun '(i', j', _) => (i' =? i) && (j' =? j)) (lil_extractTuples G))).
  { generalize (lil_extractTuples G). induction l as [|[[a b] v] l IH]; simpl; auto. rewrite IH.
    destruct ((a =? i) && (b =? j)); reflexivity. }
  rewrite F. destruct (filter _ (lil_extractTuples G)) as [|[[a b] v] [|]]; [| |contradiction].
  - simpl. destruct (mget G i j) eqn:Em; auto. apply tuples_In in Em; auto. exfalso. eapply H; eauto.
  - destruct H as (-> & -> & HI). apply tuples_In in HI; auto. rewrite HI. reflexivity.
Qed.

Definition gnearest (P : list (nat * nat)) (v : nat) (o : option (nat * D)) : Prop :=
  match o with
  | Some (p, x) => In p (reached P) /\ mget G p v = Some x /\
      forall a y, In a (reached P) -> mget G a v = Some y -> (key x <= key y)%Z
  | None => forall a, In a (reached P) -> mget G a v = None
  end.

Definition gmst_inv (P : list (nat * nat)) (s : gmst_state) : Prop :=
  growing N w P /\ gmst_weight s = sumD P /\
  vis N (gmst_mask s) (fun v => if inb P v then Some true else None) /\
  vis N (gmst_s s) (fun v => if inb P v then None else Some zero) /\
  (exists fd, vis N (gmst_d s) fd /\ forall v, v < N -> gnearest P v (fd v)) /\
  (exists fp, vis N (gmst_par s) fp /\ forall p v, v < N -> (fp v = Some p <-> In (p, v) P)).

Lemma gmask_count P s : gmst_inv P s -> vnvals (gmst_mask s) = Z.of_nat (length (reached P)).
Proof.
  intros ((ND & LT & _) & _ & M & _). rewrite (vis_nvals _ _ _ M). f_equal.
  rewrite <- (vcount_ind N (reached P) ND) by (apply Forall_forall; auto).
  unfold vcount. f_equal. apply filter_ext. intro v. unfold inb. destruct (existsb _ _); reflexivity.
Qed.

Lemma gmst_step A P s :
  sq N A gedges_of -> gmst_inv P s ->
  (exists p u s', gbody N A s = Ok s' /\ gmst_inv ((p, u) :: P) s') \/
  (gbody N A s = Throw PanicException /\
   forall a b, In a (reached P) -> inb P b = false -> w a b = None).
Proof.
  intros HA (GR & WT & M & S & (fd & Dv & ND) & (fp & PA & NP)). unfold gbody, gmst_body.
  destruct (vis_new zero N N0) as (t0 & -> & T0). cbn [bind].
  destruct (vis_mult N (gmst_plus plus) btrue vnomask _ MERGE t0 _ _ _ _ _ T0 S Dv (vmis_none N btrue)) as (t & -> & T1).
  cbn [bind]. cbv beta in T1.
  assert (VT : forall k y, k < N -> omap2 (gmst_plus plus) (if inb P k then None else Some zero) (fd k) = Some y -> valid y).
  { intros k y Hk Ey. destruct (inb P k); [discriminate|]. specialize (ND k Hk). destruct (fd k) as [[q z]|]; [|discriminate].
    simpl in Ey. injection Ey as <-. unfold gmst_plus. simpl. apply HP. destruct ND as (_ & E & _). eapply VG; eauto. }
  rewrite HV; [|apply T1|].
  2: { intros k y Ey. assert (Hk : k < N).
       { destruct (Nat.lt_ge_cases k N); auto. destruct T1 as (W1 & S1 & _). rewrite vget_oob in Ey; [discriminate|apply W1|lia]. }
       apply (VT k y Hk). rewrite <- Ey. symmetry. apply T1. auto. }
  cbn [bind].
  destruct (has_vals (vnvals t)) eqn:HAS.
  2: { right. unfold gargmin. rewrite HAS. cbn [negb bind]. split; [reflexivity|].
       intros a b Ha Hb. destruct (w a b) as [y|] eqn:E; auto. exfalso.
       assert (Bb : b < N) by (apply (gmst_bound a b); congruence).
       pose proof (vis_no_vals _ _ _ T1 HAS b Bb) as Q. simpl in Q. rewrite Hb in Q.
       specialize (ND b Bb). destruct (fd b) as [[p x]|]; [discriminate|]. simpl in ND.
       unfold w in E. rewrite ND in E by auto. discriminate. }
  destruct (gargmin_ok t _ T1 VT HAS) as (u & x & -> & Hu & Fu & MIN). cbn [bind]. simpl in Fu.
  destruct (inb P u) eqn:Iu; [discriminate|].
  destruct (fd u) as [[p x']|] eqn:Du; [|discriminate]. simpl in Fu. injection Fu as Fu.
  unfold gmst_plus in Fu. simpl in Fu. subst x.
  pose proof (ND u Hu) as Nu. rewrite Du in Nu. destruct Nu as (Hp & Wpu & Mpu).
  assert (GR' : growing N w ((p, u) :: P)).
  { apply growing_step with (x := key x'); auto.
    - apply gmst_bound.
    - apply w_some. auto.
    - intros a b y Ha Hb E. assert (Bb : b < N) by (apply (gmst_bound a b); congruence).
      unfold w in E. destruct (mget G a b) as [y'|] eqn:E'; [|discriminate]. simpl in E. injection E as <-.
      pose proof (ND b Bb) as Q. destruct (fd b) as [[q z]|] eqn:Db; simpl in Q.
      + destruct Q as (_ & Ez & Q). specialize (Q a y' Ha E').
        destruct (HP x' (VG _ _ _ Wpu)) as (_ & K1). destruct (HP z (VG _ _ _ Ez)) as (_ & K2).
        specialize (MIN b (plus zero z) Bb). rewrite Hb, Db in MIN. specialize (MIN eq_refl). lia.
      + rewrite Q in E' by auto. discriminate. }
  left. exists p, u.
  destruct (vis_set N _ _ u true M Hu) as (mask & -> & M' & _). cbn [bind].
  destruct (vis_apply N (@idc D) btrue (MComp mask) _ REPLACE _ _ _ _ S S
              (vmis_comp N btrue mask _ M')) as (s1 & -> & S'). cbn [bind].
  rewrite (vis_extract N _ _ u _ Dv Hu Du). cbn [bind]. cbn [fst snd].
  rewrite WT, (HC P p u x' GR' Wpu). cbn [bind].
  destruct (vis_set N _ _ u p PA Hu) as (par & -> & PA' & _). cbn [bind].
  assert (CA : ncols A = N) by apply HA. rewrite CA.
  destruct (vis_new (0, zero) N N0) as (r0 & -> & R0). cbn [bind].
  destruct (vis_extract_row N btrue vnomask _ MERGE r0 A _ _ u R0 HA (vmis_none N btrue) Hu) as (r & -> & R').
  cbn [bind]. cbv beta in R'. simpl in R'.
  destruct (vis_add N (gmst_min ltb) idc idc btrue vnomask _ MERGE _ _ _ _ _ _ Dv Dv R' (vmis_none N btrue)) as (d & -> & D').
  cbn [bind]. cbv beta in D'. simpl in D'. eexists. split; [reflexivity|].
  split; [auto|]. simpl. split.
  { rewrite Wpu. reflexivity. }
  split.
  { eapply vis_ext; [exact M'|]. intros v Hv. rewrite inb_cons. simpl. destruct (v =? u); reflexivity. }
  split.
  { eapply vis_ext; [exact S'|]. intros v Hv. rewrite inb_cons. simpl.
    destruct (v =? u); simpl; [reflexivity|]. destruct (inb P v); reflexivity. }
  split.
  { eexists. split; [exact D'|]. intros v Hv. simpl. specialize (ND v Hv). unfold gedges_of.
    destruct (fd v) as [[q z]|] eqn:Dq, (mget G u v) as [y|] eqn:Wv; simpl in ND |- *.
    - destruct ND as (Hq & Wq & Mq). unfold gmst_min. simpl. rewrite HL by eauto. destruct (Z.ltb_spec (key z) (key y)).
      + split; [auto|]. split; [auto|]. intros a c [<-|Ha] E; [|eauto]. assert (c = y) by congruence; subst c; lia.
      + split; [auto|]. split; [auto|]. intros a c [<-|Ha] E; [|specialize (Mq a c Ha E); lia].
        assert (c = y) by congruence; subst c; lia.
    - destruct ND as (Hq & Wq & Mq). unfold idc. split; [auto|]. split; [auto|].
      intros a c [<-|Ha] E; [congruence|eauto].
    - unfold idc. split; [auto|]. split; [auto|].
      intros a c [<-|Ha] E; [assert (c = y) by congruence; subst c; lia|]. rewrite ND in E by auto. discriminate.
    - intros a [<-|Ha]; auto. }
  eexists. split; [exact PA'|]. intros q v Hv. simpl.
  destruct (Nat.eqb_spec v u) as [->|Nv].
  - split.
    + intro E. injection E as <-. auto.
    + intros [E|E]; [congruence|]. exfalso.
      assert (inb P u = true); [|congruence]. apply inb_iff. unfold reached. apply in_app_iff. left.
      change u with (snd (q, u)). apply in_map. auto.
  - rewrite NP by auto. split; [auto|]. intros [E|E]; [congruence|auto].
Qed.

(** How the loop ends. *)
Lemma gmst_loop A n : forall P s,
  sq N A gedges_of -> gmst_inv P s -> N - length (reached P) < n ->
  (exists P' s', mwhile n (fun s => (vnvals (gmst_mask s) <? Z.of_nat N)%Z) (gbody N A) s = Ok (Some s') /\
     gmst_inv P' s' /\ length (reached P') = N) \/
  (mwhile n (fun s => (vnvals (gmst_mask s) <? Z.of_nat N)%Z) (gbody N A) s = Throw PanicException /\
   exists P', growing N w P' /\ length (reached P') < N /\
     forall a b, In a (reached P') -> inb P' b = false -> w a b = None).
Proof.
  induction n as [|n IH]; intros P s HA HI Hn; [lia|]. simpl.
  rewrite (gmask_count P s HI).
  assert (L : length (reached P) <= N).
  { destruct HI as ((ND & LT & _) & _). rewrite <- (seq_length N 0). apply NoDup_incl_length; auto.
    intros v Hv. apply in_seq. specialize (LT v Hv). lia. }
  destruct (Z.ltb_spec (Z.of_nat (length (reached P))) (Z.of_nat N)).
  - destruct (gmst_step A P s HA HI) as [(p & u & s' & -> & HI')|(-> & HCL)]; cbn [bind].
    + apply (IH _ _ HA HI'). change (length (reached ((p, u) :: P))) with (S (length (reached P))). lia.
    + right. split; [reflexivity|]. exists P. split; [apply HI|]. split; [lia|auto].
  - left. exists P, s. split; [reflexivity|]. split; [auto|lia].
Qed.

(** The loop as it is entered. *)
Lemma gmst_start n par :
  vsize par = N -> wfv0 par ->
  exists A s, gmst ltb plus zero chk chkv n G par =
    (o <- mwhile n (fun s => (vnvals (gmst_mask s) <? Z.of_nat N)%Z) (gbody N A) s ;;
     match o with Some s => Ok (Some (gmst_weight s, gmst_par s)) | None => Ok None end) /\
    sq N A gedges_of /\ gmst_inv [] s.
Proof.
  intros Sp Wp. unfold gmst. rewrite RG, CG, Sp, Nat.eqb_refl. cbn [negb orb].
  destruct gmst_build as (A & EA & HA). rewrite RG, CG in EA. rewrite EA. cbn [bind].
  destruct (vis_new (0, zero) N N0) as (d0 & -> & D0). cbn [bind].
  destruct (vis_new false N N0) as (m0 & -> & M0). cbn [bind].
  destruct (vis_set N m0 _ 0 true M0) as (m & -> & M & _); [lia|]. cbn [bind].
  destruct (vis_new zero N N0) as (s0 & -> & S0). cbn [bind].
  destruct (vis_fill N btrue (MComp m) _ REPLACE s0 _ zero S0 (vmis_comp N btrue m _ M)) as (s & -> & S').
  cbn [bind].
  destruct (vis_extract_row N btrue vnomask _ MERGE d0 A _ _ 0 D0 HA (vmis_none N btrue)) as (d & -> & Dd); [lia|].
  cbn [bind]. exists A, (mkGmst zero d m s (vec_clear par)). split; [reflexivity|]. split; [auto|].
  split; [apply growing_nil; lia|]. simpl. split; [reflexivity|].
  split.
  { eapply vis_ext; [exact M|]. intros v Hv. unfold inb. simpl. destruct (v =? 0); reflexivity. }
  split.
  { eapply vis_ext; [exact S'|]. intros v Hv. unfold inb. simpl. destruct (v =? 0); reflexivity. }
  split.
  - eexists. split; [exact Dd|]. intros v Hv. simpl. unfold gedges_of.
    destruct (mget G 0 v) as [x|] eqn:E; simpl.
    + split; [auto|]. split; [auto|]. intros a y [<-|[]] E'. assert (y = x) by congruence; subst y; lia.
    + intros a [<-|[]]. auto.
  - eexists. split; [apply vis_clear; auto|]. intros p v Hv. simpl. split; [discriminate|tauto].
Qed.

(** The edges chosen are those of the parent list. *)
Lemma gparent_edges_perm P fp :
  growing N w P -> length (reached P) = N ->
  (forall p v, v < N -> (fp v = Some p <-> In (p, v) P)) ->
  Permutation P (parent_edges N fp).
Proof.
  intros (ND & LT & PE & _) L H.
  assert (ND2 : NoDup (map snd P)).
  { unfold reached in ND. apply NoDup_remove_1 in ND. rewrite app_nil_r in ND. auto. }
  assert (N1 : ~ In 0 (map snd P)).
  { unfold reached in ND. apply NoDup_remove_2 in ND. rewrite app_nil_r in ND. auto. }
  apply NoDup_Permutation_bis.
  - apply NoDup_map_inv in ND2. auto.
  - unfold parent_edges. rewrite map_length, seq_length. unfold reached in L.
    rewrite app_length, map_length in L. simpl in L. lia.
  - intros [p v] Hin.
    assert (Hv : In v (map snd P)) by (change v with (snd (p, v)); apply in_map; auto).
    assert (v < N) by (apply LT; unfold reached; apply in_app_iff; auto).
    assert (v <> 0) by (intro; subst; auto).
    unfold parent_edges. apply in_map_iff. exists v. split; [|apply in_seq; lia].
    rewrite (proj2 (H p v ltac:(auto)) Hin). reflexivity.
Qed.

Lemma gminimum_perm es fs :
  Permutation es fs -> minimum_spanning_tree N w es -> minimum_spanning_tree N w fs.
Proof.
  intros P ((L & E & C) & M). split.
  - split; [rewrite <- (Permutation_length P); auto|]. split.
    + intros a b H. apply E. eapply Permutation_in; [apply Permutation_sym; exact P|auto].
    + intros u v Hu Hv. eapply joined_incl; [|apply (C u v Hu Hv)].
      intros e He. eapply Permutation_in; eauto.
  - intros X HX. rewrite <- (weight_perm w es fs P). auto.
Qed.

(** Only vertices joined to 0 are reached. *)
Lemma greached_reachable P v :
  growing N w P -> In v (reached P) -> reachable (edge G) (fun u => u = 0) v.
Proof.
  intros (ND & LT & PE & JO & _) Hv. specialize (JO v Hv).
  assert (K : forall x, joined P 0 x -> reachable (edge G) (fun u => u = 0) x).
  { induction 1 as [|a b J (k & Wk) E].
    - exists 0. reflexivity.
    - exists (S k). simpl. exists a. split; auto. unfold edge.
      assert (K : is_some (w a b) = true); [|unfold w in K; destruct (mget G a b); auto].
      destruct E as [E|E]; destruct (PE _ _ E) as (_ & Hw); [|rewrite sym].
      + destruct (w a b); [reflexivity|congruence].
      + destruct (w b a); [reflexivity|congruence]. }
  auto.
Qed.
Lemma gclosed_reachable P v :
  In 0 (reached P) ->
  (forall a b, In a (reached P) -> inb P b = false -> w a b = None) ->
  reachable (edge G) (fun u => u = 0) v -> In v (reached P).
Proof.
  intros H0 HCL (k & Wk). revert v Wk. induction k as [|k IH]; intros v Wk; simpl in Wk.
  - subst. auto.
  - destruct Wk as (u & Wu & E). specialize (IH u Wu). apply inb_iff.
    destruct (inb P v) eqn:I; auto. exfalso. unfold edge in E. specialize (HCL u v IH I).
    unfold w in HCL. destruct (mget G u v); discriminate.
Qed.

Theorem gmst_ok n par :
  vsize par = N -> wfv0 par -> N < n ->
  (forall v, v < N -> reachable (edge G) (fun u => u = 0) v) ->
  exists x r, gmst ltb plus zero chk chkv n G par = Ok (Some (x, r)) /\ wfv r /\ vsize r = N /\
    vget r 0 = None /\ (forall v, 0 < v < N -> vget r v <> None) /\
    minimum_spanning_tree N w (parent_edges N (vget r)) /\ 
    exists es, Permutation es (parent_edges N (vget r)) /\ x = added plus zero (mget G) es.
Proof.
  intros Sp Wp Hn CO. destruct (gmst_start n par Sp Wp) as (A & s & -> & HA & HI).
  destruct (gmst_loop A n [] s HA HI) as [(P & s' & -> & HI' & L)|(E & P & GR & L & HCL)].
  { simpl. lia. }
  - cbn [bind]. destruct HI' as (GR & WT & _ & _ & _ & (fp & PA & NP)).
    exists (gmst_weight s'), (gmst_par s'). split; [reflexivity|].
    destruct PA as (W & Sz & Gp). split; [auto|]. split; [auto|].
    assert (NP' : forall p v, v < N -> (vget (gmst_par s') v = Some p <-> In (p, v) P)).
    { intros p v Hv. rewrite Gp by auto. auto. }
    assert (PP : Permutation P (parent_edges N (vget (gmst_par s')))) by (apply gparent_edges_perm; auto).
    assert (ND : NoDup (reached P)) by apply GR.
    split.
    { destruct (vget (gmst_par s') 0) as [p|] eqn:E; auto. exfalso. apply NP' in E; [|lia].
      unfold reached in ND. apply NoDup_remove_2 in ND. rewrite app_nil_r in ND. apply ND.
      change 0 with (snd (p, 0)). apply in_map. auto. }
    split.
    { intros v Hv. assert (Hin : In v (reached P)).
      { assert (IN : incl (seq 0 N) (reached P)).
        { apply (NoDup_length_incl ND).
          - rewrite seq_length. lia.
          - intros y Hy. apply in_seq. destruct GR as (_ & LT & _). specialize (LT y Hy). lia. }
        apply IN, in_seq. lia. }
      unfold reached in Hin. apply in_app_iff in Hin. destruct Hin as [Hin|[Hin|[]]]; [|lia].
      apply in_map_iff in Hin. destruct Hin as ([p v'] & E & Hin). simpl in E. subst v'.
      apply NP' in Hin; [|lia]. congruence. }
    split.
    + eapply gminimum_perm; [exact PP|]. apply growing_end; auto. apply gmst_bound.
    + exists (rev P). split; [rewrite <- Permutation_rev; auto|]. rewrite WT. unfold sumD, added.
      rewrite <- fold_left_rev_right, rev_involutive. reflexivity.
  - exfalso.
    assert (H0 : In 0 (reached P)) by (unfold reached; apply in_app_iff; simpl; auto).
    assert (IN : incl (seq 0 N) (reached P)).
    { intros v Hv. apply in_seq in Hv. apply gclosed_reachable; auto. apply CO. lia. }
    apply NoDup_incl_length in IN; [|apply seq_NoDup]. rewrite seq_length in IN. lia.
Qed.

Theorem gmst_disconnected n par v :
  vsize par = N -> wfv0 par -> N < n ->
  v < N -> ~ reachable (edge G) (fun u => u = 0) v ->
  gmst ltb plus zero chk chkv n G par = Throw PanicException.
Proof.
  intros Sp Wp Hn Hv NR. destruct (gmst_start n par Sp Wp) as (A & s & -> & HA & HI).
  destruct (gmst_loop A n [] s HA HI) as [(P & s' & -> & HI' & L)|(E & _)].
  { simpl. lia. }
  - exfalso. apply NR. destruct HI' as (GR & _). apply (greached_reachable P); auto.
    pose proof GR as (ND & LT & _).
    assert (IN : incl (seq 0 N) (reached P)).
    { apply (NoDup_length_incl ND).
      - rewrite seq_length. lia.
      - intros y Hy. apply in_seq. specialize (LT y Hy). lia. }
    apply IN, in_seq. lia.
  - rewrite E. reflexivity.
Qed.
End Mst.


(** ** Weights given as integers *)
Lemma tree_weight_ext w w' es : (forall a b, w a b = w' a b) -> tree_weight w es = tree_weight w' es.
Proof. intro H. unfold tree_weight. f_equal. apply map_ext. intro e. rewrite H. reflexivity. Qed.
Lemma spanning_ext N w w' es : (forall a b, w a b = w' a b) -> spanning_tree N w es -> spanning_tree N w' es.
Proof.
  intros H (L & E & J). split; [auto|]. split; [|auto]. intros a b He. rewrite <- H. auto.
Qed.
Lemma minimum_ext N w w' es :
  (forall a b, w a b = w' a b) -> minimum_spanning_tree N w es -> minimum_spanning_tree N w' es.
Proof.
  intros H (S & M). split; [eapply spanning_ext; eauto|]. intros X HX.
  rewrite <- !(tree_weight_ext w w') by auto. apply M. apply spanning_ext with w'; auto.
Qed.
Lemma growing_short N w P : growing N w P -> length P <= N - 1.
Proof.
  intros (ND & LT & _). assert (length (reached P) <= N).
  { rewrite <- (seq_length N 0). apply NoDup_incl_length; auto. intros v Hv. apply in_seq. specialize (LT v Hv). lia. }
  unfold reached in H. rewrite app_length, map_length in H. simpl in H. lia.
Qed.
Lemma growing_edges N w P a b : growing N w P -> In (a, b) P -> w a b <> None.
Proof. intros (_ & _ & PE & _) H. apply (PE a b H). Qed.

(** Sums of related weights: [R k] relates sums of [k] weights. *)
Lemma added_rel {D : Type} (plus : D -> D -> D) (w : nat -> nat -> option Z) (w' : nat -> nat -> option D)
    (R1 : Z -> D -> Prop) (R : nat -> Z -> D -> Prop) (n : nat) :
  (forall a b, orel R1 (w a b) (w' a b)) ->
  (forall k a x b y, k < n -> R k a x -> R1 b y -> R (S k) (a + b)%Z (plus x y)) ->
  forall es k a x, R k a x -> k + length es <= n -> (forall c d, In (c, d) es -> w c d <> None) ->
    R (k + length es) (a + tree_weight w es)%Z (added plus x w' es).
Proof.
  intros HW HP. induction es as [|(c, d) es IH]; intros k a x HR Hn HE.
  - simpl. unfold tree_weight. simpl. rewrite Nat.add_0_r, Z.add_0_r. auto.
  - unfold added. simpl fold_left. change (tree_weight w ((c, d) :: es)) with
      ((match w c d with Some x => x | None => 0%Z end) + tree_weight w es)%Z.
    simpl length in *. rewrite Nat.add_succ_r, <- Nat.add_succ_l, Z.add_assoc.
    specialize (HW c d). assert (Hc : w c d <> None) by (apply HE; simpl; auto).
    destruct (w c d) as [z|]; [|congruence]. destruct (w' c d) as [y|]; simpl in HW; [|contradiction].
    apply IH; [|lia|intros; apply HE; simpl; auto]. apply HP; auto. lia.
Qed.
Lemma sum_added {D : Type} (plus : D -> D -> D) zero (w' : nat -> nat -> option D) P :
  fold_right (fun e acc => match w' (fst e) (snd e) with Some x => plus acc x | None => acc end) zero P =
  added plus zero w' (rev P).
Proof. unfold added. rewrite <- fold_left_rev_right, rev_involutive. reflexivity. Qed.

Section Rel.
Context {D : Type} (ltb : D -> D -> bool) (plus : D -> D -> D) (zero : D)
  (chk : D -> res D) (chkv : bvec D -> res (bvec D)) (valid : D -> Prop) (key : D -> Z) (c : Z).
Context (R1 : Z -> D -> Prop) (R : nat -> Z -> D -> Prop).
Context (G : lil Z) (G' : lil D) (N : nat).
Hypothesis HG : mrel R1 G G'.
Hypothesis RG : nrows G = N.
Hypothesis CG : ncols G = N.
Hypothesis N0 : N <> 0.
Hypothesis c0 : (0 < c)%Z.
Hypothesis R1v : forall z x, R1 z x -> valid x /\ key x = (z * c)%Z.
Hypothesis HL : forall x y, valid x -> valid y -> ltb x y = (key x <? key y)%Z.
Hypothesis HP : forall x, valid x -> valid (plus zero x) /\ key (plus zero x) = key x.
Hypothesis HV : forall u, wfv u -> (forall i x, vget u i = Some x -> valid x) -> chkv u = Ok u.
Hypothesis HR0 : R 0 0%Z zero.
Hypothesis HRS : forall k a x b y, k < N - 1 -> R k a x -> R1 b y -> R (S k) (a + b)%Z (plus x y).
Hypothesis HRC : forall k a x, R k a x -> chk x = Ok x.
Hypothesis sym : forall a b, mget G a b = mget G b a.

Let w : nat -> nat -> option Z := fun i j => option_map key (mget G' i j).
Lemma rel_key a b : w a b = option_map (fun z => z * c)%Z (mget G a b).
Proof.
  unfold w. destruct HG as (_ & _ & _ & _ & H). specialize (H a b).
  destruct (mget G a b), (mget G' a b); simpl in *; try contradiction; auto. f_equal. apply R1v. auto.
Qed.
Lemma rel_valid i j x : mget G' i j = Some x -> valid x.
Proof.
  intro E. destruct HG as (_ & _ & _ & _ & H). specialize (H i j). rewrite E in H.
  destruct (mget G i j); simpl in H; [|contradiction]. eapply R1v; eauto.
Qed.
Lemma rel_none a b : w a b <> None -> mget G a b <> None.
Proof. rewrite rel_key. destruct (mget G a b); simpl; congruence. Qed.
Lemma rel_sum es : length es <= N - 1 -> (forall a b, In (a, b) es -> w a b <> None) ->
  R (length es) (tree_weight (mget G) es) (added plus zero (mget G') es).
Proof.
  intros L E. apply (added_rel plus (mget G) (mget G') R1 R (N - 1)) with (k := 0) (a := 0%Z); auto.
  - apply HG.
  - intros a b H. apply rel_none. auto.
Qed.
Lemma rel_chk P p u x : growing N w ((p, u) :: P) -> mget G' p u = Some x ->
  let s := fold_right (fun e acc => match mget G' (fst e) (snd e) with Some x => plus acc x | None => acc end) zero P in
  chk (plus s x) = Ok (plus s x).
Proof.
  intros GR E. pose proof (growing_short _ _ _ GR) as L.
  assert (K : R (length (rev ((p, u) :: P))) (tree_weight (mget G) (rev ((p, u) :: P))) (added plus zero (mget G') (rev ((p, u) :: P)))).
  { apply rel_sum; [rewrite rev_length; auto|]. intros a b H. apply in_rev in H. eapply growing_edges; eauto. }
  apply HRC in K. rewrite <- sum_added in K. cbn [fold_right fst snd] in K. rewrite E in K. exact K.
Qed.
Lemma rel_edge v : reachable (edge G) (fun u => u = 0) v <-> reachable (edge G') (fun u => u = 0) v.
Proof.
  assert (E : forall a b, edge G a b = edge G' a b).
  { intros a b. unfold edge. destruct HG as (_ & _ & _ & _ & H). specialize (H a b).
    destruct (mget G a b), (mget G' a b); simpl in *; try contradiction; auto. }
  split; intros (k & Wk); exists k; revert v Wk; induction k; simpl; auto; intros v (x & Wx & Ex); exists x;
    (split; [auto|rewrite E in *; auto]).
Qed.
Lemma scaled_weight es : tree_weight (fun a b => option_map (fun z => z * c)%Z (mget G a b)) es = (tree_weight (mget G) es * c)%Z.
Proof.
  induction es as [|(a, b) es IH]; [reflexivity|]. unfold tree_weight in *. simpl. rewrite IH.
  destruct (mget G a b); simpl; lia.
Qed.
Lemma scaled_minimum es : minimum_spanning_tree N w es -> minimum_spanning_tree N (mget G) es.
Proof.
  intro H. apply (minimum_ext N w _ es rel_key) in H.
  assert (S : forall X, spanning_tree N (fun a b => option_map (fun z => z * c)%Z (mget G a b)) X <-> spanning_tree N (mget G) X).
  { intro X. unfold spanning_tree. split; intros (L & E & J); (split; [auto|split; [|auto]]); intros a b Hab;
      destruct (E a b Hab) as (H1 & H2 & H3); (split; [auto|split; [auto|]]); destruct (mget G a b); simpl in *; congruence. }
  destruct H as (H1 & H2). split; [apply S; auto|]. intros X HX. apply S in HX. apply H2 in HX.
  rewrite !scaled_weight in HX. nia.
Qed.

Theorem rel_mst n par :
  vsize par = N -> wfv0 par -> N < n ->
  (forall v, v < N -> reachable (edge G) (fun u => u = 0) v) ->
  exists x r, gmst ltb plus zero chk chkv n G' par = Ok (Some (x, r)) /\ wfv r /\ vsize r = N /\
    vget r 0 = None /\ (forall v, 0 < v < N -> vget r v <> None) /\
    minimum_spanning_tree N (mget G) (parent_edges N (vget r)) /\ R (N - 1) (tree_weight (mget G) (parent_edges N (vget r))) x.
Proof.
  intros Sp Wp Hn CO. destruct HG as (WG & WG' & R1' & R2' & _).
  destruct (gmst_ok ltb plus zero chk chkv valid key G' N rel_valid HL HP HV WG' ltac:(congruence) ltac:(congruence) N0) with (n := n) (par := par)
    as (x & r & E & Wr & Sr & Z0 & NZ & MS & es & PE & EX); auto.
  - intros P p u y GR Ey. exact (rel_chk P p u y GR Ey).
  - intros a b. fold (w a b). fold (w b a). rewrite !rel_key, sym. reflexivity.
  - intros v Hv. apply rel_edge. auto.
  - exists x, r. do 5 (split; [assumption|]). split; [apply scaled_minimum; auto|].
    assert (L : length es = N - 1).
    { rewrite (Permutation_length PE). unfold parent_edges. rewrite map_length, seq_length. auto. }
    rewrite EX, <- (weight_perm (mget G) es) by auto. rewrite <- L. apply rel_sum; [lia|].
    intros a b H. destruct MS as ((_ & ED & _) & _). apply (ED a b). eapply Permutation_in; eauto.
Qed.
Theorem rel_disconnected n par v :
  vsize par = N -> wfv0 par -> N < n -> v < N -> ~ reachable (edge G) (fun u => u = 0) v ->
  gmst ltb plus zero chk chkv n G' par = Throw PanicException.
Proof.
  intros Sp Wp Hn Hv NR. destruct HG as (WG & WG' & R1' & R2' & _).
  apply (gmst_disconnected ltb plus zero chk chkv valid key G' N rel_valid HL HP HV WG') with (v := v); auto; try congruence.
  - intros P p u y GR Ey. exact (rel_chk P p u y GR Ey).
  - intros a b. fold (w a b). fold (w b a). rewrite !rel_key, sym. reflexivity.
  - intro H. apply NR, rel_edge. auto.
Qed.
End Rel.

Lemma gmst_throws {D} (ltb : D -> D -> bool) plus zero chk chkv (G : lil D) n parents :
  nrows G <> ncols G \/ nrows G <> vsize parents -> gmst ltb plus zero chk chkv n G parents = Throw DimensionException.
Proof.
  intro H. unfold gmst. destruct (Nat.eqb_spec (nrows G) (ncols G)), (Nat.eqb_spec (nrows G) (vsize parents)); simpl; auto.
  destruct H; congruence.
Qed.
