(** The Ford-Fulkerson algorithm. *)
From Coq Require Import Lia.
From Verif Require Import Base ModelLil ModelVec ModelHelpers ModelViews ModelMul ModelElem
  ModelIndex ModelAlgoBase ModelFlow Spec SpecOps SpecFlow ProofBase ProofLil ProofVec ProofViews ProofMul ProofReduce
  ProofGraph ProofBfs ProofPaths ProofVis ProofFlow.

Section Search.
Context {T : Type} (N source sink : nat) (R : lil T) (fR : nat -> nat -> option T) (ramp : bvec nat).
Hypothesis HR : sq N R fR.
Hypothesis Hramp : vis N ramp Some.
Hypothesis Hs : source < N.
Hypothesis Ht : sink < N.

(** The parents found so far describe simple paths of edges of [R]. *)
Definition tree_path (fp : nat -> option nat) (v : nat) (es : list (nat * nat)) : Prop :=
  epath source v es /\
  forall a b, In (a, b) es -> a < N /\ b < N /\ fp b = Some a /\ fR a b <> None.

Definition search_inv (s : bvec nat * bvec nat) : Prop :=
  exists fp fw, vis N (fst s) fp /\ vis N (snd s) fw /\
    fp source <> None /\
    (forall v, v < N -> fp v <> None -> exists es, tree_path fp v es) /\
    (forall v, v < N -> fw v <> None -> fp v <> None) /\
    (forall u v, u < N -> v < N -> fp u <> None -> fw u = None -> fR u v <> None -> fp v <> None).

Lemma search_step p w :
  search_inv (p, w) ->
  exists p' w', mf_bfs_body R ramp (p, w) = Ok (p', w') /\ search_inv (p', w') /\
    (has_vals (vnvals w') = true -> (vnvals p < vnvals p')%Z).
Proof.
  intros (fp & fw & P & W & P0 & PT & WP & CL). cbn [fst snd] in *. unfold mf_bfs_body.
  destruct (vis_mult N (fun a _ : nat => a) btrue vnomask _ MERGE w ramp w _ _ _ W Hramp W (vmis_none N btrue))
    as (w1 & -> & W1). cbn [bind].
  destruct (vis_vxm N nmin (fun (a : nat) (_ : T) => a) ntrue (MSComp p) _ REPLACE w1 w1 R _ _ _ W1 W1 HR
              (vmis_scomp N ntrue p _ P)) as (w2 & -> & W2). cbn [bind].
  destruct (vis_apply_acc N (@idc nat) Nat.add idc btrue vnomask _ MERGE p w2 _ _ P W2 (vmis_none N btrue))
    as (p' & -> & P'). cbn [bind].
  set (g := fun j => osum nmin (map (fun k => omap2 (fun (a : nat) (_ : T) => a)
              (if is_some (fw k) then Some k else None) (fR k j)) (seq 0 N))) in *.
  assert (W3 : vis N w2 (fun j => if is_some (fp j) then None else g j)).
  { eapply vis_ext; [exact W2|]. intros j Hj. unfold wr. destruct (is_some (fp j)); simpl; [reflexivity|].
    unfold g. f_equal. apply map_ext. intro k. destruct (fw k); reflexivity. }
  assert (P3 : vis N p' (fun j => if is_some (fp j) then fp j else g j)).
  { eapply vis_ext; [exact P'|]. intros j Hj. cbv beta.
    rewrite <- (vis_get _ _ _ _ W2 Hj), (vis_get _ _ _ _ W3 Hj). unfold wr.
    destruct (fp j); simpl; [reflexivity|]. destruct (g j); reflexivity. }
  clear W2 P'. exists p', w2. split; [reflexivity|].
  assert (Gs : forall j u, j < N -> g j = Some u -> u < N /\ fw u <> None /\ fR u j <> None).
  { intros j u Hj E. unfold g in E. apply osum_nmin in E. destruct E as (E & _). apply in_map_iff in E.
    destruct E as (k & E & Hk). apply in_seq in Hk. destruct (fw k) eqn:Fk; [|discriminate].
    destruct (fR k j) eqn:Rk; [|discriminate]. simpl in E. injection E as <-.
    split; [lia|]. split; congruence. }
  assert (Gn : forall j u, j < N -> u < N -> fw u <> None -> fR u j <> None -> g j <> None).
  { intros j u Hj Hu Fu Ru E. unfold g in E. rewrite osum_none_iff in E.
    assert (K : None = omap2 (fun (a : nat) (_ : T) => a) (if is_some (fw u) then Some u else None) (fR u j)).
    { symmetry. apply E. apply in_map_iff. exists u. split; auto. apply in_seq. lia. }
    destruct (fw u), (fR u j); simpl in K; congruence. }
  split.
  - eexists _, _. split; [exact P3|]. split; [exact W3|].
    split; [destruct (fp source); simpl; congruence|].
    assert (EXT : forall v es, tree_path fp v es ->
              tree_path (fun j => if is_some (fp j) then fp j else g j) v es).
    { intros v es (E1 & E2). split; auto. intros a b H. destruct (E2 a b H) as (A1 & A2 & A3 & A4).
      split; [auto|]. split; [auto|]. split; [|auto]. rewrite A3. reflexivity. }
    split.
    { intros v Hv Fv. destruct (fp v) as [u|] eqn:E; simpl in Fv.
      - destruct (PT v Hv) as (es & H); [congruence|]. exists es. auto.
      - destruct (g v) as [u|] eqn:Eg; [|congruence]. destruct (Gs v u Hv Eg) as (Hu & Wu & Ru).
        destruct (PT u Hu (WP u Hu Wu)) as (es & H). exists ((u, v) :: es).
        assert (NV : v <> source) by (intro; subst; congruence).
        split.
        + constructor; [apply H|auto|]. intro K. apply in_map_iff in K. destruct K as ([a b] & <- & K).
          destruct H as (_ & H). destruct (H a b K) as (_ & _ & H' & _). simpl in E. congruence.
        + apply EXT in H. destruct H as (_ & H). intros a b [K|K]; [|auto].
          injection K as <- <-. split; [auto|]. split; [auto|]. split; [|auto]. rewrite E. simpl. auto. }
    split.
    { intros v Hv. destruct (fp v); simpl; congruence. }
    intros u v Hu Hv. destruct (fp u) as [pu|] eqn:Eu; simpl.
    + intros _ _ Ru. destruct (fp v) as [pv|] eqn:Ev; simpl; [congruence|].
      destruct (fw u) eqn:Fu.
      * apply (Gn v u); auto. congruence.
      * exfalso. apply (CL u v Hu Hv); congruence.
    + intros Gu Gu'. contradiction.
  - intro HV. destruct (vis_vals _ _ _ W3 HV) as (v & Hv & Fv).
    rewrite (vis_nvals _ _ _ P), (vis_nvals _ _ _ P3). apply inj_lt.
    apply (vcount_lt N fp _ v); auto.
    + intros i Hi Fi. destruct (fp i); simpl; congruence.
    + destruct (fp v); simpl in *; congruence.
    + destruct (fp v); simpl in *; congruence.
Qed.

Lemma search_loop n : forall p w,
  search_inv (p, w) ->
  (has_vals (vnvals w) = true -> (Z.of_nat N - vnvals p + 1 < Z.of_nat n)%Z) -> 0 < n ->
  exists p' w', mwhileM n
         (fun '(parents, w) =>
            h <- vec_hasElement parents sink ;; Ok (negb h && has_vals (vnvals w)))
         (mf_bfs_body R ramp) (p, w) = Ok (Some (p', w')) /\ search_inv (p', w') /\
    (vget p' sink = None -> has_vals (vnvals w') = false).
Proof.
  induction n as [|n IH]; intros p w HI Hn Hp; [lia|]. simpl.
  pose proof HI as (fp & fw & P & W & _). cbn [fst snd] in *.
  rewrite (vis_has _ _ _ _ P Ht). cbn [bind].
  destruct (is_some (fp sink)) eqn:E; simpl.
  - exists p, w. split; [reflexivity|]. split; [auto|]. rewrite (vis_get _ _ _ _ P Ht). intro K.
    rewrite K in E. discriminate.
  - destruct (has_vals (vnvals w)) eqn:HV.
    + destruct (search_step p w HI) as (p' & w' & Eb & HI' & INC). unfold mf_bfs_body in Eb. rewrite Eb. cbn [bind].
      assert (LE : (vnvals p <= Z.of_nat N)%Z).
      { rewrite (vis_nvals _ _ _ P). apply inj_le, vcount_le_N. }
      specialize (Hn eq_refl).
      apply IH; auto.
      * intro HV'. specialize (INC HV'). lia.
      * lia.
    + exists p, w. split; [reflexivity|]. auto.
Qed.

(** Marking the path. *)
Lemma path_loop parents fp n : forall es c M fM,
  vis N parents fp -> epath source c es ->
  (forall a b, In (a, b) es -> a < N /\ b < N /\ fp b = Some a) ->
  sq N M fM -> length es < n ->
  exists M', mf_path n parents source (M, c) = Ok (Some (M', source)) /\
    sq N M' (fun i j => if on es i j then Some true else fM i j).
Proof.
  induction n as [|n IH]; intros es c M fM P EP HE HM Hn; [lia|]. unfold mf_path. simpl.
  inversion EP as [|u v es' EP' NV Hnin]; subst.
  - rewrite Nat.eqb_refl. simpl. exists M. split; [reflexivity|]. auto.
  - destruct (Nat.eqb_spec c source); [congruence|]. simpl.
    destruct (HE u c) as (Hu & Hc & Fc); [left; auto|].
    rewrite (vis_extract _ _ _ _ _ P Hc Fc). cbn [bind].
    destruct (sq_set N M fM u c true HM Hu Hc) as (M1 & -> & HM1). cbn [bind].
    destruct (IH es' u M1 _ P EP' ltac:(intros; apply HE; right; auto) HM1 ltac:(simpl in Hn; lia))
      as (M2 & E2 & HM2).
    unfold mf_path in E2. rewrite E2. exists M2. split; [reflexivity|].
    eapply sq_ext; [exact HM2|]. intros i j Hi Hj. unfold on. simpl. fold (on es' i j).
    rewrite (Nat.eqb_sym i u), (Nat.eqb_sym j c).
    destruct (on es' i j); simpl; [rewrite orb_true_r; reflexivity|]. rewrite orb_false_r. reflexivity.
Qed.

Lemma epath_short v es :
  epath source v es -> (forall a b, In (a, b) es -> b < N) -> length es < N.
Proof.
  intros P HB. pose proof (epath_NoDup _ _ _ P) as ND.
  assert (NI : ~ In source (map snd es)).
  { intro K. apply in_map_iff in K. destruct K as ([a b] & E & K). simpl in E. subst b.
    eapply epath_heads; eauto. }
  assert (L : length (source :: map snd es) <= length (seq 0 N)).
  { apply NoDup_incl_length; [constructor; auto|]. intros x [<-|Hx]; apply in_seq; [lia|].
    apply in_map_iff in Hx. destruct Hx as ([a b] & <- & K). simpl. specialize (HB a b K). lia. }
  rewrite seq_length in L. simpl in L. rewrite map_length in L. lia.
Qed.

Theorem maxflow_bfs_ok n M fM :
  sq N M fM -> N < n ->
  (exists M' es, maxflow_bfs n R source sink ramp M = Ok (Some (true, M')) /\
     sq N M' (fun i j => if on es i j then Some true else None) /\
     epath source sink es /\
     (forall a b, In (a, b) es -> a < N /\ b < N /\ fR a b <> None)) \/
  (maxflow_bfs n R source sink ramp M = Ok (Some (false, M)) /\
   exists S, is_cut N source sink S /\
     forall u v, u < N -> v < N -> S u = true -> S v = false -> fR u v = None).
Proof.
  intros HM Hn. unfold maxflow_bfs. destruct HR as (WR & RR & CR & GR). rewrite RR, CR.
  assert (N0 : N <> 0) by lia.
  destruct (vis_new 0 N N0) as (p0 & -> & P0). cbn [bind].
  destruct (vis_set N p0 _ source source P0 Hs) as (p1 & -> & P1 & C1). cbn [bind].
  destruct (vis_set N p0 _ source 1 P0 Hs) as (w1 & -> & W1 & _). cbn [bind].
  assert (C0 : vnvals p0 = 0%Z).
  { rewrite (vis_nvals _ _ _ P0), vcount_none; auto. }
  destruct (search_loop n p1 w1) as (p & w & -> & HI & HE).
  - eexists _, _. cbn [fst snd]. split; [exact P1|]. split; [exact W1|].
    split; [rewrite Nat.eqb_refl; discriminate|]. split.
    { intros v Hv. destruct (Nat.eqb_spec v source); [|congruence]. subst. intros _. exists [].
      split; [constructor|]. intros a b []. }
    split; [intros v Hv; destruct (v =? source); congruence|].
    intros u v Hu Hv. destruct (u =? source); congruence.
  - intros _. simpl in C1. lia.
  - lia.
  - cbn [bind]. destruct HI as (fp & fw & P & W & S0 & PT & WP & CL). cbn [fst snd] in *.
    rewrite (vis_has _ _ _ _ P Ht). cbn [bind]. rewrite (vis_get _ _ _ _ P Ht) in HE.
    destruct (fp sink) as [u|] eqn:E; simpl.
    + left. destruct (PT sink Ht) as (es & EP & HP); [congruence|].
      destruct (path_loop p fp n es sink (lil_clear M) _ P EP
                  ltac:(intros a b K; destruct (HP a b K) as (? & ? & ? & _); auto)
                  (sq_clear N M fM HM)) as (M' & -> & HM').
      { assert (length es < N); [|lia]. eapply epath_short; eauto. intros a b K. apply HP in K. tauto. }
      cbn [bind]. exists M', es. split; [reflexivity|]. split; [auto|]. split; [auto|].
      intros a b K. destruct (HP a b K) as (? & ? & _ & ?). auto.
    + right. split; [reflexivity|]. specialize (HE eq_refl).
      exists (fun v => is_some (fp v)). split.
      * split; [destruct (fp source); simpl; congruence|rewrite E; reflexivity].
      * intros u v Hu Hv Su Sv. destruct (fR u v) eqn:Er; auto. exfalso.
        assert (K : fp v <> None).
        { apply (CL u v Hu Hv).
          - destruct (fp u); simpl in Su; congruence.
          - apply (vis_no_vals _ _ _ W HE u Hu).
          - congruence. }
        destruct (fp v); simpl in Sv; congruence.
Qed.
End Search.

(** ** The least entry *)
Lemma rows_min inf N (f : nat -> nat -> option Z) :
  let g := rows_sum inf idc zmin zmin N N f in
  (forall i j x, i < N -> j < N -> f i j = Some x -> (g <= x)%Z) /\
  (forall c, (c <= inf)%Z -> (forall i j x, i < N -> j < N -> f i j = Some x -> (c <= x)%Z) -> (c <= g)%Z).
Proof.
  intro g.
  assert (ROW : forall i, (forall x, ofold idc zmin (map (f i) (seq 0 N)) = Some x ->
       (forall j y, j < N -> f i j = Some y -> (x <= y)%Z) /\ exists j, j < N /\ f i j = Some x) /\
     (ofold idc zmin (map (f i) (seq 0 N)) = None -> forall j, j < N -> f i j = None)).
  { intro i. rewrite (ofold_osum idc zmin zmin) by reflexivity. rewrite map_map. split.
    - intros x E. apply osum_zmin in E. destruct E as (E1 & E2). split.
      + intros j y Hj Fj. apply E2. apply in_map_iff. exists j. rewrite Fj. split; [reflexivity|].
        apply in_seq. lia.
      + apply in_map_iff in E1. destruct E1 as (j & E & Hj). apply in_seq in Hj. exists j.
        split; [lia|]. destruct (f i j); simpl in E; [|discriminate]. exact E.
    - intros E j Hj. rewrite osum_none_iff in E.
      assert (K : In (option_map idc (f i j)) (map (fun x => option_map idc (f i x)) (seq 0 N))).
      { apply in_map_iff. exists j. split; auto. apply in_seq. lia. }
      apply E in K. destruct (f i j); [discriminate|auto]. }
  assert (ALL : forall n, n <= N ->
    let g := fold_left (fun t i => match ofold idc zmin (map (f i) (seq 0 N)) with
                        | Some x => zmin t x | None => t end) (seq 0 n) inf in
    (forall i j x, i < n -> j < N -> f i j = Some x -> (g <= x)%Z) /\
    (forall c, (c <= inf)%Z -> (forall i j x, i < n -> j < N -> f i j = Some x -> (c <= x)%Z) -> (c <= g)%Z)).
  { induction n as [|n IH]; intros Hn h.
    - split; [intros; lia|]. intros c Hc _. exact Hc.
    - destruct (IH ltac:(lia)) as (I1 & I2). unfold h. rewrite seq_S, fold_left_app. simpl.
      destruct (ROW n) as (R1 & R2).
      set (h' := fold_left _ (seq 0 n) inf) in *. clearbody h'. clear h.
      destruct (ofold idc zmin (map (f n) (seq 0 N))) as [x|] eqn:E.
      + destruct (R1 x eq_refl) as (R3 & j0 & Hj0 & R4). unfold zmin.
        split.
        * intros i j y Hi Hj Fy. destruct (Nat.eq_dec i n) as [->|].
          -- specialize (R3 j y Hj Fy). destruct (Z.ltb_spec h' x); lia.
          -- assert (h' <= y)%Z by (apply (I1 i j); auto; lia). destruct (Z.ltb_spec h' x); lia.
        * intros c Hc Hall. assert (c <= x)%Z by (apply (Hall n j0); auto).
          assert (c <= h')%Z by (apply I2; auto; intros i j y Hi Hj Fy; apply (Hall i j y); [lia|auto|auto]).
          destruct (Z.ltb_spec h' x); lia.
      + split.
        * intros i j y Hi Hj Fy. destruct (Nat.eq_dec i n) as [->|].
          -- rewrite (R2 eq_refl j Hj) in Fy. discriminate.
          -- apply (I1 i j); auto. lia.
        * intros c Hc Hall. apply I2; auto. intros i j y Hi Hj Fy; apply (Hall i j y); [lia|auto|auto]. }
  exact (ALL N (le_n N)).
Qed.

Section Flow.
Context (inf lo : Z) (G : lil Z) (N source sink : nat).
Hypothesis WG : wfm G.
Hypothesis RG : nrows G = N.
Hypothesis CG : ncols G = N.
Hypothesis Hs : source < N.
Hypothesis Ht : sink < N.
Hypothesis Hst : source <> sink.
Hypothesis lo_small : (0 <= lo <= 1)%Z.
Hypothesis lo_inf : (lo <= inf)%Z.
Hypothesis lo_G : forall i j c, mget G i j = Some c -> (lo <= c)%Z.

Let cap := capacity G.
Definition od (o : option Z) : Z := match o with Some x => x | None => 0%Z end.

Lemma sq_G : sq N G (mget G).
Proof. split; auto. Qed.

Definition ff_inv (F R : lil Z) (x : Z) : Prop :=
  exists fF fR, sq N F fF /\ sq N R fR /\
    is_flow N cap source sink (fun i j => od (fF i j)) /\
    flow_value N sink (fun i j => od (fF i j)) = x /\
    (forall i j, i < N -> j < N -> od (fR i j) = (cap i j - od (fF i j))%Z) /\
    (forall i j r, i < N -> j < N -> fR i j = Some r -> (lo <= r)%Z).

Lemma is_flow_ext f g :
  (forall i j, i < N -> j < N -> f i j = g i j) -> is_flow N cap source sink f -> is_flow N cap source sink g.
Proof.
  intros E (A1 & A2 & A3). split; [|split].
  - intros u v Hu Hv. rewrite <- !E by auto. auto.
  - intros u v Hu Hv. rewrite <- !E by auto. auto.
  - intros v Hv N1 N2. rewrite <- (A3 v Hv N1 N2). apply zsum_ext. intros. symmetry. auto.
Qed.
Lemma flow_value_ext f g :
  (forall i j, i < N -> j < N -> f i j = g i j) -> flow_value N sink f = flow_value N sink g.
Proof. intro E. apply zsum_ext. intros. auto. Qed.

Lemma augment_ok F R x M es :
  ff_inv F R x -> sq N M (fun i j => if on es i j then Some true else None) ->
  epath source sink es ->
  (forall a b, In (a, b) es -> a < N /\ b < N /\ mget R a b <> None) ->
  exists F' R' x', mf_augment inf N G M F R = Ok (F', R') /\ ff_inv F' R' x' /\ (x + lo <= x')%Z.
Proof.
  intros (fF & fR & HF & HR & FL & VA & RE & RL) HM EP HE. unfold mf_augment.
  destruct (sq_mult N (fun b r => zb b * r)%Z (fun a b => zb a * zb b)%Z ztrue btrue mnomask _ MERGE
     _ M R _ _ _ (sq_new N) HM HR (mmis_none N btrue)) as (G1 & -> & H1). cbn [bind].
  pose proof H1 as (W1 & R1 & C1 & E1).
  rewrite (reduce_ms_rows inf idc zmin zmin zmin) by (auto; reflexivity). rewrite R1, C1.
  match goal with |- context [Ok (idc (idc ?s))] => change (idc (idc s)) with s end. cbn [bind].
  destruct (rows_min inf N (mget G1)) as (MI & MG).
  set (g := rows_sum inf idc zmin zmin N N (mget G1)) in *. clearbody g.
  assert (G1v : forall i j, i < N -> j < N -> mget G1 i j = if on es i j then fR i j else None).
  { intros i j Hi Hj. rewrite E1 by auto. unfold wr. destruct (on es i j); [|reflexivity].
    destruct (fR i j); simpl; [|reflexivity]. f_equal. destruct z; reflexivity. }
  assert (Hg : (lo <= g)%Z).
  { apply MG; auto. intros i j r Hi Hj E. rewrite G1v in E by auto. destruct (on es i j); [|discriminate].
    eapply RL; [| |exact E]; auto. }
  assert (Hr : forall a b, In (a, b) es -> (g <= cap a b - od (fF a b))%Z).
  { intros a b K. destruct (HE a b K) as (Ha & Hb & Hn). rewrite <- RE by auto.
    rewrite (sq_get _ _ _ _ _ HR Ha Hb) in Hn. destruct (fR a b) as [r|] eqn:Er; [|congruence].
    simpl. apply (MI a b); auto. rewrite G1v by auto. apply on_In in K. rewrite K. auto. }
  destruct (sq_apply N (fun b => zb b * g)%Z btrue mnomask _ MERGE _ M _ _ (sq_new N) HM (mmis_none N btrue))
    as (GM & -> & HGM). cbn [bind].
  destruct (sq_apply_tran_acc N Z.opp Z.add idc btrue mnomask _ MERGE GM GM _ _ HGM HGM (mmis_none N btrue))
    as (GM2 & -> & HGM2). cbn [bind].
  destruct (sq_add N Z.add idc idc Z.add idc idc btrue mnomask _ REPLACE F F GM2 _ _ _ HF HF HGM2 (mmis_none N btrue))
    as (F2 & -> & HF2). cbn [bind].
  destruct (sq_apply N Z.opp btrue mnomask _ MERGE _ F2 _ _ (sq_new N) HF2 (mmis_none N btrue))
    as (mF & -> & HmF). cbn [bind].
  destruct (sq_add N Z.add idc idc Z.add idc idc btrue mnomask _ REPLACE R G mF _ _ _ HR sq_G HmF (mmis_none N btrue))
    as (R2 & -> & HR2). cbn [bind].
  destruct (sq_apply N (@idc Z) ztrue (MVal R2) _ REPLACE R2 R2 _ _ HR2 HR2 (mmis_val N ztrue R2 _ HR2))
    as (R3 & -> & HR3). cbn [bind].
  assert (P1 : forall i j, i < N -> j < N -> od (mget F2 i j) = (od (fF i j) + g * unit_flow es i j)%Z).
  { intros i j Hi Hj. rewrite (sq_get _ _ _ _ _ HF2 Hi Hj). unfold wr, unit_flow.
    destruct (fF i j), (on es i j), (on es j i); cbn -[Z.mul Z.add Z.opp]; unfold idc; lia. }
  exists F2, R3, (x + g)%Z. split; [reflexivity|].
  assert (HB : forall e, In e es -> snd e < N) by (intros [a b] K; apply HE in K; simpl; tauto).
  destruct (augment N cap source sink _ es g Hs Ht Hst FL EP HB ltac:(lia) Hr) as (FL' & VA').
  split; [|lia].
  exists (mget F2), (mget R3).
  split; [destruct HF2 as (? & ? & ? & _); split; auto|].
  split; [destruct HR3 as (? & ? & ? & _); split; auto|].
  split; [eapply is_flow_ext; [|exact FL']; intros; symmetry; apply P1; auto|].
  split; [rewrite <- VA, <- VA'; apply flow_value_ext; intros; apply P1; auto|].
  assert (Q : forall i j, i < N -> j < N -> od (mget R2 i j) = (cap i j - od (mget F2 i j))%Z).
  { intros i j Hi Hj. rewrite (sq_get _ _ _ _ _ HR2 Hi Hj). rewrite (sq_get _ _ _ _ _ HF2 Hi Hj).
    cbv beta. set (t := wr true REPLACE _ (ounion Z.add idc idc (fF i j) _)). clearbody t.
    unfold wr, cap, capacity. destruct (mget G i j), t; cbn -[Z.mul Z.add Z.opp]; unfold idc; lia. }
  assert (Q3 : forall i j, i < N -> j < N -> mget R3 i j = if otrue ztrue (mget R2 i j) then mget R2 i j else None).
  { intros i j Hi Hj. rewrite (sq_get _ _ _ _ _ HR3 Hi Hj). cbv beta.
    rewrite <- (sq_get _ _ _ _ _ HR2 Hi Hj). unfold wr.
    destruct (otrue ztrue (mget R2 i j)); [|reflexivity]. destruct (mget R2 i j); reflexivity. }
  split.
  - intros i j Hi Hj. rewrite <- Q by auto. rewrite Q3 by auto. destruct (mget R2 i j) as [r|]; simpl; [|reflexivity].
    unfold ztrue. destruct (Z.eqb_spec r 0); simpl; auto.
  - intros i j r Hi Hj E. rewrite Q3 in E by auto. specialize (Q i j Hi Hj).
    destruct (mget R2 i j) as [r'|]; simpl in E, Q; [|discriminate].
    unfold ztrue in E. destruct (Z.eqb_spec r' 0); simpl in E; [discriminate|]. injection E as <-.
    assert (od (mget F2 i j) <= cap i j)%Z; [|lia].
    rewrite P1 by auto. apply FL'; auto.
Qed.

(** How the loop ends: with a maximal flow, or after [nvals] iterations. *)
Lemma ff_loop ramp fuel n : forall M fM F R x count,
  vis N ramp Some -> N < fuel -> sq N M fM -> ff_inv F R x -> (0 <= count <= nvals G)%Z -> (lo * count <= x)%Z ->
  (nvals G - count < Z.of_nat n)%Z ->
  exists F' R' x', mf_loop n inf fuel G source sink ramp M F R count = Ok (Some F') /\ ff_inv F' R' x' /\
    (is_max_flow N cap source sink x' \/ (lo * nvals G <= x')%Z).
Proof.
  induction n as [|n IH]; intros M fM F R x count Hra Hf HM HI Hc Hx Hn; [simpl in Hn; lia|].
  cbn [mf_loop]. pose proof HI as (fF & fR & HF & HR & FL & VA & RE & RL).
  destruct (maxflow_bfs_ok N source sink R fR ramp HR Hra Hs Ht fuel M fM HM Hf)
    as [(M' & es & -> & HM' & EP & HE)|(-> & S & CUT & SAT)]; cbn [bind andb].
  - destruct (Z.ltb_spec count (nvals G)) as [L|L].
    + rewrite RG. destruct (augment_ok F R x M' es HI HM' EP) as (F' & R' & x' & -> & HI' & Hx').
      { intros a b K. destruct (HE a b K) as (Ha & Hb & Hn'). split; [auto|]. split; [auto|].
        rewrite (sq_get _ _ _ _ _ HR Ha Hb). auto. }
      cbn [bind fst snd]. eapply IH; eauto.
      * lia.
      * lia.
      * lia.
    + exists F, R, x. split; [reflexivity|]. split; [auto|]. right.
      assert (count = nvals G) by lia. subst count. auto.
  - exists F, R, x. split; [reflexivity|]. split; [auto|]. left. rewrite <- VA.
    apply (saturated_max N cap source sink Hs Ht _ S); auto.
    intros u v Hu Hv Su Sv. specialize (RE u v Hu Hv). rewrite (SAT u v Hu Hv Su Sv) in RE. simpl in RE. lia.
Qed.

Lemma ff_ramp :
  exists r0 r, vec_new 0 N = Ok r0 /\ vec_build 0 (fun _ b => b) r0 (map (fun i => (i, i)) (seq 0 N)) = Ok r /\
    vis N r Some.
Proof.
  assert (N0 : N <> 0) by lia.
  destruct (vis_new 0 N N0) as (r0 & E0 & V0). exists r0.
  assert (F : Forall (fun t : nat * nat => fst t < vsize r0) (map (fun i => (i, i)) (seq 0 N))).
  { apply Forall_forall. intros t K. apply in_map_iff in K. destruct K as (i & <- & Hi). apply in_seq in Hi.
    destruct V0 as (_ & Sz & _). simpl. lia. }
  destruct (vec_build_ok 0 (fun _ b => b) r0 _ F) as (r & E & W & Sz & Nv & Gr).
  exists r. split; [auto|]. split; [auto|]. split; [|split].
  - eapply vec_build_wf; [exact E| |exact F]. rewrite map_map. simpl. rewrite map_id. apply seq_NoDup.
  - destruct V0 as (_ & Sz0 & _). congruence.
  - intros i Hi. rewrite Gr.
    assert (K : forall n, osum (fun _ b : nat => b) (map (fun t : nat * nat => Some (snd t))
        (filter (fun t => fst t =? i) (map (fun i => (i, i)) (seq 0 n)))) = if i <? n then Some i else None).
    { induction n as [|n IH]; [reflexivity|]. rewrite seq_S, map_app, filter_app, map_app. simpl.
      unfold osum in *. rewrite fold_left_app, IH.
      destruct (Nat.eqb_spec n i), (Nat.ltb_spec i n), (Nat.ltb_spec i (S n)); subst; simpl; auto; lia. }
    rewrite K. destruct (Nat.ltb_spec i N); [reflexivity|lia].
Qed.

Lemma zsum_od n (f : nat -> option Z) :
  match ofold idc Z.add (map f (seq 0 n)) with Some x => x | None => 0%Z end = zsum n (fun i => od (f i)).
Proof.
  induction n as [|n IH]; [reflexivity|]. rewrite seq_S, map_app, zsum_S, <- IH. cbn [map Nat.add].
  rewrite ofold_snoc. destruct (ofold idc Z.add (map f (seq 0 n))), (f n); simpl; unfold idc; lia.
Qed.

Theorem ford_fulk_ok n :
  N < n -> (nvals G < Z.of_nat n)%Z ->
  exists x, maxflow_ford_fulk inf n G source sink = Ok (Some x) /\
    (exists f, is_flow N cap source sink f /\ flow_value N sink f = x) /\
    (is_max_flow N cap source sink x \/ (lo * nvals G <= x)%Z).
Proof.
  intros Hn1 Hn2. unfold maxflow_ford_fulk. rewrite RG.
  destruct ff_ramp as (r0 & r & -> & E & Hr). cbn [bind]. rewrite E. cbn [bind].
  assert (FL0 : ff_inv (lil_new N N) G 0).
  { exists (fun _ _ => None), (mget G). split; [apply sq_new|]. split; [apply sq_G|].
    assert (Z0 : zsum N (fun _ => 0%Z) = 0%Z) by (apply zsum_zero; auto).
    split; [|split; [|split]].
    - simpl. split; [intros; lia|]. split.
      + intros u v Hu Hv. unfold cap, capacity. destruct (mget G u v) eqn:E'; [|lia].
        specialize (lo_G _ _ _ E'). lia.
      + intros. exact Z0.
    - exact Z0.
    - intros i j Hi Hj. unfold cap, capacity, od. destruct (mget G i j); lia.
    - intros i j c _ _. apply lo_G. }
  destruct (ff_loop r n n (lil_new N N) _ (lil_new N N) G 0 0 Hr Hn1 (sq_new N) FL0)
    as (F & R & x & -> & (fF & fR & HF & HR & FL & VA & _) & HX).
  - split; [lia|]. destruct WG as (_ & ->). apply Zle_0_nat.
  - lia.
  - lia.
  - cbn [bind]. assert (N0 : N <> 0) by lia.
    destruct (vis_new 0%Z N N0) as (s0 & -> & S0). cbn [bind].
    destruct (vis_extract_column N btrue vnomask _ MERGE s0 F _ _ sink S0 HF (vmis_none N btrue) Ht)
      as (s1 & -> & S1). cbn [bind].
    rewrite (reduce_vs_ok 0%Z idc Z.add Z.add) by (try reflexivity; apply wfv_wfvn, S1). 
    match goal with |- context [Ok (idc (idc ?s))] => change (idc (idc s)) with s end. cbn [bind].
    rewrite zsum_od. destruct S1 as (_ & Sz & Gz). rewrite Sz.
    assert (EX : zsum N (fun i => od (vget s1 i)) = x).
    { rewrite <- VA. apply zsum_ext. intros i Hi. rewrite Gz by auto. reflexivity. }
    rewrite EX. exists x. split; [reflexivity|]. split; [eauto|auto].
Qed.
End Flow.

(** With unit capacities, the edges that leave the source are a cut of at most [nvals]. *)
Lemma unit_cut (G : lil Z) N source :
  wfm G -> nrows G = N -> ncols G = N -> source < N ->
  (forall i j c, mget G i j = Some c -> c = 1%Z) ->
  (cut_capacity N (capacity G) (Nat.eqb source) <= nvals G)%Z.
Proof.
  intros WG RG CG Hs Hc. unfold cut_capacity. rewrite (zsum_single N _ source Hs).
  2: { intros j Hj Nj. apply zsum_zero. intros i Hi. destruct (Nat.eqb_spec source j); [congruence|reflexivity]. }
  assert (L : (zsum N (fun v => if (source =? source)%nat && negb (source =? v)%nat then capacity G source v else 0)
               <= Z.of_nat (vcount N (mget G source)))%Z).
  { unfold vcount. clear - Hc. induction N as [|N IH]; [reflexivity|].
    rewrite zsum_S, seq_S, filter_app, app_length, Nat2Z.inj_add. apply Z.add_le_mono; [exact IH|].
    rewrite Nat.eqb_refl. unfold capacity. simpl. destruct (mget G source N) as [c|] eqn:E; simpl.
    - rewrite (Hc _ _ _ E). destruct (source =? N); simpl; lia.
    - destruct (source =? N); simpl; lia. }
  eapply Z.le_trans; [exact L|]. destruct WG as (_ & ->). rewrite RG, CG, mcount_rows. apply inj_le.
  clear L. assert (In source (seq 0 N)) as Hin by (apply in_seq; lia).
  induction (seq 0 N) as [|x l IH]; [inversion Hin|]. simpl. destruct Hin as [->|Hin]; [lia|].
  specialize (IH Hin). change list_sum with (fold_right Nat.add 0) in *. lia.
Qed.
