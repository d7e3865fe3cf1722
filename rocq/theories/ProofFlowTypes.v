(** The Ford-Fulkerson algorithm over the built-in types follows that over the unbounded integers. *)
From Coq Require Import Lia ZArith.
From Verif Require Import Base ModelLil ModelVec ModelHelpers ModelViews ModelMul ModelElem ModelIndex ModelAlgoBase ModelFlow ModelFlowTypes
  Spec SpecOps SpecFlow ProofBase ProofLil ProofVec ProofViews ProofMul ProofReduce ProofGraph ProofVis ProofFlow ProofFordFulk ProofRel SpecRel.
Local Open Scope Z_scope.

Section Flow.
Context {D : Type} (R : Z -> D -> Prop) (B T : Z) (okp : Z -> Prop).
Context (min plus times : D -> D -> D) (neg : D -> D) (dtrue : D -> bool) (ofb : bool -> D) (zero inf : D)
  (chk : D -> res D) (chkm : lil D -> res (lil D)).
Hypothesis H_ok : forall z, Z.abs z <= B -> okp z.
Hypothesis H_plus : forall a x b y, okp a -> okp b -> okp (a + b) -> R a x -> R b y -> R (a + b) (plus x y).
Hypothesis H_neg : forall a x, Z.abs a <= B -> R a x -> R (- a) (neg x).
Hypothesis H_min : forall a x b y, 0 <= a <= T -> 0 <= b <= T -> R a x -> R b y -> R (zmin a b) (min x y).
Hypothesis H_true : forall a x, 0 <= a <= B -> R a x -> dtrue x = ztrue a.
Hypothesis H_mul : forall a x, 0 <= a <= B -> R a x -> R a (times (ofb true) x).
Hypothesis H_0 : R 0 zero.
Hypothesis H_inf : R T inf.
Hypothesis H_chk : forall z x, R z x -> chk x = Ok x.
Hypothesis H_chkm : forall M M', mrel R M M' -> chkm M' = Ok M'.
Hypothesis BT : 0 <= B <= T.

Context (G : lil Z) (G' : lil D) (N source sink : nat) (lo : Z).
Hypothesis HG : mrel R G G'.
Hypothesis RG : nrows G = N.
Hypothesis CG : ncols G = N.
Hypothesis Hs : (source < N)%nat.
Hypothesis Ht : (sink < N)%nat.
Hypothesis Hst : source <> sink.
Hypothesis lo_small : 0 <= lo <= 1.
Hypothesis lo_T : lo <= T.
Hypothesis lo_G : forall i j c, mget G i j = Some c -> lo <= c.
Hypothesis HB : forall i j, (i < N)%nat -> (j < N)%nat -> capacity G i j + capacity G j i <= B.
Let cap := capacity G.
Let inv := ff_inv lo G N source sink.

Lemma mrel_of {A A'} (Q : A -> A' -> Prop) M M' f f' : sq N M f -> sq N M' f' ->
  (forall i j, (i < N)%nat -> (j < N)%nat -> orel Q (f i j) (f' i j)) -> mrel Q M M'.
Proof.
  intros (W & R1 & C1 & E1) (W' & R1' & C1' & E1') H. split; [auto|]. split; [auto|]. split; [congruence|]. split; [congruence|].
  intros i j. destruct (Nat.lt_ge_cases i N) as [Hi|Hi].
  - destruct (Nat.lt_ge_cases j N) as [Hj|Hj]; [rewrite E1, E1' by auto; auto|].
    rewrite !mget_oob by (auto; lia). exact Logic.I.
  - rewrite !mget_oob by (auto; lia). exact Logic.I.
Qed.
Lemma mrel_sq {A A'} (Q : A -> A' -> Prop) M M' : mrel Q M M' -> nrows M = N -> ncols M = N -> sq N M (mget M) /\ sq N M' (mget M').
Proof.
  intros (W & W' & R1 & C1 & _) HR HC. split; (split; [auto|]); (split; [congruence|]); (split; [congruence|]); auto.
Qed.

Lemma wfm_G : wfm G. Proof. apply HG. Qed.
Lemma cap_nonneg i j : 0 <= cap i j.
Proof. unfold cap, capacity. destruct (mget G i j) eqn:E; [apply lo_G in E; lia|lia]. Qed.
Lemma flow_abs f i j : is_flow N cap source sink f -> (i < N)%nat -> (j < N)%nat -> Z.abs (f i j) <= B /\ 0 <= cap i j - f i j <= B.
Proof.
  intros (A1 & A2 & _) Hi Hj. pose proof (A1 i j Hi Hj). pose proof (A2 i j Hi Hj). pose proof (A2 j i Hj Hi).
  pose proof (HB i j Hi Hj) as H2. fold cap in H2. pose proof (cap_nonneg i j). pose proof (cap_nonneg j i). lia.
Qed.

(** The least residual capacity. *)
Lemma ofold_min_rel l l' : Forall2 (orel (fun z x => R z x /\ 0 <= z <= T)) l l' ->
  orel (fun z x => R z x /\ 0 <= z <= T) (ofold idc zmin l) (ofold idc min l').
Proof.
  intro H. apply (ofold_rel (fun z x => R z x /\ 0 <= z <= T) (fun z x => R z x /\ 0 <= z <= T)); auto.
  - intros z x Hz. exact Hz.
  - intros a x b y [Ra Ba] [Rb Bb]. split; [apply H_min; auto|]. unfold zmin. destruct (a <? b); auto.
Qed.
Lemma rows_min_rel (f : nat -> nat -> option Z) (f' : nat -> nat -> option D) :
  (forall i j, (i < N)%nat -> (j < N)%nat -> orel (fun z x => R z x /\ 0 <= z <= T) (f i j) (f' i j)) ->
  R (rows_sum T idc zmin zmin N N f) (rows_sum inf idc min min N N f').
Proof.
  intro H. unfold rows_sum.
  assert (HF : forall i, (i < N)%nat -> Forall2 (orel (fun z x => R z x /\ 0 <= z <= T)) (map (f i) (seq 0 N)) (map (f' i) (seq 0 N))).
  { intros i Hi. assert (L : forall j, In j (seq 0 N) -> (j < N)%nat) by (intros j Hj; apply in_seq in Hj; lia). clear - H Hi L.
    induction (seq 0 N) as [|j q IHq]; simpl; constructor; [apply H; auto; apply L; simpl; auto|].
    apply IHq. intros; apply L; simpl; auto. }
  assert (K : forall l t t', (forall i, In i l -> (i < N)%nat) -> R t t' /\ 0 <= t <= T ->
    let g := fold_left (fun t i => match ofold idc zmin (map (f i) (seq 0 N)) with Some x => zmin t x | None => t end) l t in
    let g' := fold_left (fun t i => match ofold idc min (map (f' i) (seq 0 N)) with Some x => min t x | None => t end) l t' in
    R g g' /\ 0 <= g <= T).
  { induction l as [|i l IH]; intros t t' Hl Ht'; [exact Ht'|]. cbn [fold_left]. apply IH; [intros; apply Hl; simpl; auto|].
    assert (Hi : (i < N)%nat) by (apply Hl; simpl; auto).
    pose proof (ofold_min_rel (map (f i) (seq 0 N)) (map (f' i) (seq 0 N))) as K.
    pose proof (HF i Hi) as K1.
    specialize (K K1). destruct (ofold idc zmin _) as [x|], (ofold idc min _) as [x'|]; simpl in K; try contradiction; auto.
    destruct K as [K2 K3], Ht' as [K4 K5]. split; [apply H_min; auto|]. unfold zmin. destruct (t <? x); auto. }
  apply K; [intros i Hi; apply in_seq in Hi; lia|]. split; [auto|lia].
Qed.

Lemma augment_rel F Rz F' R' x M es :
  inv F Rz x -> mrel R F F' -> mrel R Rz R' -> sq N M (fun i j => if on es i j then Some true else None) ->
  epath source sink es -> (forall a b, In (a, b) es -> (a < N)%nat /\ (b < N)%nat /\ mget Rz a b <> None) ->
  exists F2 R2 F2' R2' x', gmf_augment min plus times neg dtrue ofb zero inf chk chkm N G' M F' R' = Ok (F2', R2') /\
    inv F2 R2 x' /\ mrel R F2 F2' /\ mrel R R2 R2' /\ x + lo <= x'.
Proof.
  intros HI HF' HR' HM EP HE.
  destruct (augment_ok T lo G N source sink wfm_G RG CG Hs Ht Hst lo_small lo_T F Rz x M es HI HM EP HE) as (F2 & R3 & x' & EA & HI' & Hx').
  exists F2, R3. pose proof HI as (fF & fR & HF & HR & FL & VA & RE & RL).
  pose proof HI' as (fF2 & fR3 & HF2 & HR3 & FL2 & _ & RE2 & _).
  destruct (mrel_sq R F F' HF' (proj1 (proj2 HF)) (proj1 (proj2 (proj2 HF)))) as [_ SF'].
  destruct (mrel_sq R Rz R' HR' (proj1 (proj2 HR)) (proj1 (proj2 (proj2 HR)))) as [_ SR'].
  destruct (mrel_sq R G G' HG RG CG) as [SG SG'].
  assert (OF : forall i j, (i < N)%nat -> (j < N)%nat -> orel R (fF i j) (mget F' i j)).
  { intros i j Hi Hj. rewrite <- (sq_get _ _ _ _ _ HF Hi Hj). apply HF'. }
  assert (OR : forall i j, (i < N)%nat -> (j < N)%nat -> orel R (fR i j) (mget R' i j)).
  { intros i j Hi Hj. rewrite <- (sq_get _ _ _ _ _ HR Hi Hj). apply HR'. }
  assert (BR : forall i j r, (i < N)%nat -> (j < N)%nat -> fR i j = Some r -> 0 <= r <= B).
  { intros i j r Hi Hj E. pose proof (RE i j Hi Hj) as Q. rewrite E in Q. simpl in Q. pose proof (flow_abs _ i j FL Hi Hj). fold cap in Q. lia. }
  unfold gmf_augment. unfold mf_augment in EA.
  (* G *)
  destruct (sq_mult N (fun b r => zb b * r)%Z (fun a b => zb a * zb b)%Z ztrue btrue mnomask _ MERGE
     _ M Rz _ _ _ (sq_new N) HM HR (mmis_none N btrue)) as (G1 & X1 & S1). rewrite X1 in EA. cbn [bind] in EA.
  destruct (sq_mult N (fun b r => times (ofb b) r) (fun a b => times (ofb a) (ofb b)) dtrue btrue mnomask _ MERGE
     _ M R' _ _ _ (sq_new N) HM SR' (mmis_none N btrue)) as (G1' & -> & S1'). cbn [bind].
  assert (O1 : forall i j, (i < N)%nat -> (j < N)%nat -> orel (fun z y => R z y /\ 0 <= z <= B) (mget G1 i j) (mget G1' i j)).
  { intros i j Hi Hj. rewrite (sq_get _ _ _ _ _ S1 Hi Hj), (sq_get _ _ _ _ _ S1' Hi Hj). unfold wr. cbv beta iota.
    specialize (OR i j Hi Hj). pose proof (BR i j) as Q.
    destruct (on es i j); [|exact Logic.I]. destruct (fR i j) as [r|], (mget R' i j) as [r'|]; simpl in OR; cbn [omap2 orel]; try contradiction; auto.
    specialize (Q r Hi Hj eq_refl). replace (zb true * r) with r by (unfold zb; lia). split; [apply H_mul; auto|auto]. }
  rewrite (H_chkm G1 G1'); [cbn [bind]|].
  2: { apply (mrel_of R _ _ _ _ S1 S1'). intros i j Hi Hj. specialize (O1 i j Hi Hj).
       rewrite (sq_get _ _ _ _ _ S1 Hi Hj), (sq_get _ _ _ _ _ S1' Hi Hj) in O1.
       destruct (wr _ _ _ _), (wr _ _ _ _); simpl in O1 |- *; tauto. }
  pose proof S1 as (W1 & R1 & C1 & E1). pose proof S1' as (W1' & R1' & C1' & E1').
  rewrite (reduce_ms_rows T idc zmin zmin zmin) in EA by (auto; reflexivity). rewrite R1, C1 in EA.
  rewrite (reduce_ms_rows inf idc min min min) by (auto; reflexivity). rewrite R1', C1'.
  match type of EA with context [Ok (idc (idc ?s))] => change (idc (idc s)) with s in EA end. cbn [bind] in EA.
  match goal with |- context [Ok (idc (idc ?s))] => change (idc (idc s)) with s end. cbn [bind].
  assert (Rg : R (rows_sum T idc zmin zmin N N (mget G1)) (rows_sum inf idc min min N N (mget G1'))).
  { apply rows_min_rel. intros i j Hi Hj. specialize (O1 i j Hi Hj). destruct (mget G1 i j), (mget G1' i j); simpl in O1 |- *; try tauto.
    destruct O1. split; [auto|lia]. }
  destruct (rows_min T N (mget G1)) as (MI & MG).
  set (g := rows_sum T idc zmin zmin N N (mget G1)) in *. set (g' := rows_sum inf idc min min N N (mget G1')) in *. clearbody g g'.
  assert (G0 : 0 <= g).
  { apply MG; [lia|]. intros i j y Hi Hj E. specialize (O1 i j Hi Hj). rewrite E in O1. destruct (mget G1' i j); simpl in O1; [lia|tauto]. }
  assert (GB : g <= B).
  { inversion EP as [|u v es' EP' NV Hnin]; [congruence|]. subst.
    destruct (HE u sink) as (Hu & Hv & Hn); [left; auto|]. specialize (O1 u sink Hu Hv). specialize (MI u sink).
    rewrite (sq_get _ _ _ _ _ S1 Hu Hv) in O1, MI. rewrite (sq_get _ _ _ _ _ HR Hu Hv) in Hn. unfold wr in O1, MI. cbv beta iota in O1, MI.
    assert (E : on ((u, sink) :: es') u sink = true) by (apply on_In; simpl; auto). rewrite E in O1, MI.
    destruct (fR u sink) as [r|]; [|congruence]. cbn [omap2] in O1, MI. specialize (MI _ Hu Hv eq_refl).
    destruct (mget G1' u sink); cbn [orel] in O1; [lia|tauto]. }
  rewrite (H_chk g g') by auto. cbn [bind].
  (* GM *)
  destruct (sq_apply N (fun b => zb b * g)%Z btrue mnomask _ MERGE _ M _ _ (sq_new N) HM (mmis_none N btrue))
    as (GM & X2 & HGM). rewrite X2 in EA. cbn [bind] in EA.
  destruct (sq_apply N (fun b => times (ofb b) g') btrue mnomask _ MERGE _ M _ _ (sq_new N) HM (mmis_none N btrue))
    as (GM' & -> & HGM'). cbn [bind].
  assert (O2 : forall i j, (i < N)%nat -> (j < N)%nat -> orel (fun z y => R z y /\ 0 <= z <= B)
    (if on es i j then Some g else None) (if on es i j then Some (times (ofb true) g') else None)).
  { intros i j Hi Hj. destruct (on es i j); simpl; [|exact Logic.I]. split; [apply H_mul; auto|lia]. }
  assert (K2 : sq N GM (fun i j => if on es i j then Some g else None)).
  { eapply sq_ext; [exact HGM|]. intros i j Hi Hj. unfold wr. cbv beta iota. destruct (on es i j); [|reflexivity].
    cbn [option_map zb]. f_equal. lia. }
  assert (K2' : sq N GM' (fun i j => if on es i j then Some (times (ofb true) g') else None)).
  { eapply sq_ext; [exact HGM'|]. intros i j Hi Hj. unfold wr. cbv beta iota. destruct (on es i j); reflexivity. }
  clear HGM HGM'.
  rewrite (H_chkm GM GM'); [cbn [bind]|].
  2: { apply (mrel_of R _ _ _ _ K2 K2'). intros i j Hi Hj. specialize (O2 i j Hi Hj). destruct (on es i j); simpl in *; tauto. }
  destruct (sq_apply_tran_acc N Z.opp Z.add idc btrue mnomask _ MERGE GM GM _ _ K2 K2 (mmis_none N btrue))
    as (GM2 & X3 & HGM2). rewrite X3 in EA. cbn [bind] in EA.
  destruct (sq_apply_tran_acc N neg plus idc btrue mnomask _ MERGE GM' GM' _ _ K2' K2' (mmis_none N btrue))
    as (GM2' & -> & HGM2'). cbn [bind].
  assert (O3 : forall i j, (i < N)%nat -> (j < N)%nat -> orel (fun z y => R z y /\ Z.abs z <= B) (mget GM2 i j) (mget GM2' i j)).
  { intros i j Hi Hj. rewrite (sq_get _ _ _ _ _ HGM2 Hi Hj), (sq_get _ _ _ _ _ HGM2' Hi Hj). unfold wr. cbv beta iota.
    assert (Rm : R g (times (ofb true) g')) by (apply H_mul; auto).
    destruct (on es i j), (on es j i); cbn [option_map ounion orel]; unfold idc; try exact Logic.I.
    - split; [|lia]. apply H_plus; [apply H_ok; lia..|auto|apply H_neg; [lia|auto]].
    - split; [auto|lia].
    - split; [apply H_neg; [lia|auto]|lia]. }
  rewrite (H_chkm GM2 GM2'); [cbn [bind]|].
  2: { apply (mrel_of R _ _ _ _ HGM2 HGM2'). intros i j Hi Hj. specialize (O3 i j Hi Hj).
       rewrite (sq_get _ _ _ _ _ HGM2 Hi Hj), (sq_get _ _ _ _ _ HGM2' Hi Hj) in O3.
       destruct (wr _ _ _ _), (wr _ _ _ _); simpl in O3 |- *; tauto. }
  (* F *)
  assert (SGM : sq N GM2 (mget GM2)) by (destruct HGM2 as (? & ? & ? & _); split; auto).
  assert (SGM' : sq N GM2' (mget GM2')) by (destruct HGM2' as (? & ? & ? & _); split; auto).
  destruct (sq_add N Z.add idc idc Z.add idc idc btrue mnomask _ REPLACE F F GM2 _ _ _ HF HF SGM (mmis_none N btrue))
    as (F3 & X4 & HF3). rewrite X4 in EA. cbn [bind] in EA.
  destruct (sq_add N plus idc idc plus idc idc btrue mnomask _ REPLACE F' F' GM2' _ _ _ SF' SF' SGM' (mmis_none N btrue))
    as (F3' & -> & HF3'). cbn [bind].
  destruct (sq_apply N Z.opp btrue mnomask _ MERGE _ F3 _ _ (sq_new N) HF3 (mmis_none N btrue))
    as (mF & X5 & HmF). rewrite X5 in EA. cbn [bind] in EA.
  destruct (sq_add N Z.add idc idc Z.add idc idc btrue mnomask _ REPLACE Rz G mF _ _ _ HR SG HmF (mmis_none N btrue))
    as (R2 & X6 & HR2). rewrite X6 in EA. cbn [bind] in EA.
  destruct (sq_apply N (@idc Z) ztrue (MVal R2) _ REPLACE R2 R2 _ _ HR2 HR2 (mmis_val N ztrue R2 _ HR2))
    as (R4 & X7 & HR4). rewrite X7 in EA. cbn [bind] in EA. injection EA as -> ->.
  assert (O4 : forall i j, (i < N)%nat -> (j < N)%nat -> orel (fun z y => R z y /\ Z.abs z <= B) (mget F2 i j) (mget F3' i j)).
  { intros i j Hi Hj.
    assert (Q : forall z, mget F2 i j = Some z -> Z.abs z <= B).
    { intros z E. rewrite (sq_get _ _ _ _ _ HF2 Hi Hj) in E. pose proof (flow_abs _ i j FL2 Hi Hj) as Q. cbv beta in Q. rewrite E in Q. apply Q. }
    rewrite (sq_get _ _ _ _ _ HF3 Hi Hj) in *. rewrite (sq_get _ _ _ _ _ HF3' Hi Hj).
    specialize (OF i j Hi Hj). specialize (O3 i j Hi Hj). unfold wr in *. cbv beta iota in *.
    pose proof (flow_abs _ i j FL Hi Hj) as Q0. cbv beta in Q0.
    destruct (fF i j) as [a|], (mget F' i j) as [a'|]; simpl in OF; try contradiction;
      destruct (mget GM2 i j) as [b|], (mget GM2' i j) as [b'|]; simpl in O3; try contradiction; simpl in Q, Q0 |- *; auto;
      specialize (Q _ eq_refl); unfold idc in *; (split; [|exact Q]); try tauto.
    apply H_plus; [apply H_ok; tauto| apply H_ok; tauto|apply H_ok; auto|auto|tauto]. }
  assert (M4 : mrel R F2 F3').
  { apply (mrel_of R _ _ _ _ HF3 HF3'). intros i j Hi Hj. specialize (O4 i j Hi Hj).
    rewrite (sq_get _ _ _ _ _ HF3 Hi Hj), (sq_get _ _ _ _ _ HF3' Hi Hj) in O4.
    destruct (wr _ _ _ _), (wr _ _ _ _); simpl in O4 |- *; tauto. }
  rewrite (H_chkm F2 F3' M4). cbn [bind].
  (* R *)
  destruct (sq_apply N neg btrue mnomask _ MERGE _ F3' _ _ (sq_new N) HF3' (mmis_none N btrue))
    as (mF' & -> & HmF'). cbn [bind].
  assert (O5 : forall i j, (i < N)%nat -> (j < N)%nat -> orel (fun z y => R z y /\ Z.abs z <= B) (mget mF i j) (mget mF' i j)).
  { intros i j Hi Hj. specialize (O4 i j Hi Hj). rewrite (sq_get _ _ _ _ _ HmF Hi Hj), (sq_get _ _ _ _ _ HmF' Hi Hj).
    rewrite (sq_get _ _ _ _ _ HF3 Hi Hj), (sq_get _ _ _ _ _ HF3' Hi Hj) in O4.
    cbv beta. set (p := wr _ _ _ (ounion Z.add _ _ _ _)) in *. set (p' := wr _ _ _ (ounion plus _ _ _ _)) in *. clearbody p p'.
    unfold wr. destruct p, p'; simpl in O4 |- *; try tauto. split; [apply H_neg; tauto|lia]. }
  rewrite (H_chkm mF mF'); [cbn [bind]|].
  2: { apply (mrel_of R _ _ _ _ HmF HmF'). intros i j Hi Hj. specialize (O5 i j Hi Hj).
       rewrite (sq_get _ _ _ _ _ HmF Hi Hj), (sq_get _ _ _ _ _ HmF' Hi Hj) in O5. cbv beta in O5.
       destruct (wr true MERGE None _), (wr true MERGE None _); simpl in O5 |- *; tauto. }
  assert (SmF' : sq N mF' (mget mF')) by (destruct HmF' as (? & ? & ? & _); split; auto).
  destruct (sq_add N plus idc idc plus idc idc btrue mnomask _ REPLACE R' G' mF' _ _ _ SR' SG' SmF' (mmis_none N btrue))
    as (R2' & -> & HR2'). cbn [bind].
  assert (O6 : forall i j, (i < N)%nat -> (j < N)%nat -> orel (fun z y => R z y /\ 0 <= z <= B) (mget R2 i j) (mget R2' i j)).
  { intros i j Hi Hj. rewrite (sq_get _ _ _ _ _ HR2' Hi Hj).
    assert (Q : forall z, mget R2 i j = Some z -> 0 <= z <= B).
    { intros z E. pose proof (flow_abs _ i j FL2 Hi Hj) as Q. cbv beta in Q. rewrite <- (sq_get _ _ _ _ _ HF2 Hi Hj) in Q.
      rewrite (sq_get _ _ _ _ _ HR2 Hi Hj) in E. rewrite (sq_get _ _ _ _ _ HF3 Hi Hj) in Q. cbv beta in E.
      set (p := wr true REPLACE _ (ounion Z.add idc idc (fF i j) _)) in *. clearbody p.
      unfold wr, cap, capacity in *. destruct (mget G i j), p; cbn -[Z.add Z.opp] in E, Q; unfold idc in *; try discriminate;
        injection E as <-; lia. }
    specialize (O5 i j Hi Hj). pose proof (proj2 (proj2 (proj2 (proj2 HG))) i j) as OG.
    assert (BG : forall c, mget G i j = Some c -> 0 <= c <= B).
    { intros c E. pose proof (cap_nonneg j i). pose proof (HB i j Hi Hj) as Q1. fold cap in Q1. unfold cap at 1, capacity in Q1. rewrite E in Q1.
      apply lo_G in E. lia. }
    rewrite (sq_get _ _ _ _ _ HR2 Hi Hj) in *. cbv beta in *.
    rewrite <- (sq_get _ _ _ _ _ HmF Hi Hj) in Q. rewrite <- (sq_get _ _ _ _ _ HmF Hi Hj). unfold wr in *.
    destruct (mget G i j) as [a|], (mget G' i j) as [a'|]; simpl in OG; try contradiction;
      destruct (mget mF i j) as [b|], (mget mF' i j) as [b'|]; simpl in O5; try contradiction; simpl in Q |- *; auto;
      specialize (Q _ eq_refl); unfold idc in *; (split; [|exact Q]); try tauto.
    specialize (BG _ eq_refl). apply H_plus; [apply H_ok; lia|apply H_ok; tauto|apply H_ok; lia|auto|tauto]. }
  assert (M6 : mrel R R2 R2').
  { apply (mrel_of R _ _ _ _ HR2 HR2'). intros i j Hi Hj. specialize (O6 i j Hi Hj).
    rewrite (sq_get _ _ _ _ _ HR2 Hi Hj), (sq_get _ _ _ _ _ HR2' Hi Hj) in O6. cbv beta in O6.
    destruct (wr true REPLACE (fR i j) _), (wr true REPLACE (mget R' i j) _); simpl in O6 |- *; tauto. }
  rewrite (H_chkm R2 R2' M6). cbn [bind].
  destruct (mrel_sq R R2 R2' M6 (proj1 (proj2 HR2)) (proj1 (proj2 (proj2 HR2)))) as [SR2 SR2'].
  destruct (sq_apply N (@idc D) dtrue (MVal R2') _ REPLACE R2' R2' _ _ SR2' SR2' (mmis_val N dtrue R2' _ SR2'))
    as (R4' & -> & HR4'). cbn [bind].
  exists F3', R4', x'. split; [reflexivity|]. split; [exact HI'|]. split; [exact M4|]. split; [|exact Hx'].
  apply (mrel_of R _ _ _ _ HR4 HR4'). intros i j Hi Hj. cbv beta. rewrite <- (sq_get _ _ _ _ _ HR2 Hi Hj).
  specialize (O6 i j Hi Hj). unfold wr. destruct (mget R2 i j) as [a|], (mget R2' i j) as [a'|]; simpl in O6 |- *; try tauto.
  destruct O6 as [O6 Q]. rewrite (H_true a a' Q O6). destruct (ztrue a); simpl; auto.
Qed.

Lemma nvals_rel : nvals G' = nvals G.
Proof.
  destruct HG as ((_ & C) & (_ & C') & R1 & C1 & E). rewrite C, C'. f_equal. rewrite <- R1, <- C1.
  unfold mcount. f_equal. apply filter_ext. intros [i j]. specialize (E i j). destruct (mget G i j), (mget G' i j); simpl in E; tauto.
Qed.

Lemma gff_loop ramp fuel n : forall M fM F Rz F' R' x count,
  vis N ramp Some -> (N < fuel)%nat -> sq N M fM -> inv F Rz x -> mrel R F F' -> mrel R Rz R' ->
  0 <= count <= nvals G -> lo * count <= x -> nvals G - count < Z.of_nat n ->
  exists F2 R2 F2' x', gmf_loop min plus times neg dtrue ofb zero inf chk chkm n fuel G' source sink ramp M F' R' count = Ok (Some F2') /\
    inv F2 R2 x' /\ mrel R F2 F2' /\ (is_max_flow N cap source sink x' \/ lo * nvals G <= x').
Proof.
  induction n as [|n IH]; intros M fM F Rz F' R' x count Hra Hf HM HI HF' HR' Hc Hx Hn; [simpl in Hn; lia|].
  cbn [gmf_loop]. pose proof HI as (fF & fR & HF & HR & FL & VA & RE & RL).
  destruct (mrel_sq R Rz R' HR' (proj1 (proj2 HR)) (proj1 (proj2 (proj2 HR)))) as [SR SR'].
  assert (NN : forall i j, mget R' i j = None <-> mget Rz i j = None).
  { intros i j. pose proof (proj2 (proj2 (proj2 (proj2 HR'))) i j) as Q. destruct (mget Rz i j), (mget R' i j); simpl in Q; try tauto; split; congruence. }
  destruct (maxflow_bfs_ok N source sink R' (mget R') ramp SR' Hra Hs Ht fuel M fM HM Hf)
    as [(M' & es & -> & HM' & EP & HE)|(-> & S & CUT & SAT)]; cbn [bind andb].
  - rewrite nvals_rel. destruct (Z.ltb_spec count (nvals G)) as [L|L].
    + assert (RG' : nrows G' = N) by (destruct HG as (_ & _ & Q & _); congruence). rewrite RG'.
      destruct (augment_rel F Rz F' R' x M' es HI HF' HR' HM' EP) as (F2 & R2 & F2' & R2' & x' & -> & HI' & HF2 & HR2 & Hx').
      { intros a b K. destruct (HE a b K) as (Ha & Hb & Hn'). split; [auto|]. split; [auto|]. intro Q. apply Hn', NN, Q. }
      cbn [bind fst snd]. apply (IH M' (fun i j => if on es i j then Some true else None) F2 R2 F2' R2' x' (count + 1)); auto; lia.
    + exists F, Rz, F', x. split; [reflexivity|]. split; [auto|]. split; [auto|]. right.
      assert (count = nvals G) by lia. subst count. auto.
  - exists F, Rz, F', x. split; [reflexivity|]. split; [auto|]. split; [auto|]. left. rewrite <- VA.
    apply (saturated_max N cap source sink Hs Ht _ S); auto.
    intros u v Hu Hv Su Sv. specialize (RE u v Hu Hv). pose proof (SAT u v Hu Hv Su Sv) as Q. apply NN in Q.
    rewrite (sq_get _ _ _ _ _ HR Hu Hv) in Q. rewrite Q in RE. simpl in RE. unfold cap. lia.
Qed.

(** The flows into the sink are added up in the order of the vertices. *)
Hypothesis H_sum : forall f, is_flow N cap source sink f -> forall k, (k <= N)%nat -> okp (zsum k (fun u => f u sink)).

Lemma sum_rel (f : nat -> option Z) (f' : nat -> option D) k :
  (forall i, (i < k)%nat -> orel R (f i) (f' i)) -> (forall i, (i < k)%nat -> okp (od (f i))) ->
  (forall m, (m <= k)%nat -> okp (zsum m (fun i => od (f i)))) ->
  orel R (ofold idc Z.add (map f (seq 0 k))) (ofold idc plus (map f' (seq 0 k))).
Proof.
  induction k as [|k IH]; intros Hr H1 H2; [exact Logic.I|].
  rewrite seq_S, !map_app. cbn [map Nat.add]. rewrite !ofold_snoc.
  specialize (IH ltac:(intros; apply Hr; lia) ltac:(intros; apply H1; lia) ltac:(intros; apply H2; lia)).
  pose proof (zsum_od G N source sink RG CG Hs Ht Hst k f) as Z1. pose proof (zsum_od G N source sink RG CG Hs Ht Hst (S k) f) as Z2.
  rewrite seq_S, map_app in Z2. cbn [map Nat.add] in Z2. rewrite ofold_snoc in Z2.
  pose proof (H2 k ltac:(lia)) as P1. pose proof (H2 (S k) ltac:(lia)) as P2. rewrite <- Z1 in P1. rewrite <- Z2 in P2.
  pose proof (Hr k ltac:(lia)) as P3. pose proof (H1 k ltac:(lia)) as P4.
  destruct (ofold idc Z.add _) as [a|], (ofold idc plus _) as [a'|]; simpl in IH; try contradiction;
    destruct (f k) as [b|], (f' k) as [b'|]; simpl in P3; try contradiction; simpl in *; auto.
Qed.

Theorem gford_fulk_ok n :
  (N < n)%nat -> nvals G < Z.of_nat n ->
  exists x x', gmaxflow_ford_fulk min plus times neg dtrue ofb zero inf chk chkm n G' source sink = Ok (Some x') /\ R x x' /\
    (exists f, is_flow N cap source sink f /\ flow_value N sink f = x) /\
    (is_max_flow N cap source sink x \/ lo * nvals G <= x).
Proof.
  intros Hn1 Hn2. unfold gmaxflow_ford_fulk.
  assert (RG' : nrows G' = N) by (destruct HG as (_ & _ & Q & _); congruence). rewrite RG'.
  destruct (ff_ramp G N source sink RG CG Hs Ht Hst) as (r0 & r & -> & E & Hr). cbn [bind]. rewrite E. cbn [bind].
  assert (FL0 : inv (lil_new N N) G 0).
  { exists (fun _ _ => None), (mget G). split; [apply sq_new|]. split; [split; [apply wfm_G|split; auto]|].
    assert (Z0 : zsum N (fun _ => 0%Z) = 0%Z) by (apply zsum_zero; auto).
    split; [|split; [|split]].
    - simpl. split; [intros; lia|]. split.
      + intros u v Hu Hv. apply (cap_nonneg u v).
      + intros. exact Z0.
    - exact Z0.
    - intros i j Hi Hj. unfold capacity, od. destruct (mget G i j); lia.
    - intros i j c _ _. apply lo_G. }
  assert (M0 : mrel R (lil_new N N) (lil_new N N)).
  { apply (mrel_of R _ _ _ _ (sq_new N) (sq_new N)). intros. exact Logic.I. }
  destruct (gff_loop r n n (lil_new N N) _ (lil_new N N) G (lil_new N N) G' 0 0 Hr Hn1 (sq_new N) FL0 M0 HG)
    as (F & Rz & F' & x & -> & (fF & fR & HF & HR & FL & VA & _) & HF' & HX).
  - split; [lia|]. destruct wfm_G as (_ & ->). apply Zle_0_nat.
  - lia.
  - lia.
  - cbn [bind]. assert (N0 : N <> 0%nat) by lia.
    destruct (mrel_sq R F F' HF' (proj1 (proj2 HF)) (proj1 (proj2 (proj2 HF)))) as [_ SF'].
    destruct (vis_new zero N N0) as (s0 & -> & S0). cbn [bind].
    destruct (vis_extract_column N btrue vnomask _ MERGE s0 F' _ _ sink S0 SF' (vmis_none N btrue) Ht)
      as (s1 & -> & S1). cbn [bind].
    rewrite (reduce_vs_ok zero idc plus plus) by (try reflexivity; apply wfv_wfvn, S1).
    match goal with |- context [Ok (idc (idc ?s))] => change (idc (idc s)) with s end. cbn [bind].
    destruct S1 as (_ & Sz & Gz). rewrite Sz.
    assert (SR : orel R (ofold idc Z.add (map (fun i => fF i sink) (seq 0 N))) (ofold idc plus (map (vget s1) (seq 0 N)))).
    { apply sum_rel.
      - intros i Hi. rewrite Gz by auto. unfold wr. rewrite <- (sq_get _ _ _ _ _ HF Hi Ht). apply HF'.
      - intros i Hi. apply H_ok. apply (flow_abs _ i sink FL Hi Ht).
      - intros m Hm. apply (H_sum _ FL m Hm). }
    pose proof (zsum_od G N source sink RG CG Hs Ht Hst N (fun i => fF i sink)) as ZO. cbv beta in ZO. unfold flow_value in VA. cbv beta in VA. rewrite <- ZO in VA.
    assert (RX : R x (match ofold idc plus (map (vget s1) (seq 0 N)) with Some x0 => x0 | None => zero end)).
    { destruct (ofold idc Z.add _), (ofold idc plus _); simpl in SR; try contradiction; subst; auto. }
    rewrite (H_chk _ _ RX). cbn [bind]. eexists x, _. split; [reflexivity|]. split; [exact RX|].
    split; [|exact HX]. exists (fun i j => od (fF i j)). split; [exact FL|]. unfold flow_value. rewrite <- ZO. exact VA.
Qed.
End Flow.

(** ** The flows into the sink *)
Lemma zsum_partial (f h : nat -> Z) N k : (k <= N)%nat -> (forall i, (i < N)%nat -> Z.abs (f i) <= h i) ->
  Z.abs (zsum k f) <= zsum N h.
Proof.
  intros Hk H. assert (K : forall m, (m <= N)%nat -> Z.abs (zsum m f) <= zsum m h).
  { induction m as [|m IH]; intro Hm; [rewrite !zsum_0; simpl; lia|]. rewrite !zsum_S. specialize (IH ltac:(lia)). specialize (H m ltac:(lia)). lia. }
  assert (L : forall m, (m <= N)%nat -> zsum m h <= zsum N h).
  { clear k Hk K. intros m Hm. induction Hm as [|N' Hm IH]; [lia|]. rewrite zsum_S.
    specialize (IH ltac:(intros; apply H; lia)). specialize (H N' ltac:(lia)). lia. }
  specialize (K k Hk). specialize (L k Hk). lia.
Qed.
