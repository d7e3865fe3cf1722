(** The shortest path algorithms. *)
From Coq Require Import Lia.
From Verif Require Import Base ModelLil ModelVec ModelHelpers ModelViews ModelMul ModelElem
  ModelIndex ModelUtils ModelAlgoBase ModelSssp Spec SpecOps SpecIndex SpecPaths ProofBase ProofRow
  ProofLil ProofVec ProofViews ProofMul ProofElem ProofIndex ProofReduce ProofUtils ProofGraph
  ProofPaths.

Lemma any_false_v_iff flags : wfv0 flags ->
  (any_false_v flags = true <-> exists i, vget flags i = Some false).
Proof.
  intros [L1 L2]. unfold any_false_v, vget. rewrite existsb_exists.
  assert (L : length (vbits flags) = length (vvals flags)) by congruence. clear L1 L2.
  revert L. generalize (vvals flags). induction (vbits flags) as [|b bs IH]; intros [|x xs] L;
    try discriminate; simpl.
  - split; [intros ((? & ?) & [] & _)|]. intros (i & Hi). destruct i; discriminate.
  - injection L as L. specialize (IH xs L). split.
    + intros (e & [<-|Hin] & He).
      * exists 0. simpl in *. destruct b, x; try discriminate. reflexivity.
      * destruct (proj1 IH) as (i & Hi); [eauto|]. exists (S i). exact Hi.
    + intros ([|i] & Hi); simpl in *.
      * exists (b, x). split; [auto|]. destruct b; [|discriminate]. injection Hi as ->. reflexivity.
      * destruct (proj2 IH) as (e & Hin & He); [eauto|]. exists e. auto.
Qed.

Lemma any_false_m_iff flags : wfm flags ->
  (any_false_m flags = true <-> exists i j, mget flags i j = Some false).
Proof.
  intros [[L F] _]. unfold any_false_m, mget. rewrite existsb_exists. split.
  - intros (r & Hr & He). apply existsb_exists in He. destruct He as ([j b] & Hj & Hb). simpl in Hb.
    destruct b; [discriminate|]. apply (In_nth _ _ []) in Hr. destruct Hr as (i & Hi & <-).
    exists i, j. apply (rget_In _ 0 (ncols flags)); auto.
    rewrite Forall_forall in F. apply F. apply nth_In. auto.
  - intros (i & j & Hij). exists (nth i (data flags) []).
    assert (Hi : i < length (data flags)).
    { apply Nat.nle_gt. intro H. rewrite nth_overflow in Hij by auto. discriminate. }
    split; [apply nth_In; auto|]. apply existsb_exists. exists (j, false). split; [|reflexivity].
    apply (rget_In _ 0 (ncols flags)); auto. rewrite Forall_forall in F. apply F, nth_In. auto.
Qed.

Section Sssp.
Variables (G : lil Z) (N : nat).
Hypothesis WG : wfm G.
Hypothesis RG : nrows G = N.
Hypothesis CG : ncols G = N.

Let w := mget G.

Lemma w_in u v g : w u v = Some g -> u < N /\ v < N.
Proof.
  intro H. split; apply Nat.nle_gt; intro L; unfold w in H; rewrite mget_oob in H; auto;
    try discriminate; lia.
Qed.

Lemma sssp_step_ok dist : wfv dist -> vsize dist = N ->
  exists d, sssp_step G dist = Ok d /\ wfv d /\ vsize d = N /\
    forall v, v < N -> vget d v = oadd zmin (vget dist v) (candidates N w (vget dist) v).
Proof.
  intros Wd Sd. unfold sssp_step.
  destruct (vxm_ok zmin Z.add btrue idc (Acc zmin idc idc) vnomask MERGE dist dist (Mat G))
    as (d & -> & W & S & Gd).
  { apply Wd. } { exact WG. } { apply wfv_wfvn; auto. } { exact Logic.I. } { exact Logic.I. }
  { simpl; congruence. } { simpl; congruence. }
  exists d. split; [reflexivity|]. split; [auto|]. split; [congruence|]. intros v Hv.
  rewrite Gd by congruence. simpl. unfold svmul, idc. simpl. rewrite RG.
  unfold candidates. fold w.
  replace (map (fun k => omap2 Z.add (vget dist k) (mget G k v)) (seq 0 N)) with
    (map (fun u => omap2 Z.add (vget dist u) (w u v)) (seq 0 N)) by reflexivity.
  destruct (vget dist v), (osum zmin _); reflexivity.
Qed.

Theorem sssp_ok dist : N <> 0 -> wfv dist -> vsize dist = N ->
  exists b d, sssp G dist = Ok (b, d) /\ wfv d /\ vsize d = N /\
    (b = true <-> ~ negative_cycle w (vget dist)) /\
    (b = false <-> negative_cycle w (vget dist)) /\
    (b = true -> forall v x, vget d v = Some x <-> shortest w (vget dist) v x).
Proof.
  intros N0 Wd Sd. unfold sssp. rewrite RG, CG, Sd, Nat.eqb_refl. cbn [negb orb].
  set (D0 := vget dist).
  assert (DB : forall v x, D0 v = Some x -> v < N).
  { intros v x H. apply Nat.nle_gt; intro L. unfold D0 in H. rewrite vget_oob in H;
      [discriminate|apply Wd|lia]. }
  destruct (mfor_seq_inv
    (fun k d => wfv d /\ vsize d = N /\ covers w D0 k (vget d) /\ sound w D0 k (vget d))
    (fun _ d => sssp_step G d) (N - 1) dist) as (d & -> & W1 & S1 & C1 & H1).
  - split; [auto|]. split; [auto|]. split.
    + intros j v y Hj H. replace j with 0 in H by lia. apply walk_from_0 in H. exists y.
      split; [auto|lia].
    + intros v x H. exists 0. split; [auto|]. apply walk_from_0. auto.
  - intros k d Hk (Wk & Sk & Ck & Hs). destruct (sssp_step_ok d Wk Sk) as (d' & E & W' & S' & G').
    exists d'. split; [auto|]. split; [auto|]. split; [auto|].
    change (1 + k) with (S k). split.
    + apply (relax_covers N w w_in D0 DB k (vget d)); auto.
    + apply (relax_sound N w D0 k (vget d)); auto.
      intros v Hv. apply vget_oob; [apply W'|lia].
  - cbn [bind].
    destruct (sssp_step_ok d W1 S1) as (d2 & -> & W2 & S2 & G2). cbn [bind].
    destruct (vec_new_ok false N N0) as (f & -> & Wf & Sf & _). cbn [bind].
    destruct (eWiseMult_v_ok Z.eqb btrue idc (NoAcc idc) vnomask MERGE f d d2)
      as (fl & -> & Wfl & Sfl & Gfl).
    { apply Wf. } { apply wfv_wfvn; auto. } { apply wfv_wfvn; auto. } { exact Logic.I. }
    { split; [exact Logic.I|]. split; congruence. }
    cbn [bind]. exists (negb (any_false_v fl)), d.
    split; [reflexivity|]. split; [auto|]. split; [auto|].
    assert (A : any_false_v fl = true <->
       exists v x y, vget d v = Some x /\ vget d2 v = Some y /\ x <> y).
    { rewrite any_false_v_iff by apply Wfl. split.
      - intros (i & Hi).
        assert (Hn : i < N).
        { apply Nat.nle_gt; intro L. rewrite vget_oob in Hi; [discriminate|apply Wfl|lia]. }
        rewrite Gfl in Hi by congruence. simpl in Hi.
        destruct (vget d i) as [x|] eqn:Ex; [|discriminate].
        destruct (vget d2 i) as [y|] eqn:Ey; [|discriminate]. simpl in Hi. injection Hi as Hi.
        apply Z.eqb_neq in Hi. exists i, x, y. auto.
      - intros (i & x & y & Hx & Hy & Hn). exists i.
        assert (Hi : i < N).
        { apply Nat.nle_gt; intro L. rewrite vget_oob in Hx; [discriminate|apply W1|lia]. }
        rewrite Gfl by congruence. simpl. rewrite Hx, Hy. simpl. unfold idc.
        apply Z.eqb_neq in Hn. rewrite Hn. reflexivity. }
    assert (T : any_false_v fl = false -> forall j, covers w D0 j (vget d)).
    { intro Ef. apply (closed_covers w D0).
      - intros j v y Hj. apply C1. lia.
      - apply (unchanged_closed N w w_in D0 DB (N - 1) (vget d) (vget d2)); auto; [lia|].
        intros v x y Hx Hy. destruct (Z.eq_dec x y); [auto|].
        assert (any_false_v fl = true) by (apply A; exists v, x, y; auto). congruence. }
    assert (Fc : any_false_v fl = true -> negative_cycle w D0).
    { intro Ef. apply A in Ef. destruct Ef as (v & x & y & Hx & Hy & Hn).
      assert (Hv : v < N).
      { apply Nat.nle_gt; intro L. rewrite vget_oob in Hx; [discriminate|apply W1|lia]. }
      assert (HS2 : sound w D0 (S (N - 1)) (vget d2)).
      { apply (relax_sound N w D0 (N - 1) (vget d)); auto.
        intros u Hu. apply vget_oob; [apply W2|lia]. }
      pose proof Hy as Hy'. apply HS2 in Hy'. destruct Hy' as (j & Hj & Hw).
      apply (improved_negative N w w_in D0 DB (N - 1) (vget d) j v y); auto; [lia|].
      intros x' Hx'. rewrite Hx in Hx'. injection Hx' as <-.
      rewrite G2 in Hy by auto.
      destruct (oadd_zmin_l _ (candidates N w (vget d) v) _ Hx) as (z & Hz & Lz).
      rewrite Hz in Hy. injection Hy as <-. lia. }
    destruct (any_false_v fl) eqn:Ef; simpl.
    + specialize (Fc eq_refl). split; [split; [discriminate|tauto]|]. split; [tauto|discriminate].
    + specialize (T eq_refl). assert (NN := covers_no_negative w D0 (N - 1) (vget d) H1 T).
      split; [tauto|]. split; [split; [discriminate|tauto]|]. intros _.
      apply (covers_shortest w D0 (N - 1)); auto.
Qed.

(** ** batch_sssp *)
Lemma batch_step_ok dists : wfm dists -> ncols dists = N ->
  exists d, batch_step G dists = Ok d /\ wfm d /\ nrows d = nrows dists /\ ncols d = N /\
    forall r v, r < nrows dists -> v < N ->
      mget d r v = oadd zmin (mget dists r v) (candidates N w (mget dists r) v).
Proof.
  intros Wd Cd. unfold batch_step.
  destruct (mxm_ok zmin Z.add Z.add idc idc btrue idc (Acc zmin idc idc) mnomask MERGE dists
              (Mat dists) (Mat G)) as (d & -> & W & R & C & Gd).
  { auto. } { auto. } { auto. } { exact Logic.I. } { exact Logic.I. }
  { auto. } { simpl; congruence. } { simpl; congruence. } { exact Logic.I. }
  exists d. split; [reflexivity|]. split; [auto|]. split; [auto|]. split; [congruence|].
  intros r v Hr Hv. rewrite Gd by lia. simpl. unfold smul, idc. simpl. rewrite Cd.
  unfold candidates. fold w.
  replace (map (fun k => omap2 Z.add (mget dists r k) (mget G k v)) (seq 0 N)) with
    (map (fun u => omap2 Z.add (mget dists r u) (w u v)) (seq 0 N)) by reflexivity.
  destruct (mget dists r v), (osum zmin _); reflexivity.
Qed.

Theorem batch_sssp_ok dists : N <> 0 -> wfm dists -> ncols dists = N ->
  exists b d, batch_sssp G dists = Ok (b, d) /\ wfm d /\ nrows d = nrows dists /\ ncols d = N /\
    (b = true <-> forall r, r < nrows dists -> ~ negative_cycle w (mget dists r)) /\
    (b = false <-> exists r, r < nrows dists /\ negative_cycle w (mget dists r)) /\
    (b = true -> forall r v x, mget d r v = Some x <-> shortest w (mget dists r) v x).
Proof.
  intros N0 Wd Cd. unfold batch_sssp. rewrite RG, CG, Cd, Nat.eqb_refl. cbn [negb orb].
  set (D0 := mget dists).
  assert (DB : forall r v x, D0 r v = Some x -> v < N).
  { intros r v x H. apply Nat.nle_gt; intro L. unfold D0 in H. rewrite mget_oob in H; auto;
      [discriminate|lia]. }
  destruct (mfor_seq_inv
    (fun k d => wfm d /\ nrows d = nrows dists /\ ncols d = N /\
       forall r, r < nrows dists -> covers w (D0 r) k (mget d r) /\ sound w (D0 r) k (mget d r))
    (fun _ d => batch_step G d) (N - 1) dists) as (d & -> & W1 & R1 & K1 & H1).
  - split; [auto|]. split; [auto|]. split; [auto|]. intros r Hr. split.
    + intros j v y Hj H. replace j with 0 in H by lia. apply walk_from_0 in H. exists y.
      split; [auto|lia].
    + intros v x H. exists 0. split; [auto|]. apply walk_from_0. auto.
  - intros k d Hk (Wk & Rk & Kk & Hs). destruct (batch_step_ok d Wk Kk) as (d' & E & W' & R' & K' & G').
    exists d'. split; [auto|]. split; [auto|]. split; [congruence|]. split; [auto|].
    change (1 + k) with (S k). intros r Hr. destruct (Hs r Hr) as [Cr Sr]. split.
    + apply (relax_covers N w w_in (D0 r) (DB r) k (mget d r)); auto.
      intros v Hv. apply G'; congruence.
    + apply (relax_sound N w (D0 r) k (mget d r)); auto.
      * intros v Hv. apply G'; congruence.
      * intros v Hv. apply mget_oob; auto. lia.
  - cbn [bind].
    destruct (batch_step_ok d W1 K1) as (d2 & -> & W2 & R2 & K2 & G2). cbn [bind].
    destruct (eWiseMult_ok Z.eqb Z.eqb idc btrue idc (NoAcc idc) mnomask MERGE
      (lil_new (nrows d) (ncols d)) (Mat d) (Mat d2))
      as (fl & -> & Wfl & Rfl & Kfl & Gfl).
    { apply lil_new_wf. } { auto. } { auto. } { exact Logic.I. }
    { split; [exact Logic.I|]. simpl. repeat split; congruence. }
    cbn [bind]. exists (negb (any_false_m fl)), d. simpl in Rfl, Kfl, Gfl.
    split; [reflexivity|]. split; [auto|]. split; [auto|]. split; [auto|].
    assert (A : any_false_m fl = true <->
       exists r v x y, r < nrows dists /\ mget d r v = Some x /\ mget d2 r v = Some y /\ x <> y).
    { rewrite any_false_m_iff by auto. split.
      - intros (i & j & Hi).
        assert (Hn : i < nrows d /\ j < N).
        { split; apply Nat.nle_gt; intro L; rewrite mget_oob in Hi; auto; try discriminate; lia. }
        rewrite Gfl in Hi by lia. simpl in Hi. unfold idc in Hi.
        destruct (mget d i j) as [x|] eqn:Ex; [|discriminate].
        destruct (mget d2 i j) as [y|] eqn:Ey; [|discriminate].
        simpl in Hi. injection Hi as Hi.
        apply Z.eqb_neq in Hi. exists i, j, x, y. split; [lia|auto].
      - intros (i & j & x & y & Hi & Hx & Hy & Hn). exists i, j.
        assert (Hj : j < N).
        { apply Nat.nle_gt; intro L; rewrite mget_oob in Hx; auto; try discriminate; lia. }
        rewrite Gfl by lia. simpl. rewrite Hx, Hy. simpl. unfold idc.
        apply Z.eqb_neq in Hn. rewrite Hn. reflexivity. }
    assert (T : any_false_m fl = false -> forall r, r < nrows dists ->
      forall j, covers w (D0 r) j (mget d r)).
    { intros Ef r Hr. destruct (H1 r Hr) as [Cr Sr]. apply (closed_covers w (D0 r)).
      - intros j v y Hj. apply Cr. lia.
      - apply (unchanged_closed N w w_in (D0 r) (DB r) (N - 1) (mget d r) (mget d2 r)); auto; [lia| |].
        + intros v Hv. apply G2; congruence.
        + intros v x y Hx Hy. destruct (Z.eq_dec x y); [auto|].
          assert (any_false_m fl = true) by (apply A; exists r, v, x, y; auto). congruence. }
    assert (Fc : any_false_m fl = true -> exists r, r < nrows dists /\ negative_cycle w (D0 r)).
    { intro Ef. apply A in Ef. destruct Ef as (r & v & x & y & Hr & Hx & Hy & Hn).
      exists r. split; [auto|]. destruct (H1 r Hr) as [Cr Sr].
      assert (Hv : v < N).
      { apply Nat.nle_gt; intro L; rewrite mget_oob in Hx; auto; try discriminate; lia. }
      assert (HS2 : sound w (D0 r) (S (N - 1)) (mget d2 r)).
      { apply (relax_sound N w (D0 r) (N - 1) (mget d r)); auto.
        - intros u Hu. apply G2; congruence.
        - intros u Hu. apply mget_oob; auto; lia. }
      pose proof Hy as Hy'. apply HS2 in Hy'. destruct Hy' as (j & Hj & Hw).
      apply (improved_negative N w w_in (D0 r) (DB r) (N - 1) (mget d r) j v y); auto; [lia|].
      intros x' Hx'. rewrite Hx in Hx'. injection Hx' as <-.
      rewrite G2 in Hy by (auto; lia).
      destruct (oadd_zmin_l _ (candidates N w (mget d r) v) _ Hx) as (z & Hz & Lz).
      rewrite Hz in Hy. injection Hy as <-. lia. }
    destruct (any_false_m fl) eqn:Ef; simpl.
    + destruct (Fc eq_refl) as (r & Hr & Hneg). split; [split; [discriminate|]|].
      { intro H. exfalso. apply (H r); auto. }
      split; [|discriminate]. split; eauto.
    + specialize (T eq_refl).
      assert (NN : forall r, r < nrows dists -> ~ negative_cycle w (D0 r)).
      { intros r Hr. apply (covers_no_negative w (D0 r) (N - 1) (mget d r)); [apply H1|]; auto. }
      split; [tauto|]. split; [split; [discriminate|intros (r & Hr & H); exfalso; eapply NN; eauto]|].
      intros _ r v x. destruct (Nat.lt_ge_cases r (nrows dists)) as [Hr|Hr].
      * apply (covers_shortest w (D0 r) (N - 1)); auto. apply H1; auto.
      * rewrite mget_oob by (auto; lia). split; [discriminate|].
        intros ((k & u & a & c & Hu & _) & _). unfold D0 in Hu. rewrite mget_oob in Hu by (auto; lia).
        discriminate.
Qed.

(** ** filtered_sssp *)
Section Filtered.
Variable D0 : nat -> option Z.
Hypothesis DB : forall v x, D0 v = Some x -> v < N.
(** No walk of at least one edge has length 0. *)
Hypothesis nonzero : forall k v x, walk_from w D0 (S k) v x -> x <> 0%Z.

Definition filt_inv k (nd : bvec Z) (d : bvec Z) : Prop :=
  wfv nd /\ vsize nd = N /\ wfv d /\ vsize d = N /\
  covers w D0 k (vget d) /\ sound w D0 k (vget d) /\
  (forall v x, vget nd v = Some x -> vget d v = Some x) /\
  (forall u v x g, vget d u = Some x -> w u v = Some g ->
     vget nd u = Some x \/ exists y, vget d v = Some y /\ (y <= x + g)%Z).

Lemma filtered_body_ok k nd fl d :
  filt_inv k nd d -> wfv fl -> vsize fl = N ->
  exists nd' fl', wfv fl' /\ vsize fl' = N /\
    ((filtered_body G nd fl d = Ok (nd', fl', None) /\ closed w (vget d)) \/
     exists d', filtered_body G nd fl d = Ok (nd', fl', Some d') /\ filt_inv (S k) nd' d' /\
       exists j v y, j <= S k /\ walk_from w D0 j v y /\ forall x, vget d v = Some x -> (y < x)%Z).
Proof.
  intros (Wn & Sn & Wd & Sd & C & HS & HN & HC) Wf Sf. unfold filtered_body.
  destruct (vxm_ok zmin Z.add btrue idc (NoAcc idc) vnomask MERGE nd nd (Mat G))
    as (c & -> & Wc & Sc & Gc).
  { apply Wn. } { exact WG. } { apply wfv_wfvn; auto. } { exact Logic.I. } { exact Logic.I. }
  { simpl; congruence. } { simpl; congruence. }
  cbn [bind].
  assert (Gc' : forall v, v < N -> vget c v = candidates N w (vget nd) v).
  { intros v Hv. rewrite Gc by congruence. simpl. unfold svmul, idc. simpl. rewrite RG.
    rewrite !option_map_id'. reflexivity. }
  clear Gc.
  destruct (eWiseAdd_v_ok Z.ltb ztrue ztrue ztrue idc (NoAcc idc) (MStruct c) REPLACE fl c d)
    as (fl' & -> & Wf' & Sf' & Gf').
  { apply Wf. } { apply wfv_wfvn; auto. } { apply wfv_wfvn; auto. } { apply Wc. }
  { split; [simpl; congruence|]. split; congruence. }
  cbn [bind].
  destruct (apply_v_ok idc btrue idc (NoAcc idc) (MVal fl') REPLACE c c)
    as (nd' & -> & Wn' & Sn' & Gn').
  { apply Wc. } { apply wfv_wfvn; auto. } { apply Wf'. }
  { split; [simpl; congruence|congruence]. }
  cbn [bind].
  assert (Gn : forall v x, v < N -> (vget nd' v = Some x <->
    vget c v = Some x /\ forall y, vget d v = Some y -> (x < y)%Z)).
  { intros v x Hv. rewrite Gn' by congruence. simpl. rewrite Gf' by congruence. simpl.
    unfold spec_write, idc. rewrite !option_map_id'.
    destruct (vget c v) as [z|] eqn:Ez; simpl.
    2: { split; [discriminate|intros [H _]; discriminate]. }
    destruct (vget d v) as [y|] eqn:Ey; simpl.
    - unfold btrue. destruct (Z.ltb_spec z y).
      + split; [intro Hx; injection Hx as <-; split; [auto|]|tauto].
        intros y' Hy'. injection Hy' as <-. auto.
      + split; [discriminate|]. intros [Hx Hy]. injection Hx as <-. specialize (Hy y eq_refl). lia.
    - assert (Hz : ztrue z = true).
      { unfold ztrue. apply negb_true_iff, Z.eqb_neq.
        rewrite Gc' in Ez by auto. apply candidates_sound in Ez.
        destruct Ez as (u & y & g & Hu & Eg & ->). apply HN, HS in Hu. destruct Hu as (j & _ & Hw).
        apply (nonzero j v). apply walk_from_S. exists u, y, g. auto. }
      unfold btrue. rewrite Hz. split; [intro Hx; injection Hx as <-; split; [auto|discriminate]|tauto]. }
  clear Gn' Gf'.
  exists nd', fl'. split; [auto|]. split; [congruence|].
  destruct (has_vals (vnvals nd')) eqn:Hv; [right|left].
  - destruct (eWiseAdd_v_ok zmin idc idc btrue idc (NoAcc idc) vnomask MERGE d nd' d)
      as (d' & -> & Wd' & Sd' & Gd').
    { apply Wd. } { apply wfv_wfvn; auto. } { apply wfv_wfvn; auto. } { exact Logic.I. }
    { split; [exact Logic.I|]. split; congruence. }
    cbn [bind]. exists d'. split; [reflexivity|].
    assert (Gd : forall v, v < N -> vget d' v = oadd zmin (vget d v) (vget c v)).
    { intros v Hv'. rewrite Gd' by congruence. simpl. unfold idc. rewrite !option_map_id'.
      destruct (vget nd' v) as [x|] eqn:Ex.
      - apply Gn in Ex; auto. destruct Ex as [-> Ex]. destruct (vget d v) as [y|]; simpl; [|reflexivity].
        specialize (Ex y eq_refl). unfold zmin. destruct (Z.ltb_spec x y), (Z.ltb_spec y x); auto; lia.
      - destruct (vget c v) as [x|] eqn:Ec.
        + destruct (vget d v) as [y|] eqn:Ey; simpl.
          * unfold zmin. destruct (Z.ltb_spec y x); [reflexivity|].
            destruct (Z.eq_dec x y) as [->|]; [reflexivity|].
            assert (vget nd' v = Some x); [|congruence]. apply Gn; auto. split; [auto|].
            intros y' Hy'. rewrite Ey in Hy'. injection Hy' as <-. lia.
          * assert (vget nd' v = Some x); [|congruence]. apply Gn; auto. split; [auto|].
            intros y' Hy'. congruence.
        + destruct (vget d v); reflexivity. }
    split.
    + split; [auto|]. split; [congruence|]. split; [auto|]. split; [congruence|].
      assert (Sound : sound w D0 (S k) (vget d')).
      { intros v x Hx. destruct (Nat.lt_ge_cases v N) as [Lv|Lv];
          [|rewrite vget_oob in Hx; [discriminate|apply Wd'|lia]].
        rewrite Gd in Hx by auto. apply oadd_zmin_sound in Hx. destruct Hx as [Hx|Hx].
        - apply HS in Hx. destruct Hx as (j & Hj & H). exists j. split; [lia|auto].
        - rewrite Gc' in Hx by auto. apply candidates_sound in Hx.
          destruct Hx as (u & y & g & Hu & Eg & ->). apply HN, HS in Hu.
          destruct Hu as (j & Hj & H). exists (S j). split; [lia|].
          apply walk_from_S. exists u, y, g. auto. }
      assert (Step : forall u v x g, vget d u = Some x -> w u v = Some g ->
        exists y, vget d' v = Some y /\ (y <= x + g)%Z).
      { intros u v x g Hu Eg. assert (Lv : v < N) by (apply w_in in Eg; tauto). rewrite Gd by auto.
        destruct (HC u v x g Hu Eg) as [Hx|(y & Hy & L)].
        - destruct (candidates_le N w w_in (vget nd) u v x g Hx Eg) as (z & Hz & Lz).
          rewrite <- Gc' in Hz by auto.
          destruct (oadd_zmin_r (vget d v) _ _ Hz) as (z' & -> & Lz'). exists z'. split; [auto|lia].
        - destruct (oadd_zmin_l _ (vget c v) _ Hy) as (z' & -> & Lz'). exists z'. split; [auto|lia]. }
      split; [|split; [auto|split]].
      * intros j v y Hj Hw. destruct j as [|j].
        -- assert (Lv : v < N) by (apply walk_from_0 in Hw; eauto).
           destruct (C 0 v y) as (x & Hx & L); [lia|auto|]. rewrite Gd by auto.
           destruct (oadd_zmin_l _ (vget c v) _ Hx) as (z & -> & Lz). exists z. split; [auto|lia].
        -- apply walk_from_S in Hw. destruct Hw as (u & y' & g & Hw & Eg & ->).
           destruct (C j u y') as (x & Hx & L); [lia|auto|].
           destruct (Step u v x g Hx Eg) as (z & Hz & Lz). exists z. split; [auto|lia].
      * intros v x Hx. assert (Lv : v < N).
        { apply Nat.nle_gt; intro L. rewrite vget_oob in Hx; [discriminate|apply Wn'|lia]. }
        rewrite Gd by auto. apply Gn in Hx; auto. destruct Hx as [-> Hx].
        destruct (vget d v) as [y|]; simpl; [|reflexivity]. specialize (Hx y eq_refl).
        unfold zmin. destruct (Z.ltb_spec y x); [lia|reflexivity].
      * intros u v x g Hu Eg. assert (Lu : u < N) by (apply w_in in Eg; tauto).
        destruct (vget nd' u) as [z|] eqn:Ez.
        -- left. apply Gn in Ez; auto. destruct Ez as [Ez1 Ez2]. rewrite Gd in Hu by auto.
           rewrite Ez1 in Hu. destruct (vget d u) as [y|]; simpl in Hu; [|auto].
           specialize (Ez2 y eq_refl). unfold zmin in Hu. destruct (Z.ltb_spec y z); [lia|auto].
        -- right. apply (Step u v x g); auto. rewrite Gd in Hu by auto.
           destruct (vget c u) as [q|] eqn:Eq.
           ++ destruct (vget d u) as [y|] eqn:Ey; simpl in Hu.
              ** unfold zmin in Hu. destruct (Z.ltb_spec y q); [auto|].
                 destruct (Z.eq_dec q y) as [->|]; [auto|].
                 assert (vget nd' u = Some q); [|congruence]. apply Gn; auto. split; [auto|].
                 intros y' Hy'. rewrite Ey in Hy'. injection Hy' as <-. lia.
              ** assert (vget nd' u = Some q); [|congruence]. apply Gn; auto. split; [auto|].
                 intros y' Hy'. congruence.
           ++ destruct (vget d u); exact Hu.
    + destruct (has_vals_v nd' Wn' Hv) as (v & Lv & Hg).
      assert (Lv' : v < N) by congruence.
      destruct (vget nd' v) as [x|] eqn:Ex; [|congruence]. apply Gn in Ex; auto.
      destruct Ex as [Ex1 Ex2]. rewrite Gc' in Ex1 by auto. apply candidates_sound in Ex1.
      destruct Ex1 as (u & y & g & Hu & Eg & ->). apply HN, HS in Hu. destruct Hu as (j & Hj & H).
      exists (S j), v, (y + g)%Z. split; [lia|]. split; [|auto].
      apply walk_from_S. exists u, y, g. auto.
  - split; [reflexivity|]. intros u v x g Hu Eg. assert (Lv : v < N) by (apply w_in in Eg; tauto).
    destruct (HC u v x g Hu Eg) as [Hx|H]; [|auto].
    destruct (candidates_le N w w_in (vget nd) u v x g Hx Eg) as (z & Hz & Lz).
    rewrite <- Gc' in Hz by auto.
    pose proof (no_vals_v nd' Wn' Hv v) as Hnone.
    destruct (vget d v) as [y|] eqn:Ey.
    + exists y. split; [auto|]. apply Z.nlt_ge. intro Hlt.
      assert (vget nd' v = Some z); [|congruence]. apply Gn; auto. split; [auto|].
      intros y' Hy'. rewrite Ey in Hy'. injection Hy' as <-. lia.
    + assert (vget nd' v = Some z); [|congruence]. apply Gn; auto. split; [auto|].
      intros y' Hy'. congruence.
Qed.

Lemma filtered_loop_ok n : forall k nd fl d,
  n + k = N -> filt_inv k nd d -> wfv fl -> vsize fl = N ->
  (n = 0 -> negative_cycle w D0) ->
  exists b d', filtered_loop n G nd fl d = Ok (b, d') /\ wfv d' /\ vsize d' = N /\
    ((b = true /\ exists k', sound w D0 k' (vget d') /\ forall j, covers w D0 j (vget d')) \/
     (b = false /\ negative_cycle w D0)).
Proof.
  induction n as [|n IH]; intros k nd fl d Hk I Wf Sf H0.
  - exists false, d. destruct I as (_ & _ & Wd & Sd & _). simpl. auto 10.
  - simpl. destruct (filtered_body_ok k nd fl d I Wf Sf) as
      (nd' & fl' & Wf' & Sf' & [[-> Hcl]|(d' & -> & I' & j & v & y & Hj & Hw & Hlt)]); cbn [bind].
    + exists true, d. destruct I as (_ & _ & Wd & Sd & C & HS & _).
      split; [reflexivity|]. split; [auto|]. split; [auto|]. left. split; [auto|].
      exists k. split; [auto|]. apply closed_covers; auto. intros j v y Hj. apply C. lia.
    + apply (IH (S k)); auto; [lia|]. intros ->.
      destruct I as (_ & _ & _ & _ & C & _).
      apply (improved_negative N w w_in D0 DB k (vget d) j v y); auto. lia.
Qed.
End Filtered.

Theorem filtered_sssp_ok dist : N <> 0 -> wfv dist -> vsize dist = N ->
  (forall k v x, walk_from w (vget dist) (S k) v x -> x <> 0%Z) ->
  exists b d, filtered_sssp G dist = Ok (b, d) /\ wfv d /\ vsize d = N /\
    (b = true <-> ~ negative_cycle w (vget dist)) /\
    (b = false <-> negative_cycle w (vget dist)) /\
    (b = true -> forall v x, vget d v = Some x <-> shortest w (vget dist) v x).
Proof.
  intros N0 Wd Sd NZ. unfold filtered_sssp. rewrite RG, CG, Sd, Nat.eqb_refl. cbn [negb orb].
  destruct (vec_new_ok false N N0) as (f & -> & Wf & Sf & _). cbn [bind].
  assert (DB : forall v x, vget dist v = Some x -> v < N).
  { intros v x H. apply Nat.nle_gt; intro L. rewrite vget_oob in H;
      [discriminate|apply Wd|lia]. }
  destruct (filtered_loop_ok (vget dist) DB NZ N 0 dist f dist)
    as (b & d & E & W & S & H); [lia| |assumption|assumption|lia|].
  - split; [auto|]. split; [auto|]. split; [auto|]. split; [auto|]. split.
    + intros j v y Hj H. replace j with 0 in H by lia. apply walk_from_0 in H. exists y.
      split; [auto|lia].
    + split; [|split; auto]. intros v x H. exists 0. split; [auto|]. apply walk_from_0. auto.
  - exists b, d. split; [auto|]. split; [auto|]. split; [auto|].
    destruct H as [[-> (k & HS & HC)]|[-> Hneg]].
    + assert (NN := covers_no_negative w (vget dist) k (vget d) HS HC).
      split; [tauto|]. split; [split; [discriminate|tauto]|]. intros _.
      apply (covers_shortest w (vget dist) k); auto.
    + split; [split; [discriminate|tauto]|]. split; [tauto|discriminate].
Qed.

(** ** apsp *)
Section Apsp.
Hypothesis nonneg : forall v m c, wwalk w v v m c -> (0 <= c)%Z.

Lemma apsp_body_ok k D row col :
  k < N -> wfm D -> nrows D = N -> ncols D = N ->
  wfm row -> nrows row = 1 -> ncols row = N -> wfm col -> nrows col = N -> ncols col = 1 ->
  exists D' row' col', apsp_body N k (D, row, col) = Ok (D', row', col') /\
    wfm D' /\ nrows D' = N /\ ncols D' = N /\
    wfm row' /\ nrows row' = 1 /\ ncols row' = N /\ wfm col' /\ nrows col' = N /\ ncols col' = 1 /\
    forall i j, i < N -> j < N ->
      mget D' i j = oadd zmin (mget D i j) (omap2 Z.add (mget D i k) (mget D k j)).
Proof.
  intros Hk WD RD CD Wr Rr Cr Wc Rc Cc. unfold apsp_body.
  destruct (extract_m_ok btrue idc (NoAcc idc) mnomask MERGE row (Mat D) (IdxArr [k]) AllIdx)
    as (row' & -> & Wr' & Rr' & Cr' & Gr').
  { auto. } { auto. } { exact Logic.I. }
  { split; [exact Logic.I|]. simpl. split; [auto|]. split; [auto|]. split; [|auto].
    repeat constructor. lia. }
  cbn [bind].
  destruct (extract_m_ok btrue idc (NoAcc idc) mnomask MERGE col (Mat D) AllIdx (IdxArr [k]))
    as (col' & -> & Wc' & Rc' & Cc' & Gc').
  { auto. } { auto. } { exact Logic.I. }
  { split; [exact Logic.I|]. simpl. split; [auto|]. split; [auto|]. split; [auto|].
    repeat constructor. lia. }
  cbn [bind].
  destruct (mxm_ok zmin Z.add Z.add idc idc btrue idc (Acc zmin idc idc) mnomask MERGE D
              (Mat col') (Mat row')) as (D' & -> & W & R & C & Gd).
  { auto. } { auto. } { auto. } { exact Logic.I. } { exact Logic.I. }
  { simpl; congruence. } { simpl; congruence. } { simpl; congruence. } { exact Logic.I. }
  cbn [bind]. exists D', row', col'. split; [reflexivity|].
  do 9 (split; [auto; congruence|]).
  intros i j Hi Hj. rewrite Gd by lia. simpl. unfold smul, idc. simpl.
  rewrite Cc', Cc. cbn [seq map].
  rewrite (Gr' 0 j), (Gc' i 0) by lia. simpl. unfold smextract, idc. simpl. rewrite !option_map_id'.
  unfold osum. simpl.
  destruct (mget D i j), (mget D i k), (mget D k j); reflexivity.
Qed.

Theorem apsp_ok :
  exists D, apsp G = Ok D /\ wfm D /\ nrows D = N /\ ncols D = N /\
    (forall i j x, i <> j -> (mget D i j = Some x <-> distance w i j x)) /\
    (forall i x, mget D i i = Some x -> (0 <= x)%Z) /\
    (forall i, i < N -> (forall g, w i i = Some g -> (g <= 0)%Z) -> mget D i i = Some 0%Z).
Proof.
  unfold apsp. rewrite RG, CG, Nat.eqb_refl. cbn [negb].
  destruct (scaled_identity_ok N 0%Z) as (I & -> & WI & RI & CI & GI). cbn [bind].
  destruct (eWiseAdd_ok Z.add idc idc Z.add idc idc btrue idc (NoAcc idc) mnomask MERGE I (Mat I) (Mat G))
    as (D1 & -> & W1 & R1 & C1 & G1).
  { auto. } { auto. } { auto. } { exact Logic.I. }
  { split; [exact Logic.I|]. simpl. repeat split; congruence. }
  cbn [bind].
  assert (G1' : forall i j, i < N -> j < N -> mget D1 i j =
     if i =? j then Some (match w i j with Some g => g | None => 0%Z end) else w i j).
  { intros i j Hi Hj. rewrite G1 by lia. simpl. unfold idc. rewrite !option_map_id', GI. fold w.
    destruct (Nat.eqb_spec i j) as [->|]; simpl.
    - destruct (Nat.ltb_spec j N); [|lia]. unfold w. destruct (mget G j j) as [g|]; simpl; [|reflexivity].
      reflexivity.
    - unfold w. destruct (mget G i j); reflexivity. }
  destruct (mfor_seq_inv
    (fun k '(D, row, col) => wfm D /\ nrows D = N /\ ncols D = N /\
       wfm row /\ nrows row = 1 /\ ncols row = N /\ wfm col /\ nrows col = N /\ ncols col = 1 /\
       fw_inv w k (mget D) /\
       (forall i, i < N -> (forall g, w i i = Some g -> (g <= 0)%Z) -> mget D i i = Some 0%Z))
    (apsp_body N) N (D1, lil_new 1 N, lil_new N 1))
    as ([[D row] col] & -> & WD & RD & CD & _ & _ & _ & _ & _ & _ & [FS FC] & Hd).
  - split; [auto|]. split; [congruence|]. split; [congruence|]. split; [apply lil_new_wf|].
    split; [reflexivity|]. split; [reflexivity|]. split; [apply lil_new_wf|].
    split; [reflexivity|]. split; [reflexivity|]. split; [split|].
    + intros i j x Hx.
      assert (Hij : i < N /\ j < N).
      { split; apply Nat.nle_gt; intro L; rewrite mget_oob in Hx; auto; try discriminate; lia. }
      rewrite G1' in Hx by tauto. destruct (Nat.eqb_spec i j) as [->|].
      * injection Hx as <-. destruct (w j j) as [g|] eqn:E.
        -- exists 1. apply wwalk_edge. auto.
        -- exists 0. constructor.
      * exists 1. apply wwalk_edge. auto.
    + intros i j c Hij H.
      assert (E : w i j = Some c) by (inversion H; subst; [auto|lia]). exists c.
      pose proof (w_in _ _ _ E). rewrite G1' by tauto.
      destruct (Nat.eqb_spec i j); [tauto|]. split; [auto|lia].
    + intros i Hi Hg. rewrite G1', Nat.eqb_refl by auto. destruct (w i i) as [g|] eqn:E; [|reflexivity].
      specialize (Hg g eq_refl). pose proof (nonneg i 1 g (wwalk_edge _ _ _ _ E)). f_equal. lia.
  - intros k [[D row] col] Hk (WD & RD & CD & Wr & Rr & Cr & Wc & Rc & Cc & F & Hd).
    destruct (apsp_body_ok k D row col Hk WD RD CD Wr Rr Cr Wc Rc Cc)
      as (D' & row' & col' & E & WD' & RD' & CD' & Wr' & Rr' & Cr' & Wc' & Rc' & Cc' & GD).
    exists (D', row', col'). split; [auto|]. change (1 + k) with (S k).
    do 9 (split; [auto|]). 
    assert (F' : fw_inv w (S k) (mget D')).
    { apply (fw_step N w w_in nonneg k (mget D)); auto.
      intros i j Hij. apply mget_oob; auto. lia. }
    split; [auto|]. intros i Hi Hg. specialize (Hd i Hi Hg).
    destruct (oadd_zmin_l _ (omap2 Z.add (mget D i k) (mget D k i)) _ Hd) as (y & Hy & Ly).
    rewrite <- GD in Hy by auto. rewrite Hy. f_equal.
    destruct F' as [FS' _]. apply FS' in Hy. destruct Hy as (m & Hy). apply nonneg in Hy. lia.
  - cbn [bind fst]. exists D. split; [reflexivity|]. split; [auto|]. split; [auto|]. split; [auto|].
    split; [apply (fw_end N w w_in (mget D)); split; auto|]. split; [|auto].
    intros i x Hx. apply FS in Hx. destruct Hx as (m & Hx). eapply nonneg; eauto.
Qed.
End Apsp.
End Sssp.
