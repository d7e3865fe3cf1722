(** Bellman-Ford for weights whose addition is monotone but need not be exact. *)
From Coq Require Import Lia.
From Verif Require Import Base ModelLil ModelVec ModelHelpers ModelViews ModelMul ModelElem
  ModelIndex ModelUtils ModelAlgoBase ModelSssp ModelFsssp Spec SpecOps SpecIndex SpecFpaths ProofBase ProofRow
  ProofLil ProofVec ProofViews ProofMul ProofElem ProofIndex ProofReduce ProofUtils ProofGraph
  ProofPaths ProofSssp.

Section Gen.
Variables (D : Type) (dmin dplus : D -> D -> D) (deqb dltb : D -> D -> bool) (dtrue : D -> bool).
Variables (good wgood : D -> Prop) (key : D -> Z).
Hypothesis min_key : forall a b, good a -> good b -> dmin a b = if (key a <? key b)%Z then a else b.
Hypothesis eqb_key : forall a b, good a -> good b -> deqb a b = (key a =? key b)%Z.
Hypothesis ltb_key : forall a b, good a -> good b -> dltb a b = (key a <? key b)%Z.
Hypothesis plus_good : forall a g, good a -> wgood g -> good (dplus a g).
Hypothesis plus_mono : forall a b g, good a -> good b -> wgood g -> (key a <= key b)%Z ->
  (key (dplus a g) <= key (dplus b g))%Z.

(** ** Minimum of a list *)
Definition allgood (l : list (option D)) : Prop := forall x, In (Some x) l -> good x.

Lemma min_in a b : good a -> good b -> (dmin a b = a \/ dmin a b = b) /\
  (key (dmin a b) <= key a)%Z /\ (key (dmin a b) <= key b)%Z.
Proof. intros Ga Gb. rewrite min_key by auto. destruct (Z.ltb_spec (key a) (key b)); split; auto; lia. Qed.

Lemma oadd_sound a b x : allgood [a; b] -> oadd dmin a b = Some x -> a = Some x \/ b = Some x.
Proof.
  intros G H. destruct a as [a|], b as [b|]; simpl in H; auto. injection H as <-.
  destruct (min_in a b) as ([->| ->] & _); auto; apply G; simpl; auto.
Qed.
Lemma oadd_l a b x : allgood [a; b] -> a = Some x -> exists y, oadd dmin a b = Some y /\ (key y <= key x)%Z.
Proof.
  intros G ->. destruct b as [b|]; simpl; [|exists x; split; [auto|lia]].
  exists (dmin x b). split; [auto|]. apply min_in; apply G; simpl; auto.
Qed.
Lemma oadd_r a b x : allgood [a; b] -> b = Some x -> exists y, oadd dmin a b = Some y /\ (key y <= key x)%Z.
Proof.
  intros G ->. destruct a as [a|]; simpl; [|exists x; split; [auto|lia]].
  exists (dmin a x). split; [auto|]. apply min_in; apply G; simpl; auto.
Qed.

Lemma fold_min l : forall o, allgood (o :: l) ->
  (forall m, fold_left (oadd dmin) l o = Some m -> o = Some m \/ In (Some m) l) /\
  (forall x, In (Some x) (o :: l) -> exists m, fold_left (oadd dmin) l o = Some m /\ (key m <= key x)%Z).
Proof.
  induction l as [|y l IH]; intros o G; simpl.
  - split; [auto|]. intros x [->|[]]. exists x. split; [auto|lia].
  - assert (G2 : allgood [o; y]) by (intros x [Hx|[Hx|[]]]; apply G; simpl; auto).
    destruct (IH (oadd dmin o y)) as [I1 I2].
    { intros x [Hx|Hx]; [|apply G; simpl; auto]. apply oadd_sound in Hx; auto. apply G; simpl; tauto. }
    split.
    + intros m Hm. apply I1 in Hm. destruct Hm as [Hm|Hm]; [|auto]. apply oadd_sound in Hm; tauto.
    + intros x [->|[->|Hx]].
      * destruct (oadd_l (Some x) y x G2 eq_refl) as (z & Hz & L). destruct (I2 z) as (m & E & L2); [simpl; auto|].
        exists m. split; [auto|lia].
      * destruct (oadd_r o (Some x) x G2 eq_refl) as (z & Hz & L). destruct (I2 z) as (m & E & L2); [simpl; auto|].
        exists m. split; [auto|lia].
      * apply I2. simpl. auto.
Qed.
Lemma osum_in l m : allgood l -> osum dmin l = Some m -> In (Some m) l.
Proof.
  intros G H. destruct (fold_min l None) as [I _]; [intros x [Hx|Hx]; [discriminate|auto]|].
  destruct (I m H) as [E|E]; [discriminate|auto].
Qed.
Lemma osum_le l x : allgood l -> In (Some x) l -> exists m, osum dmin l = Some m /\ (key m <= key x)%Z.
Proof.
  intros G H. destruct (fold_min l None) as [_ I]; [intros y [Hx|Hx]; [discriminate|auto]|].
  apply I. simpl. auto.
Qed.

(** ** Walks *)
Section Walks.
Variables (N : nat) (w : nat -> nat -> option D).
Hypothesis w_bound : forall u v g, w u v = Some g -> u < N /\ v < N.
Hypothesis w_good : forall u v g, w u v = Some g -> wgood g.
Variable D0 : nat -> option D.
Hypothesis D0_bound : forall v x, D0 v = Some x -> v < N.
Hypothesis D0_good : forall v x, D0 v = Some x -> good x.

Let walk := rwalk dplus w D0.

Lemma walk_0 v x : walk 0 v x <-> D0 v = Some x.
Proof. split; [intro H; inversion H; auto|apply rwalk_start]. Qed.
Lemma walk_S k v x : walk (S k) v x <-> exists u a g, walk k u a /\ w u v = Some g /\ x = dplus a g.
Proof.
  split; [intro H; inversion H; subst; eauto 6|]. intros (u & a & g & H & E & ->). eapply rwalk_step; eauto.
Qed.
Lemma walk_good k v x : walk k v x -> good x /\ v < N.
Proof.
  induction 1 as [v a H|k u v a g H IH E]; [eauto|]. destruct IH. split; [|apply w_bound in E; tauto].
  apply plus_good; eauto.
Qed.

Lemma walk_pos k v x : walk k v x ->
  exists (f : nat -> nat) (s g : nat -> D), f k = v /\ s k = x /\ D0 (f 0) = Some (s 0) /\
    forall i, i < k -> w (f i) (f (S i)) = Some (g i) /\ s (S i) = dplus (s i) (g i).
Proof.
  induction 1 as [v a H|k u v a g H (f & s & h & Fk & Sk & F0 & Hs) E].
  - exists (fun _ => v), (fun _ => a), (fun _ => a). repeat split; auto; lia.
  - exists (fun i => if i <=? k then f i else v), (fun i => if i <=? k then s i else dplus a g),
      (fun i => if i <? k then h i else g).
    replace (S k <=? k) with false by (symmetry; apply Nat.leb_gt; lia).
    split; [auto|]. split; [auto|]. split; [exact F0|]. intros i Hi.
    destruct (Nat.leb_spec i k); [|lia]. destruct (Nat.leb_spec (S i) k), (Nat.ltb_spec i k); try lia.
    + apply Hs. lia.
    + replace i with k by lia. rewrite Fk, Sk. auto.
Qed.

(** Additions that never decrease. *)
Definition inflating : Prop := forall u v a g, good a -> w u v = Some g -> (key a <= key (dplus a g))%Z.

Lemma shorten k v x : walk k v x ->
  exists k' x', k' < N /\ walk k' v x' /\ (inflating -> (key x' <= key x)%Z).
Proof.
  revert x. induction k as [k IH] using lt_wf_ind. intros x H.
  destruct (Nat.lt_ge_cases k N) as [Hk|Hk]; [exists k, x; split; [auto|]; split; [auto|lia]|].
  destruct (walk_pos k v x H) as (f & s & g & Fk & Sk & F0 & Hs).
  assert (P : forall i, i <= k -> walk i (f i) (s i)).
  { induction i as [|i IHi]; intro Hi; [apply walk_0; auto|]. destruct (Hs i) as [E ->]; [lia|].
    apply walk_S. exists (f i), (s i), (g i). split; [apply IHi; lia|auto]. }
  destruct (pigeonhole N f) as (i & j & Hij & E).
  { intros i Hi. apply (walk_good i (f i) (s i)). apply P. lia. }
  assert (Inc : inflating -> forall m, i + m <= k -> (key (s i) <= key (s (i + m)%nat))%Z).
  { intros I m. induction m as [|m IHm]; intro Hm; [rewrite Nat.add_0_r; lia|]. rewrite Nat.add_succ_r.
    destruct (Hs (i + m)) as [Ew ->]; [lia|].
    specialize (I (f (i + m)) (f (S (i + m))) (s (i + m)) (g (i + m))
      (proj1 (walk_good _ _ _ (P (i + m) ltac:(lia)))) Ew). specialize (IHm ltac:(lia)). lia. }
  assert (Q : forall m, j + m <= k -> exists y, walk (i + m) (f (j + m)) y /\
            (inflating -> (key y <= key (s (j + m)%nat))%Z)).
  { induction m as [|m IHm]; intro Hm.
    - exists (s i). rewrite !Nat.add_0_r, <- E. split; [apply P; lia|]. intro I.
      specialize (Inc I (j - i)). replace (i + (j - i)) with j in Inc by lia. apply Inc. lia.
    - destruct IHm as (y & Wy & Ly); [lia|]. rewrite !Nat.add_succ_r.
      destruct (Hs (j + m)) as [Ew Es]; [lia|]. exists (dplus y (g (j + m))). split.
      + apply walk_S. exists (f (j + m)), y, (g (j + m)). auto.
      + intro I. rewrite Es. apply plus_mono; auto.
        * apply (walk_good _ _ _ Wy).
        * apply (walk_good _ _ _ (P (j + m) ltac:(lia))).
        * eauto. }
  destruct (Q (k - j)) as (y & Wy & Ly); [lia|].
  replace (j + (k - j)) with k in * by lia. rewrite Fk, ?Sk in *.
  destruct (IH (i + (k - j)) ltac:(lia) y Wy) as (k' & x' & Hk' & W' & L').
  exists k', x'. split; [auto|]. split; [auto|]. intro I. specialize (L' I). specialize (Ly I). lia.
Qed.

(** ** Bellman-Ford *)
Definition gcovers k (d : nat -> option D) : Prop :=
  forall j v y, j <= k -> walk j v y -> exists x, d v = Some x /\ (key x <= key y)%Z.
Definition gsound k (d : nat -> option D) : Prop :=
  forall v x, d v = Some x -> exists j, j <= k /\ walk j v x.
Definition gcand (d : nat -> option D) v : option D :=
  osum dmin (map (fun u => omap2 dplus (d u) (w u v)) (seq 0 N)).

Lemma gsound_good k d v x : gsound k d -> d v = Some x -> good x /\ v < N.
Proof. intros S H. apply S in H. destruct H as (j & _ & H). apply (walk_good _ _ _ H). Qed.

Section Step.
Variables (k : nat) (d : nat -> option D).
Hypothesis S : forall v x, d v = Some x -> good x.

Lemma prods_good v : allgood (map (fun u => omap2 dplus (d u) (w u v)) (seq 0 N)).
Proof.
  intros x H. apply in_map_iff in H. destruct H as (u & E & _).
  destruct (d u) as [y|] eqn:Eu; [|discriminate]. destruct (w u v) as [g|] eqn:Ew; [|discriminate].
  injection E as <-. apply plus_good; eauto.
Qed.
Lemma cand_sound v x : gcand d v = Some x -> exists u y g, d u = Some y /\ w u v = Some g /\ x = dplus y g.
Proof.
  intro H. apply osum_in in H; [|apply prods_good]. apply in_map_iff in H. destruct H as (u & E & _).
  exists u. destruct (d u) as [y|]; [|discriminate]. destruct (w u v) as [g|]; [|discriminate].
  injection E as <-. eauto.
Qed.
Lemma cand_good v x : gcand d v = Some x -> good x.
Proof. intro H. apply osum_in in H; [|apply prods_good]. exact (prods_good v x H). Qed.
Lemma cand_le u v y g : d u = Some y -> w u v = Some g ->
  exists x, gcand d v = Some x /\ (key x <= key (dplus y g))%Z.
Proof.
  intros Hu Hw. apply osum_le; [apply prods_good|]. apply in_map_iff. exists u. rewrite Hu, Hw.
  split; [reflexivity|]. apply in_seq. apply w_bound in Hw. lia.
Qed.
Lemma pair_good v : allgood [d v; gcand d v].
Proof. intros x [H|[H|[]]]; eauto using cand_good. Qed.
End Step.

Lemma relax_covers k d d' : gsound k d ->
  gcovers k d -> (forall v, v < N -> d' v = oadd dmin (d v) (gcand d v)) -> gcovers (S k) d'.
Proof.
  intros Sd C HD j v y Hj Hw. assert (G : forall v x, d v = Some x -> good x)
    by (intros; eapply gsound_good; eauto).
  assert (Hv := proj2 (walk_good _ _ _ Hw)). rewrite HD by auto. destruct j as [|j].
  - destruct (C 0 v y) as (x & Hx & L); [lia|auto|].
    destruct (oadd_l _ _ _ (pair_good d G v) Hx) as (z & -> & Lz). exists z. split; [auto|lia].
  - apply walk_S in Hw. destruct Hw as (u & y' & g & Hw & E & ->).
    destruct (C j u y') as (x & Hx & L); [lia|auto|].
    destruct (cand_le d G u v x g Hx E) as (z & Hz & Lz).
    destruct (oadd_r _ _ _ (pair_good d G v) Hz) as (z' & -> & Lz'). exists z'. split; [auto|].
    assert (key (dplus x g) <= key (dplus y' g))%Z; [|lia]. apply plus_mono; eauto. apply (walk_good _ _ _ Hw).
Qed.
Lemma relax_sound k d d' : gsound k d -> (forall v, v < N -> d' v = oadd dmin (d v) (gcand d v)) ->
  (forall v, N <= v -> d' v = None) -> gsound (S k) d'.
Proof.
  intros C HD HN v x Hx. assert (G : forall v x, d v = Some x -> good x)
    by (intros; eapply gsound_good; eauto).
  destruct (Nat.lt_ge_cases v N) as [Hv|Hv]; [|rewrite HN in Hx by auto; discriminate].
  rewrite HD in Hx by auto. apply oadd_sound in Hx; [|apply pair_good; auto]. destruct Hx as [Hx|Hx].
  - apply C in Hx. destruct Hx as (j & Hj & H). exists j. split; [lia|auto].
  - apply cand_sound in Hx; auto. destruct Hx as (u & y & g & Hu & E & ->).
    apply C in Hu. destruct Hu as (j & Hj & H). exists (S j). split; [lia|].
    apply walk_S. exists u, y, g. auto.
Qed.

Definition gclosed (d : nat -> option D) : Prop :=
  forall u v x g, d u = Some x -> w u v = Some g -> exists y, d v = Some y /\ (key y <= key (dplus x g))%Z.
Lemma closed_covers k0 d : gsound k0 d -> gcovers 0 d -> gclosed d -> forall k, gcovers k d.
Proof.
  intros Sd C0 H k j v y _. revert v y. induction j as [|j IH]; intros v y Hw.
  - apply (C0 0); auto.
  - apply walk_S in Hw. destruct Hw as (u & y' & g & Hw & E & ->).
    destruct (IH u y' Hw) as (x & Hx & L). destruct (H u v x g Hx E) as (z & Hz & Lz).
    exists z. split; [auto|]. assert (key (dplus x g) <= key (dplus y' g))%Z; [|lia].
    apply plus_mono; eauto; [eapply gsound_good; eauto|apply (walk_good _ _ _ Hw)].
Qed.
(** No change of a key: nothing will change. *)
Lemma unchanged_closed k d d' : gsound k d -> gcovers k d -> N <= S k ->
  (forall v, v < N -> d' v = oadd dmin (d v) (gcand d v)) ->
  (forall v x y, d v = Some x -> d' v = Some y -> key x = key y) -> gclosed d.
Proof.
  intros HS C Hk HD Heq u v x g Hu E. assert (G : forall v x, d v = Some x -> good x)
    by (intros; eapply gsound_good; eauto).
  assert (Hv : v < N) by (apply w_bound in E; tauto).
  destruct (cand_le d G u v x g Hu E) as (z & Hz & Lz).
  destruct (oadd_r _ _ _ (pair_good d G v) Hz) as (z' & Hz' & Lz'). rewrite <- HD in Hz' by auto.
  destruct (d v) as [y|] eqn:Ev.
  - exists y. split; [auto|]. rewrite (Heq v y z' Ev Hz'). lia.
  - exfalso. apply HS in Hu. destruct Hu as (j & Hj & Hw).
    assert (Hw' : walk (S j) v (dplus x g)) by (apply walk_S; exists u, x, g; auto).
    apply shorten in Hw'. destruct Hw' as (k' & x' & Hk' & Hw' & _).
    destruct (C k' v x') as (q & Hq & _); [lia|auto|congruence].
Qed.
(** The distances over walks of fewer than [N] edges are final if additions never decrease. *)
Lemma inflating_covers k d : inflating -> N <= S k -> gcovers k d -> forall j, gcovers j d.
Proof.
  intros I Hk C j i v y _ Hw. destruct (shorten i v y Hw) as (k' & x' & Hk' & Hw' & L).
  destruct (C k' v x') as (x & Hx & Lx); [lia|auto|]. exists x. split; [auto|]. specialize (L I). lia.
Qed.
Lemma none_iff k d v : gsound k d -> gcovers k d -> N <= S k ->
  (d v = None <-> forall j y, ~ walk j v y).
Proof.
  intros HS C Hk. split.
  - intros E j y Hw. destruct (shorten j v y Hw) as (k' & x' & Hk' & Hw' & _).
    destruct (C k' v x') as (q & Hq & _); [lia|auto|congruence].
  - intro H. destruct (d v) as [x|] eqn:E; auto. apply HS in E. destruct E as (j & _ & Hw). exfalso. eapply H; eauto.
Qed.

(** What both loops establish: distances over walks of at most [k] edges. *)
Definition gresult (b : bool) (d : nat -> option D) : Prop :=
  (forall v, d v = None <-> forall j y, ~ walk j v y) /\
  (forall v x, d v = Some x -> (exists j, j < N /\ walk j v x) /\
     forall j y, j < N -> walk j v y -> (key x <= key y)%Z) /\
  (b = true <-> forall v x, d v = Some x -> forall j y, walk j v y -> (key x <= key y)%Z) /\
  (inflating -> b = true).
Lemma covers_le k d : gcovers k d -> forall v x, d v = Some x -> forall j y, j <= k -> walk j v y -> (key x <= key y)%Z.
Proof. intros C v x Hx j y Hj Hw. destruct (C j v y Hj Hw) as (z & Hz & L). congruence. Qed.
(** The final comparison: [d2] is one step after [d]; [b] says that no key has changed. *)
Lemma step_result b d d2 : N <> 0 -> gsound (N - 1) d -> gcovers (N - 1) d ->
  (forall v, v < N -> d2 v = oadd dmin (d v) (gcand d v)) -> (forall v, N <= v -> d2 v = None) ->
  (b = true <-> forall v x y, d v = Some x -> d2 v = Some y -> key x = key y) ->
  gresult b d.
Proof.
  intros N0 HS C HD HN Hb. assert (G : forall v x, d v = Some x -> good x)
    by (intros; eapply gsound_good; eauto).
  assert (B : b = true <-> forall v x, d v = Some x -> forall j y, walk j v y -> (key x <= key y)%Z).
  { rewrite Hb. split.
    - intros H v x Hx j y Hw.
      assert (CC : gcovers j d).
      { apply (closed_covers (N - 1)); auto; [intros i u z Hi; apply C; lia|].
        apply (unchanged_closed (N - 1) d d2); auto. lia. }
      apply (covers_le j d CC v x Hx j y); auto.
    - intros H v x y Hx Hy. pose proof (relax_sound _ _ _ HS HD HN v y Hy) as (j & Hj & Hw).
      specialize (H v x Hx j y Hw). assert (Hv : v < N) by (eapply gsound_good; eauto).
      rewrite HD in Hy by auto.
      destruct (oadd_l _ _ _ (pair_good d G v) Hx) as (z & Hz & L).
      rewrite Hz in Hy. injection Hy as ->. lia. }
  split; [intro v; apply (none_iff (N - 1)); auto; lia|]. split; [|split; [auto|]].
  - intros v x Hx. split.
    + apply HS in Hx. destruct Hx as (j & Hj & Hw). exists j. split; [lia|auto].
    + intros j y Hj. apply (covers_le _ _ C v x Hx). lia.
  - intro I. apply B. intros v x Hx j y Hw.
    apply (covers_le j d (inflating_covers (N - 1) d I ltac:(lia) C j) v x Hx j y); auto.
Qed.
End Walks.

(** ** The containers *)
Section Containers.
Variables (G : lil D) (N : nat).
Hypothesis WG : wfm G.
Hypothesis RG : nrows G = N.
Hypothesis CG : ncols G = N.
Let w := mget G.
Hypothesis w_good : forall u v g, w u v = Some g -> wgood g.

Lemma w_in u v g : w u v = Some g -> u < N /\ v < N.
Proof.
  intro H. split; apply Nat.nle_gt; intro L; unfold w in H; rewrite mget_oob in H; auto;
    try discriminate; lia.
Qed.
Lemma vget_in {T} (d : bvec T) v x : wfv d -> vsize d = N -> vget d v = Some x -> v < N.
Proof. intros W S H. apply Nat.nle_gt; intro L. rewrite vget_oob in H; [discriminate|apply W|lia]. Qed.

Lemma gstep_ok dist : wfv dist -> vsize dist = N ->
  exists d, gstep dmin dplus G dist = Ok d /\ wfv d /\ vsize d = N /\
    forall v, v < N -> vget d v = oadd dmin (vget dist v) (gcand N w (vget dist) v).
Proof.
  intros Wd Sd. unfold gstep.
  destruct (vxm_ok dmin dplus btrue idc (Acc dmin idc idc) vnomask MERGE dist dist (Mat G))
    as (d & -> & W & S & Gd).
  { apply Wd. } { exact WG. } { apply wfv_wfvn; auto. } { exact Logic.I. } { exact Logic.I. }
  { simpl; congruence. } { simpl; congruence. }
  exists d. split; [reflexivity|]. split; [auto|]. split; [congruence|]. intros v Hv.
  rewrite Gd by congruence. simpl. unfold svmul, idc. simpl. rewrite RG.
  unfold gcand. fold w.
  replace (map (fun k => omap2 dplus (vget dist k) (mget G k v)) (seq 0 N)) with
    (map (fun u => omap2 dplus (vget dist u) (w u v)) (seq 0 N)) by reflexivity.
  destruct (vget dist v), (osum dmin _); reflexivity.
Qed.

Theorem gsssp_ok dist : N <> 0 -> wfv dist -> vsize dist = N ->
  (forall v x, vget dist v = Some x -> good x) ->
  exists b d, gsssp dmin dplus deqb G dist = Ok (b, d) /\ wfv d /\ vsize d = N /\
    gresult N w (vget dist) b (vget d).
Proof.
  intros N0 Wd Sd D0_good. unfold gsssp. rewrite RG, CG, Sd, Nat.eqb_refl. cbn [negb orb].
  set (D0 := vget dist) in *.
  assert (DB : forall v x, D0 v = Some x -> v < N) by (intros v x; apply vget_in; auto).
  destruct (mfor_seq_inv
    (fun k d => wfv d /\ vsize d = N /\ gcovers w D0 k (vget d) /\ gsound w D0 k (vget d))
    (fun _ d => gstep dmin dplus G d) (N - 1) dist) as (d & -> & W1 & S1 & C1 & H1).
  - split; [auto|]. split; [auto|]. split.
    + intros j v y Hj H. replace j with 0 in H by lia. apply walk_0 in H. exists y.
      split; [auto|lia].
    + intros v x H. exists 0. split; [auto|]. apply walk_0. auto.
  - intros k d Hk (Wk & Sk & Ck & Hs). destruct (gstep_ok d Wk Sk) as (d' & E & W' & S' & G').
    exists d'. split; [auto|]. split; [auto|]. split; [auto|].
    change (1 + k) with (S k). split.
    + apply (relax_covers N w w_in w_good D0 DB D0_good k (vget d)); auto.
    + apply (relax_sound N w w_in w_good D0 DB D0_good k (vget d)); auto.
      intros v Hv. apply vget_oob; [apply W'|lia].
  - cbn [bind].
    destruct (gstep_ok d W1 S1) as (d2 & -> & W2 & S2 & G2). cbn [bind].
    destruct (vec_new_ok false N N0) as (f & -> & Wf & Sf & _). cbn [bind].
    destruct (eWiseMult_v_ok deqb btrue idc (NoAcc idc) vnomask MERGE f d d2)
      as (fl & -> & Wfl & Sfl & Gfl).
    { apply Wf. } { apply wfv_wfvn; auto. } { apply wfv_wfvn; auto. } { exact Logic.I. }
    { split; [exact Logic.I|]. split; congruence. }
    cbn [bind]. exists (negb (any_false_v fl)), d.
    split; [reflexivity|]. split; [auto|]. split; [auto|].
    assert (N2 : forall v, N <= v -> vget d2 v = None) by (intros v Hv; apply vget_oob; [apply W2|lia]).
    assert (Gd : forall v x, vget d v = Some x -> good x)
      by (intros v x Hx; apply (gsound_good N w w_in w_good D0 DB D0_good (N - 1) (vget d) v x H1 Hx)).
    assert (Gd2 : forall v x, vget d2 v = Some x -> good x).
    { intros v x Hx. apply (gsound_good N w w_in w_good D0 DB D0_good (S (N - 1)) (vget d2) v x); auto.
      apply (relax_sound N w w_in w_good D0 DB D0_good (N - 1) (vget d)); auto. }
    apply (step_result N w w_in w_good D0 DB D0_good _ (vget d) (vget d2)); auto.
    rewrite negb_true_iff, <- not_true_iff_false, any_false_v_iff by apply Wfl. split.
    + intros H v x y Hx Hy. destruct (Z.eq_dec (key x) (key y)); [auto|]. exfalso. apply H. exists v.
      assert (Hv := vget_in d v x W1 S1 Hx). rewrite Gfl by congruence. simpl. rewrite Hx, Hy. simpl.
      unfold idc. rewrite eqb_key by eauto. f_equal. apply Z.eqb_neq. auto.
    + intros H (v & Hv). assert (Hn : v < N) by (apply (vget_in fl v false); auto; congruence).
      rewrite Gfl in Hv by congruence. simpl in Hv. unfold idc in Hv.
      destruct (vget d v) as [x|] eqn:Ex; [|discriminate].
      destruct (vget d2 v) as [y|] eqn:Ey; [|discriminate]. simpl in Hv. injection Hv as Hv.
      rewrite eqb_key in Hv by eauto. apply Z.eqb_neq in Hv. apply Hv. eauto.
Qed.

(** ** batch_sssp *)
Lemma gbatch_step_ok dists : wfm dists -> ncols dists = N ->
  exists d, gbatch_step dmin dplus G dists = Ok d /\ wfm d /\ nrows d = nrows dists /\ ncols d = N /\
    forall r v, r < nrows dists -> v < N ->
      mget d r v = oadd dmin (mget dists r v) (gcand N w (mget dists r) v).
Proof.
  intros Wd Cd. unfold gbatch_step.
  destruct (mxm_ok dmin dplus dplus idc idc btrue idc (Acc dmin idc idc) mnomask MERGE dists
              (Mat dists) (Mat G)) as (d & -> & W & R & C & Gd).
  { auto. } { auto. } { auto. } { exact Logic.I. } { exact Logic.I. }
  { auto. } { simpl; congruence. } { simpl; congruence. } { exact Logic.I. }
  exists d. split; [reflexivity|]. split; [auto|]. split; [auto|]. split; [congruence|].
  intros r v Hr Hv. rewrite Gd by lia. simpl. unfold smul, idc. simpl. rewrite Cd.
  unfold gcand. fold w.
  replace (map (fun k => omap2 dplus (mget dists r k) (mget G k v)) (seq 0 N)) with
    (map (fun u => omap2 dplus (mget dists r u) (w u v)) (seq 0 N)) by reflexivity.
  destruct (mget dists r v), (osum dmin _); reflexivity.
Qed.

(** As [gresult] for every row [r]; [b] summarises them. *)
Theorem gbatch_ok dists : N <> 0 -> wfm dists -> ncols dists = N ->
  (forall r v x, mget dists r v = Some x -> good x) ->
  exists b d, gbatch_sssp dmin dplus deqb G dists = Ok (b, d) /\ wfm d /\ nrows d = nrows dists /\ ncols d = N /\
    exists br, (forall r, r < nrows dists -> gresult N w (mget dists r) (br r) (mget d r)) /\
      (b = true <-> forall r, r < nrows dists -> br r = true).
Proof.
  intros N0 Wd Cd D0_good. unfold gbatch_sssp. rewrite RG, CG, Cd, Nat.eqb_refl. cbn [negb orb].
  set (D0 := mget dists) in *.
  assert (DB : forall r v x, D0 r v = Some x -> v < N).
  { intros r v x H. apply Nat.nle_gt; intro L. unfold D0 in H. rewrite mget_oob in H; auto;
      [discriminate|lia]. }
  destruct (mfor_seq_inv
    (fun k d => wfm d /\ nrows d = nrows dists /\ ncols d = N /\
       forall r, r < nrows dists -> gcovers w (D0 r) k (mget d r) /\ gsound w (D0 r) k (mget d r))
    (fun _ d => gbatch_step dmin dplus G d) (N - 1) dists) as (d & -> & W1 & R1 & K1 & H1).
  - split; [auto|]. split; [auto|]. split; [auto|]. intros r Hr. split.
    + intros j v y Hj H. replace j with 0 in H by lia. apply walk_0 in H. exists y.
      split; [auto|lia].
    + intros v x H. exists 0. split; [auto|]. apply walk_0. auto.
  - intros k d Hk (Wk & Rk & Kk & Hs). destruct (gbatch_step_ok d Wk Kk) as (d' & E & W' & R' & K' & G').
    exists d'. split; [auto|]. split; [auto|]. split; [congruence|]. split; [auto|].
    change (1 + k) with (S k). intros r Hr. destruct (Hs r Hr) as [Cr Sr]. split.
    + apply (relax_covers N w w_in w_good (D0 r) (DB r) (D0_good r) k (mget d r)); auto.
      intros v Hv. apply G'; congruence.
    + apply (relax_sound N w w_in w_good (D0 r) (DB r) (D0_good r) k (mget d r)); auto.
      * intros v Hv. apply G'; congruence.
      * intros v Hv. apply mget_oob; auto. lia.
  - cbn [bind].
    destruct (gbatch_step_ok d W1 K1) as (d2 & -> & W2 & R2 & K2 & G2). cbn [bind].
    destruct (eWiseMult_ok deqb deqb idc btrue idc (NoAcc idc) mnomask MERGE
      (lil_new (nrows d) (ncols d)) (Mat d) (Mat d2))
      as (fl & -> & Wfl & Rfl & Kfl & Gfl).
    { apply lil_new_wf. } { auto. } { auto. } { exact Logic.I. }
    { split; [exact Logic.I|]. simpl. repeat split; congruence. }
    cbn [bind]. exists (negb (any_false_m fl)), d. simpl in Rfl, Kfl, Gfl.
    split; [reflexivity|]. split; [auto|]. split; [auto|]. split; [auto|].
    assert (N2 : forall r v, N <= v -> mget d2 r v = None) by (intros r v Hv; apply mget_oob; auto; lia).
    assert (Gd : forall r v x, mget d r v = Some x -> good x /\ r < nrows dists).
    { intros r v x Hx. assert (Hr : r < nrows dists).
      { apply Nat.nle_gt; intro L; rewrite mget_oob in Hx; auto; try discriminate; lia. }
      split; [|auto]. destruct (H1 r Hr) as [_ S1].
      apply (gsound_good N w w_in w_good (D0 r) (DB r) (D0_good r) (N - 1) (mget d r) v x S1 Hx). }
    assert (Gd2 : forall r v x, mget d2 r v = Some x -> good x).
    { intros r v x Hx. assert (Hr : r < nrows dists).
      { apply Nat.nle_gt; intro L; rewrite mget_oob in Hx; auto; try discriminate; lia. }
      destruct (H1 r Hr) as [_ S1].
      apply (gsound_good N w w_in w_good (D0 r) (DB r) (D0_good r) (S (N - 1)) (mget d2 r) v x); auto.
      apply (relax_sound N w w_in w_good (D0 r) (DB r) (D0_good r) (N - 1) (mget d r)); auto.
      intros u Hu. apply G2; congruence. }
    set (rowfalse := fun r => existsb (fun v => match mget fl r v with Some false => true | _ => false end) (seq 0 N)).
    assert (RF : forall r, rowfalse r = true <-> exists v, mget fl r v = Some false).
    { intro r. unfold rowfalse. rewrite existsb_exists. split.
      - intros (v & _ & Hv). exists v. destruct (mget fl r v) as [[|]|]; congruence.
      - intros (v & Hv). exists v. rewrite Hv. split; [|auto]. apply in_seq.
        assert (v < N); [|lia]. apply Nat.nle_gt; intro L. rewrite mget_oob in Hv; auto; try discriminate. lia. }
    exists (fun r => negb (rowfalse r)). split.
    + intros r Hr. destruct (H1 r Hr) as [Cr Sr].
      apply (step_result N w w_in w_good (D0 r) (DB r) (D0_good r) _ (mget d r) (mget d2 r)); auto.
      { intros v Hv. apply G2; congruence. }
      rewrite negb_true_iff, <- not_true_iff_false, RF. split.
      * intros H v x y Hx Hy. destruct (Z.eq_dec (key x) (key y)); [auto|]. exfalso. apply H. exists v.
        assert (Hv : v < N) by (apply (gsound_good N w w_in w_good (D0 r) (DB r) (D0_good r) (N - 1) (mget d r) v x Sr Hx)).
        rewrite Gfl by lia. simpl. rewrite Hx, Hy. simpl.
        unfold idc. rewrite eqb_key by (eauto; eapply Gd; eauto). f_equal. apply Z.eqb_neq. auto.
      * intros H (v & Hv). assert (Hn : v < N).
        { apply Nat.nle_gt; intro L. rewrite mget_oob in Hv; auto; try discriminate. lia. }
        rewrite Gfl in Hv by lia. simpl in Hv. unfold idc in Hv.
        destruct (mget d r v) as [x|] eqn:Ex; [|discriminate].
        destruct (mget d2 r v) as [y|] eqn:Ey; [|discriminate]. simpl in Hv. injection Hv as Hv.
        rewrite eqb_key in Hv by (eauto; eapply Gd; eauto). apply Z.eqb_neq in Hv. apply Hv. eauto.
    + rewrite negb_true_iff, <- not_true_iff_false, any_false_m_iff by auto. split.
      * intros H r Hr. apply negb_true_iff, not_true_iff_false. rewrite RF. intros (v & Hv). apply H. eauto.
      * intros H (r & v & Hv). assert (Hr : r < nrows dists).
        { apply Nat.nle_gt; intro L; rewrite mget_oob in Hv; auto; try discriminate; lia. }
        specialize (H r Hr). apply negb_true_iff, not_true_iff_false in H. apply H, RF. eauto.
Qed.

(** ** filtered_sssp *)
Section Filtered.
Variable D0 : nat -> option D.
Hypothesis DB : forall v x, D0 v = Some x -> v < N.
Hypothesis D0_good : forall v x, D0 v = Some x -> good x.
(** No walk of at least one edge has length 0. *)
Hypothesis nonzero : forall k v x, rwalk dplus w D0 (S k) v x -> dtrue x = true.

Definition gfilt_inv k (nd : bvec D) (d : bvec D) : Prop :=
  wfv nd /\ vsize nd = N /\ wfv d /\ vsize d = N /\
  gcovers w D0 k (vget d) /\ gsound w D0 k (vget d) /\
  (forall v x, vget nd v = Some x -> vget d v = Some x) /\
  (forall u v x g, vget d u = Some x -> w u v = Some g ->
     vget nd u = Some x \/ exists y, vget d v = Some y /\ (key y <= key (dplus x g))%Z).

Lemma gfiltered_body_ok k nd fl d :
  gfilt_inv k nd d -> wfv fl -> vsize fl = N ->
  exists nd' fl', wfv fl' /\ vsize fl' = N /\
    ((gfiltered_body dmin dplus dltb dtrue G nd fl d = Ok (nd', fl', None) /\ gclosed w (vget d)) \/
     exists d', gfiltered_body dmin dplus dltb dtrue G nd fl d = Ok (nd', fl', Some d') /\ gfilt_inv (S k) nd' d' /\
       exists j v y, j <= S k /\ rwalk dplus w D0 j v y /\ forall x, vget d v = Some x -> (key y < key x)%Z).
Proof.
  intros (Wn & Sn & Wd & Sd & C & HS & HN & HC) Wf Sf. unfold gfiltered_body.
  assert (Gd0 : forall v x, vget d v = Some x -> good x)
    by (intros v x Hx; apply (gsound_good N w w_in w_good D0 DB D0_good k (vget d) v x HS Hx)).
  assert (Gn0 : forall v x, vget nd v = Some x -> good x) by eauto.
  destruct (vxm_ok dmin dplus btrue idc (NoAcc idc) vnomask MERGE nd nd (Mat G))
    as (c & -> & Wc & Sc & Gc).
  { apply Wn. } { exact WG. } { apply wfv_wfvn; auto. } { exact Logic.I. } { exact Logic.I. }
  { simpl; congruence. } { simpl; congruence. }
  cbn [bind].
  assert (Gc' : forall v, v < N -> vget c v = gcand N w (vget nd) v).
  { intros v Hv. rewrite Gc by congruence. simpl. unfold svmul, idc. simpl. rewrite RG.
    rewrite !option_map_id'. reflexivity. }
  clear Gc.
  assert (Gcg : forall v x, vget c v = Some x -> good x /\ exists j, j <= k /\ rwalk dplus w D0 (S j) v x).
  { intros v x Hx. assert (Hv : v < N) by (apply (vget_in c v x); auto; congruence). rewrite Gc' in Hx by auto.
    split; [apply (cand_good N w w_good (vget nd) Gn0 v x Hx)|].
    apply (cand_sound N w w_good (vget nd) Gn0) in Hx.
    destruct Hx as (u & y & g & Hu & Eg & ->). apply HN, HS in Hu. destruct Hu as (j & Hj & Hw).
    exists j. split; [auto|]. apply walk_S. exists u, y, g. auto. }
  destruct (eWiseAdd_v_ok dltb dtrue dtrue dtrue idc (NoAcc idc) (MStruct c) REPLACE fl c d)
    as (fl' & -> & Wf' & Sf' & Gf').
  { apply Wf. } { apply wfv_wfvn; auto. } { apply wfv_wfvn; auto. } { apply Wc. }
  { split; [simpl; congruence|]. split; congruence. }
  cbn [bind].
  destruct (apply_v_ok idc btrue idc (NoAcc idc) (MVal fl') REPLACE c c)
    as (nd' & -> & Wn' & Sn' & Gn').
  { apply Wc. } { apply wfv_wfvn; auto. } { apply Wf'. }
  { split; [simpl; congruence|congruence]. }
  cbn [bind].
  assert (Gn : forall v x, v < N -> (vget nd' v = Some x <->
    vget c v = Some x /\ forall y, vget d v = Some y -> (key x < key y)%Z)).
  { intros v x Hv. rewrite Gn' by congruence. simpl. rewrite Gf' by congruence. simpl.
    unfold spec_write, idc. rewrite !option_map_id'.
    destruct (vget c v) as [z|] eqn:Ez; simpl.
    2: { split; [discriminate|intros [H _]; discriminate]. }
    destruct (Gcg v z Ez) as (Gz & j & _ & Hwz).
    destruct (vget d v) as [y|] eqn:Ey; simpl.
    - unfold btrue. rewrite ltb_key by eauto. destruct (Z.ltb_spec (key z) (key y)).
      + split; [intro Hx; injection Hx as <-; split; [auto|]|tauto].
        intros y' Hy'. injection Hy' as <-. auto.
      + split; [discriminate|]. intros [Hx Hy]. injection Hx as <-. specialize (Hy y eq_refl). lia.
    - unfold btrue. rewrite (nonzero j v z Hwz).
      split; [intro Hx; injection Hx as <-; split; [auto|discriminate]|tauto]. }
  clear Gn' Gf'.
  exists nd', fl'. split; [auto|]. split; [congruence|].
  destruct (has_vals (vnvals nd')) eqn:Hv; [right|left].
  - destruct (eWiseAdd_v_ok dmin idc idc btrue idc (NoAcc idc) vnomask MERGE d nd' d)
      as (d' & -> & Wd' & Sd' & Gd').
    { apply Wd. } { apply wfv_wfvn; auto. } { apply wfv_wfvn; auto. } { exact Logic.I. }
    { split; [exact Logic.I|]. split; congruence. }
    cbn [bind]. exists d'. split; [reflexivity|].
    assert (Gd : forall v, v < N -> vget d' v = match vget nd' v with Some x => Some x | None => vget d v end).
    { intros v Hv'. rewrite Gd' by congruence. simpl. unfold idc. rewrite !option_map_id'.
      destruct (vget nd' v) as [x|] eqn:Ex; [|destruct (vget d v); reflexivity].
      apply Gn in Ex; auto. destruct Ex as [Ec Ex]. destruct (vget d v) as [y|] eqn:Ey; simpl; [|reflexivity].
      specialize (Ex y eq_refl). rewrite min_key by (eauto; eapply Gcg; eauto).
      destruct (Z.ltb_spec (key x) (key y)); auto; lia. }
    assert (Dle : forall v x, v < N -> vget d v = Some x -> exists y, vget d' v = Some y /\ (key y <= key x)%Z).
    { intros v x Hv' Hx. rewrite Gd by auto. destruct (vget nd' v) as [y|] eqn:Ey.
      - apply Gn in Ey; auto. destruct Ey as [_ Ey]. specialize (Ey x Hx). exists y. split; [auto|lia].
      - exists x. split; [auto|lia]. }
    assert (Dc : forall v x, v < N -> vget c v = Some x -> exists y, vget d' v = Some y /\ (key y <= key x)%Z).
    { intros v x Hv' Hx. rewrite Gd by auto. destruct (vget nd' v) as [y|] eqn:Ey.
      - apply Gn in Ey; auto. destruct Ey as [Ey _]. exists y. split; [auto|]. replace y with x by congruence. lia.
      - destruct (vget d v) as [y|] eqn:Ed.
        + exists y. split; [auto|]. apply Z.nlt_ge. intro L.
          assert (vget nd' v = Some x); [|congruence]. apply Gn; auto. split; [auto|].
          intros y' Hy'. replace y' with y by congruence. lia.
        + assert (vget nd' v = Some x); [|congruence]. apply Gn; auto. split; [auto|]. congruence. }
    split.
    + split; [auto|]. split; [congruence|]. split; [auto|]. split; [congruence|].
      assert (Step : forall u v x g, vget d u = Some x -> w u v = Some g ->
        exists y, vget d' v = Some y /\ (key y <= key (dplus x g))%Z).
      { intros u v x g Hu Eg. assert (Lv : v < N) by (apply w_in in Eg; tauto).
        destruct (HC u v x g Hu Eg) as [Hx|(y & Hy & L)].
        - destruct (cand_le N w w_in w_good (vget nd) Gn0 u v x g Hx Eg) as (z & Hz & Lz).
          rewrite <- Gc' in Hz by auto. destruct (Dc v z Lv Hz) as (y & Hy & L). exists y. split; [auto|lia].
        - destruct (Dle v y Lv Hy) as (z & Hz & Lz). exists z. split; [auto|lia]. }
      split; [|split; [|split]].
      * intros j v y Hj Hw. destruct j as [|j].
        -- assert (Lv : v < N) by (apply walk_0 in Hw; eauto).
           destruct (C 0 v y) as (x & Hx & L); [lia|auto|].
           destruct (Dle v x Lv Hx) as (z & Hz & Lz). exists z. split; [auto|lia].
        -- apply walk_S in Hw. destruct Hw as (u & y' & g & Hw & Eg & ->).
           destruct (C j u y') as (x & Hx & L); [lia|auto|].
           destruct (Step u v x g Hx Eg) as (z & Hz & Lz). exists z. split; [auto|].
           assert (key (dplus x g) <= key (dplus y' g))%Z; [|lia]. apply plus_mono; eauto.
           apply (walk_good N w w_in w_good D0 DB D0_good _ _ _ Hw).
      * intros v x Hx. assert (Lv : v < N) by (apply (vget_in d' v x); auto; congruence).
        rewrite Gd in Hx by auto. destruct (vget nd' v) as [z|] eqn:Ez.
        -- injection Hx as ->. apply Gn in Ez; auto. destruct Ez as [Ez _]. apply Gcg in Ez.
           destruct Ez as (_ & j & Hj & Hw). exists (S j). split; [lia|auto].
        -- apply HS in Hx. destruct Hx as (j & Hj & Hw). exists j. split; [lia|auto].
      * intros v x Hx. rewrite Gd by (apply (vget_in nd' v x); auto; congruence). rewrite Hx. auto.
      * intros u v x g Hu Eg. assert (Lu : u < N) by (apply w_in in Eg; tauto).
        rewrite Gd in Hu by auto. destruct (vget nd' u) as [z|] eqn:Ez; [left; congruence|right].
        apply (Step u v x g); auto.
    + destruct (has_vals_v nd' Wn' Hv) as (v & Lv & Hg).
      assert (Lv' : v < N) by congruence.
      destruct (vget nd' v) as [x|] eqn:Ex; [|congruence]. apply Gn in Ex; auto.
      destruct Ex as [Ex1 Ex2]. apply Gcg in Ex1. destruct Ex1 as (_ & j & Hj & Hw).
      exists (S j), v, x. split; [lia|]. split; auto.
  - split; [reflexivity|]. intros u v x g Hu Eg. assert (Lv : v < N) by (apply w_in in Eg; tauto).
    destruct (HC u v x g Hu Eg) as [Hx|H]; [|auto].
    destruct (cand_le N w w_in w_good (vget nd) Gn0 u v x g Hx Eg) as (z & Hz & Lz).
    rewrite <- Gc' in Hz by auto.
    pose proof (no_vals_v nd' Wn' Hv v) as Hnone.
    destruct (vget d v) as [y|] eqn:Ey.
    + exists y. split; [auto|]. apply Z.nlt_ge. intro Hlt.
      assert (vget nd' v = Some z); [|congruence]. apply Gn; auto. split; [auto|].
      intros y' Hy'. rewrite Ey in Hy'. injection Hy' as <-. lia.
    + assert (vget nd' v = Some z); [|congruence]. apply Gn; auto. split; [auto|].
      intros y' Hy'. congruence.
Qed.

(** A walk shorter than all walks with fewer edges than vertices. *)
Definition gimproves : Prop := exists j v y, rwalk dplus w D0 j v y /\
  forall i x, i < N -> rwalk dplus w D0 i v x -> (key y < key x)%Z.

Lemma gfiltered_loop_ok n : forall k nd fl d,
  n + k = N -> gfilt_inv k nd d -> wfv fl -> vsize fl = N -> (n = 0 -> gimproves) ->
  exists b d', gfiltered_loop dmin dplus dltb dtrue n G nd fl d = Ok (b, d') /\ wfv d' /\ vsize d' = N /\
    ((b = true /\ exists k', gsound w D0 k' (vget d') /\ forall j, gcovers w D0 j (vget d')) \/
     (b = false /\ gimproves)).
Proof.
  induction n as [|n IH]; intros k nd fl d Hk I Wf Sf H0.
  - exists false, d. destruct I as (_ & _ & Wd & Sd & _). simpl. auto 10.
  - simpl. destruct (gfiltered_body_ok k nd fl d I Wf Sf) as
      (nd' & fl' & Wf' & Sf' & [[-> Hcl]|(d' & -> & I' & j & v & y & Hj & Hw & Hlt)]); cbn [bind].
    + exists true, d. destruct I as (_ & _ & Wd & Sd & C & HS & _).
      split; [reflexivity|]. split; [auto|]. split; [auto|]. left. split; [auto|].
      exists k. split; [auto|]. apply (closed_covers N w w_in w_good D0 DB D0_good k); auto.
      intros j v y Hj. apply C. lia.
    + apply (IH (S k)); auto; [lia|]. intros ->.
      destruct I as (_ & _ & _ & _ & C & _). exists j, v, y. split; [auto|]. intros i x Hi Hx.
      destruct (C i v x) as (z & Hz & L); [lia|auto|]. specialize (Hlt z Hz). lia.
Qed.
End Filtered.

Theorem gfiltered_ok dist : N <> 0 -> wfv dist -> vsize dist = N ->
  (forall v x, vget dist v = Some x -> good x) ->
  (forall k v x, rwalk dplus w (vget dist) (S k) v x -> dtrue x = true) ->
  exists b d, gfiltered_sssp dmin dplus dltb dtrue G dist = Ok (b, d) /\ wfv d /\ vsize d = N /\
    (b = true -> (forall v, vget d v = None <-> forall j y, ~ rwalk dplus w (vget dist) j v y) /\
       forall v x, vget d v = Some x -> (exists j, rwalk dplus w (vget dist) j v x) /\
         forall j y, rwalk dplus w (vget dist) j v y -> (key x <= key y)%Z) /\
    (b = false -> gimproves (vget dist)) /\
    (inflating w -> b = true).
Proof.
  intros N0 Wd Sd D0_good NZ. unfold gfiltered_sssp. rewrite RG, CG, Sd, Nat.eqb_refl. cbn [negb orb].
  destruct (vec_new_ok false N N0) as (f & -> & Wf & Sf & _). cbn [bind].
  assert (DB : forall v x, vget dist v = Some x -> v < N) by (intros v x; apply vget_in; auto).
  destruct (gfiltered_loop_ok (vget dist) DB D0_good NZ N 0 dist f dist)
    as (b & d & E & W & S & H); [lia| |assumption|assumption|lia|].
  - split; [auto|]. split; [auto|]. split; [auto|]. split; [auto|]. split.
    + intros j v y Hj H. replace j with 0 in H by lia. apply walk_0 in H. exists y.
      split; [auto|lia].
    + split; [|split; auto]. intros v x H. exists 0. split; [auto|]. apply walk_0. auto.
  - exists b, d. split; [auto|]. split; [auto|]. split; [auto|].
    destruct H as [[-> (k & HS & HC)]|[-> Hneg]].
    + split; [intros _|split; [discriminate|auto]]. split.
      * intro v. split.
        -- intros Hn j y Hw. destruct (HC j j v y) as (x & Hx & _); auto. congruence.
        -- intro H. destruct (vget d v) as [x|] eqn:Ex; auto. apply HS in Ex.
           destruct Ex as (j & _ & Hw). exfalso. eapply H; eauto.
      * intros v x Hx. split; [apply HS in Hx; destruct Hx as (j & _ & Hw); eauto|].
        intros j y Hw. apply (covers_le w (vget dist) j (vget d) (HC j) v x Hx j y); auto.
    + split; [discriminate|]. split; [auto|]. intro I. exfalso. destruct Hneg as (j & v & y & Hw & H).
      destruct (shorten N w w_in w_good (vget dist) DB D0_good j v y Hw) as (k' & x' & Hk & Hw' & L).
      specialize (L I). specialize (H k' x' Hk Hw'). lia.
Qed.
End Containers.
End Gen.
