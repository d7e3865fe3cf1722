(** Proofs about the maximal independent set algorithm. *)
From Coq Require Import Lia.
From Verif Require Import Base ModelLil ModelVec ModelHelpers ModelViews ModelMul ModelElem
  ModelIndex ModelAlgoBase ModelMis Spec SpecOps SpecIndex SpecGraph SpecMis ProofBase ProofRow ProofLil
  ProofVec ProofWrite ProofViews ProofMul ProofElem ProofReduce ProofIndex ProofAssign ProofAssignRC ProofGraph ProofBfs.

(** A loop whose end is not guaranteed. *)
Lemma mwhile_partial {S} (cond : S -> bool) (body : S -> res S) (P : S -> Prop) :
  (forall s, P s -> cond s = true -> exists s', body s = Ok s' /\ P s') ->
  forall n s, P s ->
  exists o, mwhile n cond body s = Ok o /\ forall s', o = Some s' -> P s' /\ cond s' = false.
Proof.
  intros H n. induction n as [|n IH]; intros s Hs; simpl.
  - exists None. split; auto. discriminate.
  - destruct (cond s) eqn:E.
    + destruct (H s Hs E) as (s' & -> & Hs'). cbn [bind]. apply IH; auto.
    + exists (Some s). split; auto. intros s' Hs'. injection Hs' as <-. auto.
Qed.

(** A vector that stores [true] at the members of a set. *)
Definition flags (N : nat) (w : bvec bool) (b : nat -> bool) : Prop :=
  wfv w /\ vsize w = N /\ forall v, v < N -> vget w v = if b v then Some true else None.

Lemma flags_ext N w b b' : flags N w b -> (forall v, v < N -> b v = b' v) -> flags N w b'.
Proof.
  intros (W & S & G) H. split; auto. split; auto. intros v Hv. rewrite G, H by auto. reflexivity.
Qed.
Lemma flags_count N w b : flags N w b -> vnvals w = Z.of_nat (length (filter b (seq 0 N))).
Proof.
  intros ((W & C) & S & G). rewrite C, S. unfold vcount. do 2 f_equal.
  apply filter_ext_in. intros v Hv. apply in_seq in Hv. rewrite G by lia. destruct (b v); reflexivity.
Qed.
Lemma flags_no_vals N w b :
  flags N w b -> has_vals (vnvals w) = false -> forall v, v < N -> b v = false.
Proof.
  intros F H v Hv. destruct F as (W & S & G). specialize (G v Hv).
  rewrite (no_vals_v w W H) in G. destruct (b v); [discriminate|reflexivity].
Qed.

Lemma filter_shrinks (p q : nat -> bool) l v :
  (forall x, q x = true -> p x = true) -> In v l -> p v = true -> q v = false ->
  S (length (filter q l)) <= length (filter p l).
Proof.
  intros H Hv Pv Qv.
  assert (L : forall l, length (filter q l) <= length (filter p l)).
  { induction l0; simpl; auto. specialize (H a). destruct (q a); [rewrite H by auto; simpl; lia|].
    destruct (p a); simpl; lia. }
  induction l as [|x l IH]; [destruct Hv|]. simpl. destruct Hv as [->|Hv].
  - rewrite Pv, Qv. simpl. specialize (L l). lia.
  - specialize (IH Hv). specialize (H x). destruct (q x); [rewrite H by auto; simpl; lia|].
    destruct (p x); simpl; lia.
Qed.
Section Mis.
Context {T R : Type} (tb : T -> bool) (tr : T -> R) (r0 : R) (rplus : R -> R -> R)
  (rlt : R -> R -> bool) (rb : R -> bool).
Context (draw : nat -> nat -> R -> R) (G : lil T) (N : nat).
Hypothesis WG : wfm G.
Hypothesis RG : nrows G = N.
Hypothesis CG : ncols G = N.
Hypothesis true_edges : forall i j v, mget G i j = Some v -> tb v = true.
Hypothesis sym : forall i j, edge G i j = edge G j i.
Hypothesis irr : forall i, edge G i i = false.
(** [<] on the numbers drawn is a strict weak order. *)
Hypothesis lt_asym : forall x y, rlt x y = true -> rlt y x = false.
Hypothesis lt_cotrans : forall x y z, rlt x z = true -> rlt x y = true \/ rlt y z = true.
(** Degrees and random numbers are not zero. *)
Context (pos : R -> Prop).
Hypothesis pos_true : forall x, pos x -> rb x = true.
Hypothesis pos_edge : forall i j v, mget G i j = Some v -> pos (tr v).
Hypothesis pos_plus : forall x y, pos x -> pos y -> pos (rplus x y).
Hypothesis pos_draw : forall t i d, pos d -> pos (draw t i d).

Let e := edge G.

Lemma lt_irr x : rlt x x = false.
Proof. destruct (rlt x x) eqn:E; auto. rewrite (lt_asym x x) in E; auto. Qed.

Lemma osum_rmax l :
  match osum (rmax rlt) l with
  | Some m => In (Some m) l /\ forall x, In (Some x) l -> rlt m x = false
  | None => forall x, ~ In (Some x) l
  end.
Proof.
  unfold osum.
  assert (K : forall l o,
    match fold_left (oadd (rmax rlt)) l o with
    | Some m => (o = Some m \/ In (Some m) l) /\ (forall x, o = Some x -> rlt m x = false) /\
        forall x, In (Some x) l -> rlt m x = false
    | None => o = None /\ forall x, ~ In (Some x) l
    end).
  { clear l. induction l as [|y l IH]; intro o; simpl.
    - destruct o; [|auto]. split; auto. split; [|tauto]. intros x H. injection H as <-. apply lt_irr.
    - specialize (IH (oadd (rmax rlt) o y)).
      destruct (fold_left (oadd (rmax rlt)) l (oadd (rmax rlt) o y)) as [m|].
      + destruct IH as (H1 & H2 & H3). destruct o as [a|], y as [b|]; simpl in *.
        * unfold rmax in *. destruct (rlt a b) eqn:E.
          -- split; [destruct H1; auto|]. split.
             ++ intros x H. injection H as <-. specialize (H2 b eq_refl).
                destruct (rlt m a) eqn:F; auto. destruct (lt_cotrans m b a F); [congruence|].
                rewrite (lt_asym a b) in H; auto.
             ++ intros x [H|H]; auto.
          -- split; [destruct H1; auto|]. split; [auto|]. intros x [H|H]; auto. injection H as <-.
             specialize (H2 a eq_refl). destruct (rlt m b) eqn:F; auto.
             destruct (lt_cotrans m a b F); congruence.
        * split; [tauto|]. split; auto. intros x [H|H]; [discriminate|auto].
        * split; [destruct H1; auto|]. split; [discriminate|]. intros x [H|H]; auto.
        * split; [tauto|]. split; [discriminate|]. intros x [H|H]; [discriminate|auto].
      + destruct IH as (H1 & H2). destruct o, y; simpl in *; try discriminate.
        split; auto. intros x [H|H]; [discriminate|eapply H2; eauto]. }
  specialize (K l None). destruct (fold_left (oadd (rmax rlt)) l None) as [m|].
  - destruct K as ([K|K] & _ & H); [discriminate|auto].
  - apply K.
Qed.

Lemma number_values_ok (f : nat -> R -> R) w :
  wfv w -> wfv (number_values f w) /\ vsize (number_values f w) = vsize w /\
    forall i, vget (number_values f w) i = option_map (f i) (vget w i).
Proof.
  intros ((L1 & L2) & C).
  assert (Gv : forall i, vget (number_values f w) i = option_map (f i) (vget w i)).
  { intro i. unfold vget, number_values. simpl.
    rewrite nth_error_map.
    assert (K : forall l lo i, nth_error (combine (seq lo (length l)) l) i =
                  option_map (fun x : R => (lo + i, x)) (nth_error l i)).
    { clear. induction l as [|x l IH]; intros lo i; destruct i; simpl; auto.
      - do 2 f_equal. lia.
      - rewrite IH. destruct (nth_error l i); simpl; auto. do 2 f_equal. lia. }
    rewrite K. destruct (nth_error (vbits w) i) as [[|]|]; simpl; auto.
    destruct (nth_error (vvals w) i); reflexivity. }
  split; [|split; auto]. split.
  - split; simpl; auto. rewrite map_length, combine_length, seq_length. lia.
  - simpl. rewrite C. f_equal. apply vcount_ext. intros i Hi. rewrite Gv.
    destruct (vget w i); reflexivity.
Qed.

(** ** One iteration *)
Section Step.
Context (degrees : bvec R).
Hypothesis Wd : wfv degrees.
Hypothesis Sd : vsize degrees = N.
Hypothesis Pd : forall v d, vget degrees v = Some d -> pos d.

(** The number drawn by [v] in the [t]-th iteration. *)
Definition number (t v : nat) : R :=
  match vget degrees v with Some d => draw t v d | None => r0 end.
(** The vertices selected: their number is larger than those of all neighbours still in play. *)
Definition selected (t : nat) (c : nat -> bool) (v : nat) : bool :=
  c v && forallb (fun k => negb (e v k && c k) || rlt (number t k) (number t v)) (seq 0 N).
Definition remaining (t : nat) (c : nat -> bool) (v : nat) : bool :=
  c v && negb (selected t c v) && negb (existsb (fun k => e v k && selected t c k) (seq 0 N)).

Definition works (s : @mis_state R) : Prop :=
  wfv (mprob s) /\ vsize (mprob s) = N /\ wfv (mnmax s) /\ vsize (mnmax s) = N /\
  wfv (mnew s) /\ vsize (mnew s) = N /\ wfv (mnbrs s) /\ vsize (mnbrs s) = N.

Lemma selected_iff t c v :
  selected t c v = true <->
  c v = true /\ forall k, k < N -> e v k = true -> c k = true -> rlt (number t k) (number t v) = true.
Proof.
  unfold selected. rewrite andb_true_iff, forallb_forall. split; intros (H1 & H2); split; auto.
  - intros k Hk H3 H4. specialize (H2 k). rewrite in_seq, H3, H4 in H2. simpl in H2. apply H2. lia.
  - intros k Hk. apply in_seq in Hk. destruct (e v k) eqn:E1, (c k) eqn:E2; simpl; auto.
    apply H2; auto. lia.
Qed.

Lemma mis_step s c i :
  works s -> flags N (mcand s) c -> flags N (mset s) i ->
  (forall v, v < N -> c v = true -> vget degrees v <> None) ->
  exists s', mis_body tb rlt rb draw G degrees s = Ok s' /\ works s' /\ miter s' = S (miter s) /\
    flags N (mset s') (fun v => i v || selected (miter s) c v) /\
    flags N (mcand s') (remaining (miter s) c).
Proof.
  intros (Wp & Sp & Wn & Sn & Ww & Sw & Wb & Sb) Fc Fi Hc.
  set (t := miter s). unfold mis_body. fold t.
  destruct Fc as (Wc & Sc & Gc). destruct Fi as (Wi & Si & Gi).
  destruct (eWiseMult_v_ok (fun (_ : bool) (d : R) => d) btrue idc (NoAcc idc) vnomask MERGE
              (mprob s) (mcand s) degrees) as (p0 & -> & Wp0 & Sp0 & Gp0).
  { apply Wp. } { apply wfv_wfvn; auto. } { apply wfv_wfvn; auto. } { exact Logic.I. }
  { split; [exact Logic.I|]. split; congruence. }
  cbn [bind].
  destruct (number_values_ok (draw t) p0 Wp0) as (Wq & Sq & Gq).
  set (prob := number_values (draw t) p0) in *.
  assert (Gp : forall v, v < N -> vget prob v = if c v then Some (number t v) else None).
  { intros v Hv. rewrite Gq, Gp0 by congruence. simpl. unfold idc. rewrite !option_map_id'.
    rewrite Gc by auto. specialize (Hc v Hv). unfold number.
    destruct (c v); simpl; auto. destruct (vget degrees v); simpl; auto. exfalso. apply Hc; auto. }
  assert (Pn : forall v, v < N -> c v = true -> rb (number t v) = true).
  { intros v Hv Hcv. apply pos_true. specialize (Hc v Hv Hcv). unfold number.
    destruct (vget degrees v) eqn:E; [|congruence]. apply pos_draw. eapply Pd; eauto. }
  destruct (mxv_ok (rmax rlt) (fun (_ : T) (p : R) => p) (fun (p : R) (_ : T) => p) btrue idc
              (NoAcc idc) (MVal (mcand s)) REPLACE (mnmax s) (Mat G) prob)
    as (nm & -> & Wnm & Snm & Gnm).
  { apply Wn. } { exact WG. } { apply wfv_wfvn; auto. } { apply Wc. }
  { simpl; congruence. } { simpl; congruence. } { simpl; congruence. } { exact Logic.I. }
  cbn [bind].
  assert (Gm : forall v, v < N -> vget nm v =
    if c v then osum (rmax rlt) (map (fun k => if e v k && c k then Some (number t k) else None) (seq 0 N))
    else None).
  { intros v Hv. rewrite Gnm by congruence. simpl. unfold spec_write. rewrite Gc by auto.
    destruct (c v); [|reflexivity]. simpl. unfold idc, smulv. rewrite !option_map_id'. rewrite CG.
    f_equal. apply map_ext_in. intros k Hk. apply in_seq in Hk. rewrite Gp by lia. unfold e, edge.
    destruct (mget G v k), (c k); reflexivity. }
  destruct (eWiseAdd_v_ok (rgt rlt) rb rb btrue idc (NoAcc idc) vnomask MERGE (mnew s) prob nm)
    as (n1 & -> & Wn1 & Sn1 & Gn1).
  { apply Ww. } { apply wfv_wfvn; auto. } { apply wfv_wfvn; auto. } { exact Logic.I. }
  { split; [exact Logic.I|]. split; congruence. }
  cbn [bind].
  assert (Gs : forall v, v < N -> vget n1 v = if c v then Some (selected t c v) else None).
  { intros v Hv. rewrite Gn1 by congruence. simpl. unfold idc. rewrite !option_map_id'.
    rewrite Gp, Gm by auto. destruct (c v) eqn:Ev; [|reflexivity].
    pose proof (osum_rmax (map (fun k => if e v k && c k then Some (number t k) else None) (seq 0 N))) as M.
    destruct (osum (rmax rlt) _) as [m|]; simpl; f_equal.
    - destruct M as (M1 & M2). unfold rgt. destruct (rlt m (number t v)) eqn:E; symmetry.
      + apply selected_iff. split; auto. intros k Hk He Hck.
        destruct (lt_cotrans m (number t k) (number t v) E) as [F|F]; auto.
        rewrite M2 in F; [discriminate|]. apply in_map_iff. exists k. rewrite He, Hck.
        split; [reflexivity|apply in_seq; lia].
      + destruct (selected t c v) eqn:F; auto. apply selected_iff in F. destruct F as (_ & F).
        apply in_map_iff in M1. destruct M1 as (k & M1 & Hk). apply in_seq in Hk.
        destruct (e v k) eqn:E1, (c k) eqn:E2; simpl in M1; try discriminate. injection M1 as <-.
        rewrite F in E; auto. lia.
    - rewrite Pn by auto. symmetry. apply selected_iff. split; auto. intros k Hk He Hck.
      exfalso. apply (M (number t k)). apply in_map_iff. exists k. rewrite He, Hck.
      split; [reflexivity|apply in_seq; lia]. }
  destruct (apply_v_ok (@idc bool) btrue idc (NoAcc idc) (MVal n1) REPLACE n1 n1)
    as (nw & -> & Wnw & Snw & Gnw).
  { apply Wn1. } { apply wfv_wfvn; auto. } { apply Wn1. } { split; [simpl; auto|auto]. }
  cbn [bind].
  assert (Fw : flags N nw (selected t c)).
  { split; [auto|]. split; [congruence|]. intros v Hv. rewrite Gnw by congruence. unfold spec_write.
    simpl. rewrite Gs by auto. unfold selected. destruct (c v); [|reflexivity]. simpl.
    destruct (forallb _ _); reflexivity. }
  destruct (eWiseAdd_v_ok orb idc idc btrue idc (NoAcc idc) vnomask MERGE (mset s) (mset s) nw)
    as (is & -> & Wis & Sis & Gis).
  { apply Wi. } { apply wfv_wfvn; auto. } { apply wfv_wfvn; auto. } { exact Logic.I. }
  { destruct Fw as (_ & Q & _). split; [exact Logic.I|]. split; congruence. }
  cbn [bind].
  assert (Fis : flags N is (fun v => i v || selected t c v)).
  { split; [auto|]. split; [congruence|]. intros v Hv. rewrite Gis by congruence. simpl.
    unfold idc. rewrite !option_map_id'. destruct Fw as (_ & _ & Q). rewrite Gi, Q by auto.
    destruct (i v), (selected t c v); reflexivity. }
  destruct (eWiseMult_v_ok andb btrue idc (NoAcc idc) (MComp nw) REPLACE (mcand s) (mcand s) (mcand s))
    as (c1 & -> & Wc1 & Sc1 & Gc1).
  { apply Wc. } { apply wfv_wfvn; auto. } { apply wfv_wfvn; auto. } { apply Wnw. }
  { destruct Fw as (_ & Q & _). split; [simpl; congruence|]. split; congruence. }
  cbn [bind].
  assert (Fc1 : flags N c1 (fun v => c v && negb (selected t c v))).
  { split; [auto|]. split; [congruence|]. intros v Hv. rewrite Gc1 by congruence. unfold spec_write.
    simpl. destruct Fw as (_ & _ & Q). rewrite Q, Gc by auto.
    destruct (selected t c v), (c v); reflexivity. }
  destruct (has_vals (vnvals c1)) eqn:HV; cbn [negb].
  2: { eexists. split; [reflexivity|]. split; [|split; [reflexivity|split; [exact Fis|]]].
       - unfold works. simpl. destruct Fw as (_ & Q & _).
         do 7 (split; [first [assumption|congruence]|]). congruence.
       - simpl mcand. eapply flags_ext; [exact Fc1|]. intros v Hv. unfold remaining.
         rewrite (flags_no_vals N c1 _ Fc1 HV v Hv). reflexivity. }
  destruct (mxv_ok orb (fun (a : T) (b : bool) => tb a && b) (fun (b : bool) (a : T) => b && tb a)
              btrue idc (NoAcc idc) (MVal c1) MERGE (mnbrs s) (Mat G) nw)
    as (nb & -> & Wnb & Snb & Gnb).
  { apply Wb. } { exact WG. } { apply wfv_wfvn; auto. } { apply Wc1. }
  { simpl; congruence. } { simpl; congruence. } { simpl; destruct Fw as (_ & Q & _); congruence. }
  { exact Logic.I. }
  cbn [bind].
  assert (Gb : forall v, v < N -> (c v && negb (selected t c v)) = true ->
    otrue btrue (vget nb v) = existsb (fun k => e v k && selected t c k) (seq 0 N)).
  { intros v Hv Hcv. destruct Fc1 as (_ & _ & Q1). destruct Fw as (_ & _ & Q2).
    rewrite Gnb by congruence. unfold spec_write. simpl. rewrite Q1, Hcv by auto. simpl.
    unfold idc, smulv. rewrite !option_map_id'. rewrite CG. simpl sview.
    assert (K : forall l o, (forall k, In k l -> k < N) ->
      otrue btrue (fold_left (oadd orb)
        (map (fun k => omap2 (fun (a : T) (b : bool) => tb a && b) (mget G v k) (vget nw k)) l) o) =
      otrue btrue o || existsb (fun k => e v k && selected t c k) l).
    { induction l as [|k l IH]; intros o Hl; simpl.
      - rewrite orb_false_r. reflexivity.
      - rewrite IH by (intros; apply Hl; simpl; auto). rewrite Q2 by (apply Hl; simpl; auto).
        unfold e, edge. destruct (mget G v k) as [a|] eqn:Ea; simpl.
        + rewrite (true_edges _ _ _ Ea). destruct (selected t c k), o as [[|]|]; reflexivity.
        + destruct o; reflexivity. }
    unfold osum. rewrite K; [reflexivity|]. intros k Hk. apply in_seq in Hk. lia. }
  destruct (eWiseMult_v_ok andb btrue idc (NoAcc idc) (MComp nb) REPLACE c1 c1 c1)
    as (c2 & -> & Wc2 & Sc2 & Gc2).
  { apply Wc1. } { apply wfv_wfvn; auto. } { apply wfv_wfvn; auto. } { apply Wnb. }
  { split; [simpl; congruence|]. split; congruence. }
  cbn [bind]. eexists. split; [reflexivity|].
  split; [|split; [reflexivity|split; [exact Fis|]]].
  - unfold works. simpl. destruct Fw as (_ & Q & _).
    do 7 (split; [first [assumption|congruence]|]). congruence.
  - simpl mcand. split; [auto|]. split; [congruence|]. intros v Hv. rewrite Gc2 by congruence.
    unfold spec_write. simpl. destruct Fc1 as (_ & _ & Q1). rewrite Q1 by auto. unfold remaining.
    specialize (Gb v Hv). fold t in Gb |- *.
    destruct (c v && negb (selected t c v)) eqn:E.
    + rewrite Gb by auto. destruct (existsb _ _); reflexivity.
    + simpl. destruct (negb (otrue btrue (vget nb v))); reflexivity.
Qed.

(** The sets during the loop: [c] still in play, [i] selected. *)
Definition mis_sets (c i : nat -> bool) : Prop :=
  (forall u v, u < N -> v < N -> i u = true -> i v = true -> e u v = false) /\
  (forall u v, u < N -> v < N -> c u = true -> i v = true -> e u v = false) /\
  (forall v, v < N -> i v = true \/ c v = true \/ exists u, u < N /\ i u = true /\ e v u = true).

Lemma mis_sets_step t c i :
  mis_sets c i -> mis_sets (remaining t c) (fun v => i v || selected t c v).
Proof.
  intros (I1 & I2 & I3).
  assert (S1 : forall u v, u < N -> v < N -> selected t c u = true -> selected t c v = true -> e u v = false).
  { intros u v Hu Hv Su Sv. destruct (e u v) eqn:E; auto.
    apply selected_iff in Su. destruct Su as (Cu & Su). apply selected_iff in Sv. destruct Sv as (Cv & Sv).
    specialize (Su v Hv E Cv). unfold e in *. rewrite sym in E. specialize (Sv u Hu E Cu).
    rewrite (lt_asym _ _ Su) in Sv. discriminate. }
  assert (Sc : forall v, selected t c v = true -> c v = true).
  { intros v Hs. apply selected_iff in Hs. tauto. }
  split; [|split].
  - intros u v Hu Hv Au Av. apply orb_true_iff in Au. apply orb_true_iff in Av.
    destruct Au as [Au|Au], Av as [Av|Av]; auto.
    unfold e. rewrite sym. apply I2; auto.
  - intros u v Hu Hv Ru Av. unfold remaining in Ru.
    apply andb_true_iff in Ru. destruct Ru as (Ru & Rx). apply andb_true_iff in Ru.
    destruct Ru as (Cu & Nu). apply orb_true_iff in Av. destruct Av as [Av|Av]; auto.
    destruct (e u v) eqn:E; auto. apply negb_true_iff in Rx.
    assert (existsb (fun k => e u k && selected t c k) (seq 0 N) = true); [|congruence].
    apply existsb_exists. exists v. rewrite E, Av. split; [apply in_seq; lia|auto].
  - intros v Hv. destruct (I3 v Hv) as [H|[H|(u & Hu & H1 & H2)]].
    + left. rewrite H. auto.
    + destruct (selected t c v) eqn:Sv; [left; apply orb_true_r|].
      destruct (existsb (fun k => e v k && selected t c k) (seq 0 N)) eqn:X.
      * right. right. apply existsb_exists in X. destruct X as (k & Hk & X). apply in_seq in Hk.
        apply andb_true_iff in X. exists k. destruct X as (X1 & X2). rewrite X2, orb_true_r.
        split; [lia|auto].
      * right. left. unfold remaining. rewrite H, Sv, X. reflexivity.
    + right. right. exists u. rewrite H1. auto.
Qed.

Definition mis_inv (s : @mis_state R) : Prop :=
  works s /\ exists c i, flags N (mcand s) c /\ flags N (mset s) i /\ mis_sets c i /\
    forall v, v < N -> c v = true -> vget degrees v <> None.

Lemma mis_inv_step s :
  mis_inv s -> exists s', mis_body tb rlt rb draw G degrees s = Ok s' /\ mis_inv s'.
Proof.
  intros (Ws & c & i & Fc & Fi & M & Hd).
  destruct (mis_step s c i Ws Fc Fi Hd) as (s' & E & Ws' & _ & Fi' & Fc').
  exists s'. split; [exact E|]. split; [exact Ws'|].
  exists (remaining (miter s) c), (fun v => i v || selected (miter s) c v).
  split; [auto|]. split; [auto|]. split; [apply mis_sets_step; auto|].
  intros v Hv Hr. apply Hd; auto. unfold remaining in Hr. destruct (c v); [auto|discriminate].
Qed.

(** ** The end of the loop when no two neighbours draw the same number *)
Hypothesis no_ties : forall t u v du dv, e u v = true -> pos du -> pos dv ->
  rlt (draw t u du) (draw t v dv) = true \/ rlt (draw t v dv) (draw t u du) = true.

Lemma exists_max (f : nat -> R) l :
  l <> [] -> exists v, In v l /\ forall k, In k l -> rlt (f v) (f k) = false.
Proof.
  induction l as [|x l IH]; [congruence|]. intros _. destruct l as [|y l].
  - exists x. split; [simpl; auto|]. intros k [<-|[]]. apply lt_irr.
  - destruct IH as (v & Hv & Hm); [discriminate|]. destruct (rlt (f v) (f x)) eqn:E.
    + exists x. split; [simpl; auto|]. intros k [<-|Hk]; [apply lt_irr|].
      destruct (rlt (f x) (f k)) eqn:F; auto. specialize (Hm k Hk).
      destruct (lt_cotrans (f v) (f k) (f x) E); [congruence|].
      rewrite (lt_asym (f x) (f k)) in H; auto.
    + exists v. split; [simpl in *; auto|]. intros k [<-|Hk]; auto.
Qed.

Lemma progress t c :
  (forall v, v < N -> c v = true -> vget degrees v <> None) ->
  (exists v, v < N /\ c v = true) ->
  exists v, v < N /\ selected t c v = true.
Proof.
  intros Hd (v0 & Hv0 & Hc0).
  destruct (exists_max (number t) (filter c (seq 0 N))) as (v & Hv & Hm).
  { intro E. assert (In v0 (filter c (seq 0 N))) by (apply filter_In; split; [apply in_seq; lia|auto]).
    rewrite E in H. destruct H. }
  apply filter_In in Hv. destruct Hv as (Hv & Cv). apply in_seq in Hv. exists v. split; [lia|].
  apply selected_iff. split; auto. intros k Hk He Ck.
  assert (F : rlt (number t v) (number t k) = false).
  { apply Hm. apply filter_In. split; [apply in_seq; lia|auto]. }
  assert (Dv := Hd v ltac:(lia) Cv). assert (Dk := Hd k Hk Ck). unfold number in *.
  destruct (vget degrees v) as [dv|] eqn:Ev; [|congruence].
  destruct (vget degrees k) as [dk|] eqn:Ek; [|congruence].
  destruct (no_ties t v k dv dk He); eauto; congruence.
Qed.

End Step.

(** ** The whole algorithm *)
Lemma ofold_pos l :
  (forall x, In (Some x) l -> pos (tr x)) ->
  match ofold tr (fun s x => rplus s (tr x)) l with
  | Some d => pos d
  | None => forall x, ~ In (Some x) l
  end.
Proof.
  intro H. unfold ofold.
  assert (K : forall l o, (forall x, In (Some x) l -> pos (tr x)) ->
    (match o with Some d => pos d | None => True end) ->
    match fold_left (fun acc x => match acc, x with
                            | None, Some v => Some (tr v)
                            | Some a, Some v => Some (rplus a (tr v))
                            | _, None => acc
                            end) l o with
    | Some d => pos d
    | None => o = None /\ forall x, ~ In (Some x) l
    end).
  { clear l H. induction l as [|y l IH]; intros o H Ho; simpl.
    - destruct o; auto.
    - match goal with |- match fold_left ?f l ?o1 with _ => _ end =>
        assert (Q : match o1 with Some d => pos d | None => o = None /\ y = None end) end.
      { destruct o, y; simpl in *; auto. }
      match goal with |- match fold_left ?f l ?o1 with _ => _ end => specialize (IH o1) end.
      destruct (fold_left _ l _) as [d|].
      + apply IH; [intros; apply H; simpl; auto|]. destruct o, y; auto.
      + destruct IH as (I1 & I2); [intros; apply H; simpl; auto| |].
        { destruct o, y; auto. }
        rewrite I1 in Q. destruct Q as (-> & ->). split; auto. intros x [X|X]; [discriminate|].
        eapply I2; eauto. }
  specialize (K l None H Logic.I). destruct (fold_left _ l None); [auto|apply K].
Qed.

Definition in_set (w : bvec bool) (v : nat) : Prop := vget w v = Some true.

Lemma mis_end degrees s :
  mis_inv degrees s -> has_vals (vnvals (mcand s)) = false ->
  wfv (mset s) /\ vsize (mset s) = N /\ (forall v x, vget (mset s) v = Some x -> x = true) /\
  maximal_independent N e (in_set (mset s)).
Proof.
  intros (_ & c & i & Fc & Fi & (I1 & I2 & I3) & _) H.
  pose proof (flags_no_vals _ _ _ Fc H) as C0. destruct Fi as (Wi & Si & Gi).
  assert (B : forall v x, vget (mset s) v = Some x -> v < N).
  { intros v x Hx. destruct (Nat.lt_ge_cases v N); auto. rewrite vget_oob in Hx; [discriminate|apply Wi|lia]. }
  assert (In_i : forall v, in_set (mset s) v <-> v < N /\ i v = true).
  { intro v. unfold in_set. split.
    - intro E. assert (Hv := B _ _ E). split; auto. rewrite Gi in E by auto. destruct (i v); auto; discriminate.
    - intros (Hv & E). rewrite Gi, E by auto. reflexivity. }
  split; [auto|]. split; [auto|]. split.
  { intros v x E. assert (Hv := B _ _ E). rewrite Gi in E by auto. destruct (i v); congruence. }
  split; [intros v Hv; apply In_i in Hv; tauto|]. split.
  - intros u v Hu Hv. apply In_i in Hu. apply In_i in Hv. apply I1; tauto.
  - intros v Hv Hn. destruct (I3 v Hv) as [K|[K|(u & Hu & K1 & K2)]].
    + exfalso. apply Hn. apply In_i. auto.
    + rewrite C0 in K by auto. discriminate.
    + exists u. split; auto. apply In_i. auto.
Qed.

Lemma degrees_pos (dg : bvec R) :
  wfv dg -> vsize dg = N ->
  (forall v, v < N -> vget dg v = ofold tr (fun s x => rplus s (tr x)) (map (mget G v) (seq 0 N))) ->
  (forall v d, vget dg v = Some d -> pos d) /\
  (forall v, v < N -> vget dg v = None -> forall k, k < N -> e v k = false).
Proof.
  intros Wd Sd Gd'.
  assert (Pg : forall v x, In (Some x) (map (mget G v) (seq 0 N)) -> pos (tr x)).
  { intros v x Hx. apply in_map_iff in Hx. destruct Hx as (k & Hk & _). eapply pos_edge; eauto. }
  split.
  - intros v d E. destruct (Nat.lt_ge_cases v N) as [Hv|Hv].
    + rewrite Gd' in E by auto. pose proof (ofold_pos _ (Pg v)) as K. rewrite E in K. exact K.
    + rewrite vget_oob in E; [discriminate|apply Wd|lia].
  - intros v Hv E k Hk. rewrite Gd' in E by auto. pose proof (ofold_pos _ (Pg v)) as K. rewrite E in K.
    unfold e, edge. destruct (mget G v k) as [a|] eqn:Ea; auto. exfalso. apply (K a).
    apply in_map_iff. exists k. split; auto. apply in_seq. lia.
Qed.

(** The state before the loop, whatever computed it. *)
Lemma mis_start_inv (dg : bvec R) (cd is' : bvec bool) (w0 : bvec R) (b0 : bvec bool) :
  wfv dg -> vsize dg = N ->
  (forall v, v < N -> vget dg v = ofold tr (fun s x => rplus s (tr x)) (map (mget G v) (seq 0 N))) ->
  wfv w0 -> vsize w0 = N -> wfv b0 -> vsize b0 = N ->
  flags N cd (fun v => is_some (vget dg v)) -> flags N is' (fun v => negb (is_some (vget dg v))) ->
  mis_inv dg (mkMis cd is' w0 w0 b0 b0 0).
Proof.
  intros Wd Sd Gd' W0 S0 B0 SB0 Fc Fi. destruct (degrees_pos dg Wd Sd Gd') as [Pd Nd].
  split; [repeat split; simpl; try apply W0; try apply B0; try congruence; auto|].
  exists (fun v => is_some (vget dg v)), (fun v => negb (is_some (vget dg v))).
  split; [exact Fc|]. split; [exact Fi|]. split.
  - split; [|split].
    + intros u v Hu Hv Eu _. apply Nd; auto. destruct (vget dg u); [discriminate|auto].
    + intros u v Hu Hv _ Ev. unfold e. rewrite sym. apply Nd; auto. destruct (vget dg v); [discriminate|auto].
    + intros v Hv. destruct (vget dg v); simpl; auto.
  - intros v Hv E. destruct (vget dg v); [discriminate|discriminate].
Qed.

Lemma mis_start (is : bvec bool) :
  N <> 0 -> wfv0 is -> vsize is = N ->
  exists degrees s, 
    wfv degrees /\ vsize degrees = N /\ (forall v d, vget degrees v = Some d -> pos d) /\
    mis_inv degrees s /\
    forall n, mis tb tr r0 rplus rlt rb draw n G is =
      bind (mwhile n (fun s => has_vals (vnvals (mcand s))) (mis_body tb rlt rb draw G degrees) s)
        (fun s => match s with Some s => Ok (Some (mset s)) | None => Ok None end).
Proof.
  intros HN Wi Si. unfold mis. rewrite RG, CG, Si, Nat.eqb_refl. cbn [negb orb].
  destruct (vec_new_ok r0 N HN) as (w0 & -> & W0 & S0 & G0). cbn [bind].
  destruct (vec_new_ok false N HN) as (b0 & -> & B0 & SB0 & GB0). cbn [bind].
  destruct (reduce_ok tr (fun x y => rplus (tr x) (tr y)) (fun s x => rplus s (tr x)) btrue idc
              (Acc rplus idc idc) vnomask MERGE w0 (Mat G)) as (dg & -> & Wd & Sd & Gd).
  { reflexivity. } { apply W0. } { exact WG. } { exact Logic.I. }
  { split; [exact Logic.I|]. simpl. congruence. }
  cbn [bind].
  assert (Gd' : forall v, v < N -> vget dg v =
    ofold tr (fun s x => rplus s (tr x)) (map (mget G v) (seq 0 N))).
  { intros v Hv. rewrite Gd by lia. simpl. rewrite G0, CG. unfold idc.
    change (fun j => mget G v j) with (mget G v). destruct (ofold _ _ _); reflexivity. }
  destruct (degrees_pos dg Wd ltac:(congruence) Gd') as [Pd Nd].
  destruct (assign_const_v_ok rb idc idc (NoAcc idc) (MVal dg) REPLACE b0 true AllIdx)
    as (cd & -> & Wc & Sc & Gc).
  { apply B0. } { apply Wd. } { repeat split; simpl; congruence. } { exact Logic.I. }
  cbn [bind].
  destruct (assign_const_v_ok rb idc idc (NoAcc idc) (MComp dg) REPLACE is true AllIdx)
    as (is' & -> & Wis & Sis & Gis).
  { apply Wi. } { apply Wd. } { repeat split; simpl; congruence. } { exact Logic.I. }
  cbn [bind].
  assert (IN : forall v, v < N -> in_idx AllIdx (idx_count AllIdx N) v = true).
  { intros v Hv. apply in_idx_all. exact Hv. }
  exists dg, (mkMis cd is' w0 w0 b0 b0 0).
  split; [assumption|]. split; [congruence|]. split; [assumption|]. split; [|intro n; reflexivity].
  apply mis_start_inv; auto; try congruence.
  - split; [exact Wc|]. split; [simpl; congruence|]. intros v Hv. rewrite Gc by lia.
    rewrite SB0, IN by auto. unfold spec_write. simpl. destruct (vget dg v) as [d|] eqn:E; simpl; auto.
    rewrite (pos_true d) by eauto. reflexivity.
  - split; [exact Wis|]. split; [simpl; congruence|]. intros v Hv. rewrite Gis by lia.
    rewrite Si, IN by auto. unfold spec_write. simpl. destruct (vget dg v) as [d|] eqn:E; simpl; auto.
    rewrite (pos_true d) by eauto. reflexivity.
Qed.

(** What follows for anything that starts like this. *)
Definition starts (f : nat -> res (option (bvec bool))) : Prop :=
  exists degrees s,
    wfv degrees /\ vsize degrees = N /\ (forall v d, vget degrees v = Some d -> pos d) /\
    mis_inv degrees s /\
    forall n, f n =
      bind (mwhile n (fun s => has_vals (vnvals (mcand s))) (mis_body tb rlt rb draw G degrees) s)
        (fun s => match s with Some s => Ok (Some (mset s)) | None => Ok None end).

Lemma starts_ok f n : starts f ->
  exists o, f n = Ok o /\
    forall r, o = Some r ->
      wfv r /\ vsize r = N /\ (forall v x, vget r v = Some x -> x = true) /\
      maximal_independent N e (in_set r).
Proof.
  intros (dg & s & Wd & Sd & Pd & I & E). rewrite E.
  destruct (mwhile_partial (fun s => has_vals (vnvals (mcand s))) (mis_body tb rlt rb draw G dg)
              (mis_inv dg)) with (n := n) (s := s) as (o & -> & Ho); auto.
  { intros s1 I1 _. apply mis_inv_step; auto. }
  cbn [bind]. destruct o as [s'|].
  - exists (Some (mset s')). split; [reflexivity|]. intros r Hr. injection Hr as <-.
    destruct (Ho s' eq_refl) as (I' & C'). eapply mis_end; eauto.
  - exists None. split; [reflexivity|discriminate].
Qed.

Lemma starts_terminates f n : starts f -> N < n ->
  (forall t u v du dv, e u v = true -> pos du -> pos dv ->
     rlt (draw t u du) (draw t v dv) = true \/ rlt (draw t v dv) (draw t u du) = true) ->
  exists r, f n = Ok (Some r).
Proof.
  intros (dg & s & Wd & Sd & Pd & I & E) Hn NT. rewrite E.
  destruct (mwhile_inv (fun s => has_vals (vnvals (mcand s))) (mis_body tb rlt rb draw G dg)
    (fun k s => works s /\ exists c i, flags N (mcand s) c /\ flags N (mset s) i /\
      (forall v, v < N -> c v = true -> vget dg v <> None) /\
      k + length (filter c (seq 0 N)) <= N) N) with (n := n) (k := 0) (s := s)
    as (k' & s' & -> & _ & _).
  - intros k s1 (Ws & c & i & Fc & Fi & Hd & L) C.
    destruct (has_vals_v (mcand s1)) as (v & Hv & Gv); [apply Fc|exact C|].
    destruct Fc as (Wc & Sc & Gc). rewrite Sc in Hv. rewrite Gc in Gv by auto.
    assert (Cv : c v = true) by (destruct (c v); congruence).
    destruct (progress dg Sd Pd NT (miter s1) c Hd) as (w & Hw & Sw); [eauto|].
    assert (SH : S (length (filter (remaining dg (miter s1) c) (seq 0 N))) <= length (filter c (seq 0 N))).
    { apply (filter_shrinks c (remaining dg (miter s1) c) (seq 0 N) w).
      - intros x Hx. unfold remaining in Hx. destruct (c x); [auto|discriminate].
      - apply in_seq. lia.
      - unfold selected in Sw. destruct (c w); [auto|discriminate].
      - unfold remaining. rewrite Sw. simpl. rewrite andb_false_r. reflexivity. }
    split; [lia|].
    destruct (mis_step dg Wd Sd Pd s1 c i Ws) as (s2 & E2 & Ws' & _ & Fi' & Fc'); auto.
    { split; auto. }
    exists s2. split; [exact E2|]. split; [exact Ws'|]. do 2 eexists. split; [exact Fc'|].
    split; [exact Fi'|]. split; [|lia].
    intros x Hx Hr. apply Hd; auto. unfold remaining in Hr. destruct (c x); [auto|discriminate].
  - destruct I as (Ws & c & i & Fc & Fi & _ & Hd). split; auto. exists c, i.
    do 3 (split; [auto|]).
    assert (forall l : list nat, length (filter c l) <= length l).
    { induction l; simpl; auto. destruct (c a); simpl; lia. }
    specialize (H (seq 0 N)). rewrite seq_length in H. lia.
  - lia.
  - lia.
  - cbn [bind]. eauto.
Qed.

Theorem mis_ok n is :
  N <> 0 -> wfv0 is -> vsize is = N ->
  exists o, mis tb tr r0 rplus rlt rb draw n G is = Ok o /\
    forall r, o = Some r ->
      wfv r /\ vsize r = N /\ (forall v x, vget r v = Some x -> x = true) /\
      maximal_independent N e (in_set r).
Proof. intros HN Wi Si. apply (starts_ok (fun n => mis tb tr r0 rplus rlt rb draw n G is)). apply mis_start; auto. Qed.

Theorem mis_terminates n is :
  N <> 0 -> wfv0 is -> vsize is = N -> N < n ->
  (forall t u v du dv, e u v = true -> pos du -> pos dv ->
     rlt (draw t u du) (draw t v dv) = true \/ rlt (draw t v dv) (draw t u du) = true) ->
  exists r, mis tb tr r0 rplus rlt rb draw n G is = Ok (Some r).
Proof. intros HN Wi Si. apply (starts_terminates (fun n => mis tb tr r0 rplus rlt rb draw n G is)). apply mis_start; auto. Qed.
End Mis.

Theorem get_vertex_IDs_ok {T} (w : bvec T) :
  wfv w -> get_vertex_IDs w = Ok (filter (fun v => is_some (vget w v)) (seq 0 (vsize w))).
Proof.
  intros [W C]. unfold get_vertex_IDs, vec_extractTuples.
  destruct (getContents_ok w W) as (c & -> & Wc & Gc). cbn [bind].
  assert (E : map fst c = filter (fun v => is_some (vget w v)) (seq 0 (vsize w))).
  { rewrite (filter_ext (fun v => is_some (vget w v)) (fun v => is_some (rget c v)))
      by (intro; rewrite Gc; reflexivity).
    revert Wc. clear. generalize (vsize w) as n.
    assert (K : forall n lo (r : row T), wfrow lo (lo + n) r ->
      map fst r = filter (fun v => is_some (rget r v)) (seq lo n)).
    { induction n; intros lo r Wr.
      - destruct r as [|[j v] r]; [reflexivity|]. simpl in Wr. lia.
      - destruct r as [|[j v] r]; simpl.
        + assert (Q : forall m l, filter (fun _ : nat => false) (seq l m) = []) by
            (induction m; intros; simpl; auto).
          symmetry. apply (Q n (S lo)).
        + destruct (Nat.eqb_spec j lo).
          * subst. simpl. f_equal. simpl in Wr. destruct Wr as (_ & Wr).
            replace (lo + S n) with (S lo + n) in Wr by lia. rewrite (IHn (S lo) r Wr).
            apply filter_ext_in. intros x Hx. apply in_seq in Hx.
            destruct (Nat.eqb_spec lo x); [lia|reflexivity].
          * assert (Wr' : wfrow (S lo) (S lo + n) ((j, v) :: r)).
            { simpl in *. replace (S (lo + n)) with (lo + S n) by lia. destruct Wr as (? & ?).
              split; [lia|auto]. }
            replace (is_some (rget r lo)) with false.
            2: { simpl in Wr. destruct Wr as (Hj & Wr).
                 rewrite (rget_lt r (S j) (lo + S n) lo) by (auto; lia). reflexivity. }
            apply (IHn (S lo) ((j, v) :: r) Wr'). }
    intros n Wr. apply (K n 0 c). exact Wr. }
  assert (L : Z.of_nat (length c) = vnvals w).
  { rewrite C. unfold vcount. rewrite <- E, map_length. reflexivity. }
  rewrite <- L, Z.leb_refl, Nat2Z.id, Nat.sub_diag. simpl. rewrite app_nil_r, E. reflexivity.
Qed.
