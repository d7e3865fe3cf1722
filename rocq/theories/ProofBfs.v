(** Breadth first search computes distances and parents. *)
From Coq Require Import Lia.
From Verif Require Import Base ModelLil ModelVec ModelHelpers ModelViews ModelMul ModelElem
  ModelIndex ModelAlgoBase ModelBfs Spec SpecOps SpecIndex SpecGraph ProofBase ProofRow ProofLil ProofVec ProofViews
  ProofMul ProofElem ProofReduce ProofUtils ProofIndex ProofAssign ProofAssignRC ProofGraph.

Lemma is_some_true {X} (o : option X) : is_some o = true <-> o <> None.
Proof. destruct o; simpl; split; congruence. Qed.

Lemma osum_map_some {X} (op : X -> X -> X) f n :
  is_some (osum op (map f (seq 0 n))) = true <-> exists k, k < n /\ f k <> None.
Proof.
  rewrite is_some_true. split.
  - intro H.
    assert (D : forall m, (exists k, k < m /\ f k <> None) \/ forall k, k < m -> f k = None).
    { induction m as [|m [(k & Hk & Hf)|Hm]].
      - right; intros; lia.
      - left; exists k; split; [lia|auto].
      - destruct (f m) eqn:E.
        + left. exists m. split; [lia|congruence].
        + right. intros k Hk. assert (k = m \/ k < m) as [->|] by lia; auto. }
    destruct (D n) as [|Hn]; auto. exfalso. apply H. apply osum_none_iff.
    intros x Hx. apply in_map_iff in Hx. destruct Hx as (k & <- & Hk). apply in_seq in Hk.
    apply Hn; lia.
  - intros (k & Hk & Hf) E. apply Hf. rewrite osum_none_iff in E. apply E.
    apply in_map_iff. exists k. split; auto. apply in_seq. lia.
Qed.

Lemma edge_bound {T} (G : lil T) N : wfm G -> nrows G = N -> ncols G = N ->
  forall u v, edge G u v = true -> u < N /\ v < N.
Proof.
  intros W R C u v H. unfold edge in H. apply is_some_true in H.
  split; apply Nat.nle_gt; intro L; apply H; apply mget_oob; auto; lia.
Qed.

Lemma in_idx_all n i : i < n -> in_idx AllIdx n i = true.
Proof.
  intro H. unfold in_idx, pos. apply is_some_true. intro E.
  assert (K := find_none _ _ E i). cbn [sel] in K.
  rewrite Nat.eqb_refl in K. enough (true = false) by discriminate. apply K. apply in_seq. lia.
Qed.

Section Levels.
Context {T : Type} (tb : T -> bool) (G : lil T) (N : nat).
Hypothesis WG : wfm G.
Hypothesis RG : nrows G = N.
Hypothesis CG : ncols G = N.
(** Every stored value means "edge". *)
Hypothesis TG : forall i j v, mget G i j = Some v -> tb v = true.

Section Roots.
Variable R : nat -> Prop.
Hypothesis R_bound : forall v, R v -> v < N.
Hypothesis R_dec : forall v, R v \/ ~ R v.

(** One step on the denotations: [W] the wavefront with value [one], [L] the levels. *)
Lemma level_step0 {A} (one : A) k (W : nat -> option A) (L : nat -> option nat)
    (op : A -> A -> A) (mul : A -> T -> A) W' L' :
  op one one = one -> (forall g, tb g = true -> mul one g = one) ->
  (forall v x, W v = Some x -> x = one) ->
  frontier N (edge G) R k (fun v => is_some (W v)) -> levels_upto N (edge G) R k L ->
  (forall v, v < N -> L' v = if is_some (W v) then Some (S k) else L v) ->
  (forall v, v < N -> W' v =
     if negb (otrue ntrue (L' v))
     then osum op (map (fun u => omap2 mul (W u) (mget G u v)) (seq 0 N)) else None) ->
  (forall v x, v < N -> W' v = Some x -> x = one) /\
  frontier N (edge G) R (S k) (fun v => is_some (W' v)) /\ levels_upto N (edge G) R (S k) L'.
Proof.
  intros Hop Hmul H1 FW FL HLv HW.
  pose proof (edge_bound G N WG RG CG) as EB.
  assert (FL' : levels_upto N (edge G) R (S k) L').
  { intros v Hv x. rewrite HLv by auto. destruct (is_some (W v)) eqn:E.
    - apply (FW v Hv) in E. split.
      + intro Hx. injection Hx as <-. exists k. auto.
      + intros (d & -> & Hd & Ha). rewrite (at_distance_unique _ _ _ _ _ E Ha). reflexivity.
    - rewrite (FL v Hv). split; intros (d & -> & Hd & Ha); exists d; (split; [auto|split; [|auto]]).
      + lia.
      + assert (d = k \/ d < k) as [->|] by lia; auto. apply (FW v Hv) in Ha. congruence. }
  assert (HT : forall v, v < N -> otrue ntrue (L' v) = is_some (L' v)).
  { intros v Hv. destruct (L' v) as [x|] eqn:E; [|reflexivity]. apply (FL' v Hv) in E.
    destruct E as (d & -> & _). reflexivity. }
  assert (ST : frontier N (edge G) R (S k) (fun v => is_some (W' v)) /\
               visited N (edge G) R (S k) (fun v => is_some (L' v))).
  { apply (frontier_step N (edge G) R EB R_dec k (fun v => is_some (W v))
             (fun v => is_some (L v))); auto.
    - intros v Hv. rewrite is_some_true. split.
      + intro Hl. destruct (L v) as [x|] eqn:E; [|congruence]. apply (FL v Hv) in E.
        destruct E as (d & _ & H). eauto.
      + intros (d & Hd & Ha) E. assert (L v = Some (S d)) by (apply (FL v Hv); eauto). congruence.
    - intros v Hv. rewrite HLv by auto. destruct (is_some (W v)), (L v); reflexivity.
    - intros v Hv. rewrite HW by auto. rewrite HT by auto. destruct (is_some (L' v)) eqn:E; simpl.
      + split; [discriminate|intros [? _]; discriminate].
      + rewrite osum_map_some. unfold edge. split.
        * intros (u & Hu & Ho). split; [reflexivity|]. exists u. split; [auto|].
          destruct (W u), (mget G u v); simpl in *; try congruence. auto.
        * intros (_ & u & Hu & Hw & He). exists u. split; [auto|].
          destruct (W u), (mget G u v); simpl in *; congruence. }
  destruct ST as [ST _]. split; [|auto]. intros v x Hv E. rewrite HW in E by auto.
  destruct (negb _); [|discriminate].
  apply (osum_closed op (fun y => y = one)) in E; auto.
  - intros a b -> ->. exact Hop.
  - intros y Hy. apply in_map_iff in Hy. destruct Hy as (u & Eu & _).
    destruct (W u) as [a|] eqn:Ew, (mget G u v) as [g|] eqn:Eg; try discriminate.
    simpl in Eu. injection Eu as <-. rewrite (H1 u a Ew). apply Hmul. eapply TG; eauto.
Qed.

Lemma level_step {A} (one : A) k (W : nat -> option A) (L : nat -> option nat)
    (f : A -> nat) (op : A -> A -> A) (mul : A -> T -> A) W' L' :
  f one = S k -> op one one = one -> (forall g, tb g = true -> mul one g = one) ->
  (forall v x, W v = Some x -> x = one) ->
  frontier N (edge G) R k (fun v => is_some (W v)) -> levels_upto N (edge G) R k L ->
  (forall v, v < N -> L' v = ounion Nat.add idc idc (L v) (option_map f (W v))) ->
  (forall v, v < N -> W' v =
     if negb (otrue ntrue (L' v))
     then osum op (map (fun u => omap2 mul (W u) (mget G u v)) (seq 0 N)) else None) ->
  (forall v x, v < N -> W' v = Some x -> x = one) /\
  frontier N (edge G) R (S k) (fun v => is_some (W' v)) /\ levels_upto N (edge G) R (S k) L'.
Proof.
  intros Hf Hop Hmul H1 FW FL HL HW.
  assert (HLv : forall v, v < N -> L' v = if is_some (W v) then Some (S k) else L v).
  { intros v Hv. rewrite HL by auto. destruct (W v) as [x|] eqn:E; simpl.
    - rewrite (H1 v x E). rewrite Hf. destruct (L v) as [l|] eqn:El; [|reflexivity].
      exfalso. apply (FL v Hv) in El. destruct El as (d & _ & Hd & Ha).
      assert (Hw : is_some (W v) = true) by (rewrite E; reflexivity).
      apply (FW v Hv) in Hw.
      pose proof (at_distance_unique (edge G) R d k v Ha Hw). lia.
    - destruct (L v); reflexivity. }
  apply (level_step0 one k W L op mul); auto.
Qed.

(** The levels when the wavefront is empty. *)
Lemma level_end k (W : nat -> bool) (L : nat -> option nat) :
  frontier N (edge G) R k W -> (forall v, v < N -> W v = false) ->
  levels_upto N (edge G) R k L ->
  forall v x, v < N -> (L v = Some x <-> exists d, x = S d /\ at_distance (edge G) R d v).
Proof.
  intros FW HW FL v x Hv. rewrite (FL v Hv). split.
  - intros (d & -> & _ & Ha). eauto.
  - intros (d & -> & Ha). exists d. split; [auto|]. split; [|auto].
    apply (frontier_end N (edge G) R (edge_bound G N WG RG CG) R_bound k d v); auto.
    intros u Hu Hu'. apply (FW u Hu) in Hu'. rewrite HW in Hu'; auto. discriminate.
Qed.
End Roots.

(** ** bfs_level *)
Definition level_inv source k (s : bvec bool * bvec nat * nat) : Prop :=
  let '(w, l, d) := s in
  d = k /\ wfv w /\ wfv l /\ vsize w = N /\ vsize l = N /\
  (forall v x, vget w v = Some x -> x = true) /\
  frontier N (edge G) (eq source) k (fun v => is_some (vget w v)) /\
  levels_upto N (edge G) (eq source) k (vget l).

Lemma level_body source k s :
  source < N -> level_inv source k s ->
  exists s', bfs_level_body tb G s = Ok s' /\ level_inv source (S k) s'.
Proof.
  intros Hs. destruct s as [[w l] d]. intros (-> & Ww & Wl & Sw & Sl & H1 & FW & FL).
  unfold bfs_level_body.
  destruct (apply_v_ok (fun b : bool => S k * (if b then 1 else 0)) btrue idc
     (Acc Nat.add idc idc) vnomask MERGE l w) as (l' & -> & Wl' & Sl' & Gl').
  { apply Wl. } { apply wfv_wfvn; auto. } { exact Logic.I. }
  { split; [exact Logic.I|congruence]. }
  cbn [bind].
  destruct (mxv_ok orb (fun (a : T) (b : bool) => tb a && b) (fun (b : bool) (a : T) => b && tb a)
              ntrue idc (NoAcc idc) (MComp l') REPLACE w (Trn G) w) as (w' & -> & Ww' & Sw' & Gw').
  { apply Ww. } { exact WG. } { apply wfv_wfvn; auto. } { apply Wl'. }
  { simpl; congruence. } { simpl; congruence. } { simpl; congruence. }
  { intros x y. apply andb_comm. }
  cbn [bind]. exists (w', l', S k). split; [reflexivity|].
  destruct (level_step (eq source) ltac:(intros; lia)
    true k (vget w) (vget l)
    (fun b : bool => S k * (if b then 1 else 0)) orb (fun b g => b && tb g) (vget w') (vget l'))
    as (H1' & FW' & FL'); auto.
  { lia. }
  { intros v Hv. rewrite Gl' by congruence. simpl. unfold idc.
    destruct (ounion _ _ _ _ _); reflexivity. }
  { intros v Hv. rewrite Gw' by congruence. simpl. unfold spec_write, smulv. simpl.
    destruct (negb _); [|reflexivity]. unfold idc. rewrite !option_map_id'. rewrite RG.
    f_equal. apply map_ext. intro u. unfold stran.
    destruct (mget G u v), (vget w u); simpl; auto. f_equal. apply andb_comm. }
  split; [reflexivity|]. split; [auto|]. split; [auto|]. split; [congruence|].
  split; [congruence|]. split; [|auto].
  intros v x E. destruct (Nat.ltb_spec v N); [eauto|].
  rewrite vget_oob in E; [discriminate|apply Ww'|lia].
Qed.

Theorem bfs_level_ok n source (levels : bvec nat) :
  wfv levels -> vsize levels = N -> (forall v, vget levels v = None) -> source < N -> N < n ->
  exists r, bfs_level tb n G source levels = Ok (Some r) /\ wfv r /\ vsize r = N /\
    forall v x, v < N ->
      (vget r v = Some x <-> exists d, x = S d /\ at_distance (edge G) (eq source) d v).
Proof.
  intros Wl Sl El Hs Hn. unfold bfs_level.
  destruct (vec_new_ok false (nrows G)) as (w0 & -> & W0 & S0 & G0); [lia|]. cbn [bind].
  destruct (vec_setElement_ok w0 source true) as (w1 & -> & _ & S1 & _ & G1 & W1);
    [apply W0|lia|]. cbn [bind].
  assert (RB : forall v, source = v -> v < N) by (intros; subst; auto).
  assert (RD : forall v, source = v \/ source <> v) by (intros; lia).
  pose proof (edge_bound G N WG RG CG) as EB.
  destruct (mwhile_inv (fun s => has_vals (vnvals (fst (fst s)))) (bfs_level_body tb G)
              (level_inv source) N) with (n := n) (k := 0) (s := (w1, levels, 0))
    as (k & [[w l] d] & E & I & C).
  - intros k [[w l] d] I C. split; [|apply level_body; auto].
    destruct I as (_ & Ww & _ & Sw & _ & _ & FW & _).
    destruct (has_vals_v w Ww C) as (v & Hv & Hg). rewrite Sw in Hv.
    apply (at_distance_lt N (edge G) (eq source) EB RB k v). apply (FW v Hv).
    apply is_some_true; auto.
  - split; [reflexivity|]. split; [auto|]. split; [auto|]. split; [congruence|].
    split; [auto|]. split.
    { intros v x. rewrite G1, G0. destruct (v =? source); congruence. }
    split.
    + intros v Hv. rewrite G1, G0. rewrite at_distance_0. destruct (Nat.eqb_spec v source); simpl.
      * subst; tauto.
      * split; [discriminate|]. intro; congruence.
    + intros v Hv x. rewrite El. split; [discriminate|]. intros (d & _ & Hd & _). lia.
  - lia.
  - lia.
  - rewrite E. cbn [bind]. exists l.
    destruct I as (_ & Ww & Wl' & Sw & Sl' & _ & FW & FL).
    split; [reflexivity|]. split; [auto|]. split; [auto|]. intros v x Hv.
    apply (level_end (eq source) RB k (fun v => is_some (vget w v)) (vget l)); auto.
    intros u Hu. rewrite (no_vals_v w Ww C). reflexivity.
Qed.

(** ** bfs_level_masked *)
Lemma masked_levels_ok n (roots levels : bvec nat) :
  wfv levels -> vsize levels = N -> (forall v, vget levels v = None) ->
  wfv roots -> vsize roots = N -> (forall v x, vget roots v = Some x -> x = 1) -> N < n ->
  exists r, bfs_level_masked tb n G roots levels = Ok (Some r) /\ wfv r /\ vsize r = N /\
    forall v x, v < N ->
      (vget r v = Some x <->
       exists d, x = S d /\ at_distance (edge G) (fun u => vget roots u <> None) d v).
Proof.
  intros Wl Sl El Wr Sr H1 Hn. unfold bfs_level_masked.
  rewrite RG, CG, Sr, Nat.eqb_refl. cbn [negb orb].
  set (R := fun u => vget roots u <> None).
  assert (RB : forall v, R v -> v < N).
  { intros v Hv. apply Nat.nle_gt; intro L. apply Hv. apply vget_oob; [apply Wr|lia]. }
  assert (RD : forall v, R v \/ ~ R v).
  { intro v. unfold R. destruct (vget roots v); [left|right]; congruence. }
  pose proof (edge_bound G N WG RG CG) as EB.
  set (P := fun k (s : bvec nat * bvec nat * nat) =>
    let '(w, l, d) := s in
    d = k /\ wfv w /\ wfv l /\ vsize w = N /\ vsize l = N /\
    (forall v x, vget w v = Some x -> x = 1) /\
    frontier N (edge G) R k (fun v => is_some (vget w v)) /\
    levels_upto N (edge G) R k (vget l)).
  destruct (mwhile_inv (fun s => has_vals (vnvals (fst (fst s)))) (bfs_masked_body tb G)
              P N) with (n := n) (k := 0) (s := (roots, levels, 0))
    as (k & [[w l] d] & E & I & C).
  - intros k [[w l] d] (-> & Ww & Wl' & Sw & Sl' & Hone & FW & FL) C. split.
    { destruct (has_vals_v w Ww C) as (v & Hv & Hg). rewrite Sw in Hv.
      apply (at_distance_lt N (edge G) R EB RB k v). apply (FW v Hv). apply is_some_true; auto. }
    unfold bfs_masked_body.
    destruct (apply_v_ok (fun x : nat => S k * x) btrue idc
       (Acc Nat.add idc idc) vnomask REPLACE l w) as (l' & -> & Wl2 & Sl2 & Gl2).
    { apply Wl'. } { apply wfv_wfvn; auto. } { exact Logic.I. }
    { split; [exact Logic.I|congruence]. }
    cbn [bind].
    destruct (vxm_ok lor_n (land_n tb) ntrue idc (NoAcc idc) (MComp l') REPLACE w w (Mat G))
      as (w' & -> & Ww' & Sw' & Gw').
    { apply Ww. } { exact WG. } { apply wfv_wfvn; auto. } { apply Wl2. }
    { simpl; congruence. } { simpl; congruence. } { simpl; congruence. }
    cbn [bind]. exists (w', l', S k). split; [reflexivity|].
    destruct (level_step R RD 1 k (vget w) (vget l) (fun x : nat => S k * x) lor_n (land_n tb)
       (vget w') (vget l')) as (H1' & FW' & FL'); auto.
    { lia. }
    { intros g Hg. unfold land_n. rewrite Hg. reflexivity. }
    { intros v Hv. rewrite Gl2 by congruence. simpl. unfold idc.
      destruct (ounion _ _ _ _ _); reflexivity. }
    { intros v Hv. rewrite Gw' by congruence. simpl. unfold spec_write, svmul. simpl.
      destruct (negb _); [|reflexivity]. unfold idc. rewrite !option_map_id'. rewrite RG.
      reflexivity. }
    split; [reflexivity|]. split; [auto|]. split; [auto|]. split; [congruence|].
    split; [congruence|]. split; [|auto].
    intros v x Ex. destruct (Nat.ltb_spec v N); [eauto|].
    rewrite vget_oob in Ex; [discriminate|apply Ww'|lia].
  - split; [reflexivity|]. split; [auto|]. split; [auto|]. split; [auto|]. split; [auto|].
    split; [auto|]. split.
    + intros v Hv. rewrite at_distance_0. apply is_some_true.
    + intros v Hv x. rewrite El. split; [discriminate|]. intros (d & _ & Hd & _). lia.
  - lia.
  - lia.
  - rewrite E. cbn [bind]. exists l.
    destruct I as (_ & Ww & Wl' & Sw & Sl' & _ & FW & FL).
    split; [reflexivity|]. split; [auto|]. split; [auto|]. intros v x Hv.
    apply (level_end R RB k (fun v => is_some (vget w v)) (vget l)); auto.
    intros u Hu. rewrite (no_vals_v w Ww C). reflexivity.
Qed.

(** ** bfs_level_masked_v2 *)
Lemma masked2_levels_ok n (roots levels : bvec nat) :
  wfv levels -> vsize levels = N -> (forall v, vget levels v = None) ->
  wfv roots -> vsize roots = N -> (forall v x, vget roots v = Some x -> x = 1) -> N < n ->
  exists r, bfs_level_masked_v2 tb n G roots levels = Ok (Some r) /\ wfv r /\ vsize r = N /\
    forall v x, v < N ->
      (vget r v = Some x <->
       exists d, x = S d /\ at_distance (edge G) (fun u => vget roots u <> None) d v).
Proof.
  intros Wl Sl El Wr Sr H1 Hn. unfold bfs_level_masked_v2.
  rewrite RG, CG, Sr, Nat.eqb_refl. cbn [negb orb].
  set (R := fun u => vget roots u <> None).
  assert (RB : forall v, R v -> v < N).
  { intros v Hv. apply Nat.nle_gt; intro L. apply Hv. apply vget_oob; [apply Wr|lia]. }
  assert (RD : forall v, R v \/ ~ R v).
  { intro v. unfold R. destruct (vget roots v); [left|right]; congruence. }
  pose proof (edge_bound G N WG RG CG) as EB.
  set (P := fun k (s : bvec nat * bvec nat * nat) =>
    let '(w, l, d) := s in
    d = k /\ wfv w /\ wfv l /\ vsize w = N /\ vsize l = N /\
    (forall v x, vget w v = Some x -> x = 1) /\
    frontier N (edge G) R k (fun v => is_some (vget w v)) /\
    levels_upto N (edge G) R k (vget l)).
  destruct (mwhile_inv (fun s => has_vals (vnvals (fst (fst s)))) (bfs_masked2_body tb G)
              P N) with (n := n) (k := 0) (s := (roots, levels, 0))
    as (k & [[w l] d] & E & I & C).
  - intros k [[w l] d] (-> & Ww & Wl' & Sw & Sl' & Hone & FW & FL) C. split.
    { destruct (has_vals_v w Ww C) as (v & Hv & Hg). rewrite Sw in Hv.
      apply (at_distance_lt N (edge G) R EB RB k v). apply (FW v Hv). apply is_some_true; auto. }
    unfold bfs_masked2_body.
    destruct (assign_const_v_ok ntrue idc idc (NoAcc idc) (MVal w) MERGE l (S k) AllIdx)
      as (l' & -> & Wl2 & Sl2 & Gl2).
    { apply Wl'. } { apply Ww. }
    { split; [simpl; congruence|]. split; exact Logic.I. } { exact Logic.I. }
    cbn [bind].
    destruct (vxm_ok lor_n (land_n tb) ntrue idc (NoAcc idc) (MComp l') REPLACE w w (Mat G))
      as (w' & -> & Ww' & Sw' & Gw').
    { apply Ww. } { exact WG. } { apply wfv_wfvn; auto. } { apply Wl2. }
    { simpl; congruence. } { simpl; congruence. } { simpl; congruence. }
    cbn [bind]. exists (w', l', S k). split; [reflexivity|].
    destruct (level_step0 R RD 1 k (vget w) (vget l) lor_n (land_n tb)
       (vget w') (vget l')) as (H1' & FW' & FL'); auto.
    { intros g Hg. unfold land_n. rewrite Hg. reflexivity. }
    { intros v Hv. rewrite Gl2 by congruence. cbn [vmask_allows idx_count spec_assign].
      rewrite in_idx_all by congruence. unfold spec_write.
      destruct (vget w v) as [x|] eqn:Ew; [|reflexivity]. rewrite (Hone v x Ew). reflexivity. }
    { intros v Hv. rewrite Gw' by congruence. simpl. unfold spec_write, svmul. simpl.
      destruct (negb _); [|reflexivity]. unfold idc. rewrite !option_map_id'. rewrite RG.
      reflexivity. }
    split; [reflexivity|]. split; [auto|]. split; [auto|]. split; [congruence|].
    split; [congruence|]. split; [|auto].
    intros v x Ex. destruct (Nat.ltb_spec v N); [eauto|].
    rewrite vget_oob in Ex; [discriminate|apply Ww'|lia].
  - split; [reflexivity|]. split; [auto|]. split; [auto|]. split; [auto|]. split; [auto|].
    split; [auto|]. split.
    + intros v Hv. rewrite at_distance_0. apply is_some_true.
    + intros v Hv x. rewrite El. split; [discriminate|]. intros (d & _ & Hd & _). lia.
  - lia.
  - lia.
  - rewrite E. cbn [bind]. exists l.
    destruct I as (_ & Ww & Wl' & Sw & Sl' & _ & FW & FL).
    split; [reflexivity|]. split; [auto|]. split; [auto|]. intros v x Hv.
    apply (level_end R RB k (fun v => is_some (vget w v)) (vget l)); auto.
    intros u Hu. rewrite (no_vals_v w Ww C). reflexivity.
Qed.

(** ** The batch versions: every row is a search *)
Definition row_roots (roots : lil nat) (r : nat) : nat -> Prop := fun u => mget roots r u <> None.

Definition batch_inv (roots : lil nat) k (s : lil nat * lil nat * nat) : Prop :=
  let '(w, l, d) := s in
  d = k /\ wfm w /\ wfm l /\ nrows w = nrows roots /\ ncols w = N /\
  nrows l = nrows roots /\ ncols l = N /\
  (forall r v x, mget w r v = Some x -> x = 1) /\
  forall r, r < nrows roots ->
    frontier N (edge G) (row_roots roots r) k (fun v => is_some (mget w r v)) /\
    levels_upto N (edge G) (row_roots roots r) k (mget l r).

Section Batch.
Variable roots : lil nat.
Hypothesis Wr : wfm roots.
Hypothesis Cr : ncols roots = N.

Lemma row_roots_bound r v : row_roots roots r v -> v < N.
Proof.
  intro Hv. apply Nat.nle_gt; intro L. apply Hv. apply mget_oob; auto. lia.
Qed.
Lemma row_roots_dec r v : row_roots roots r v \/ ~ row_roots roots r v.
Proof. unfold row_roots. destruct (mget roots r v); [left|right]; congruence. Qed.

(** The step of one row, given what the operations returned. *)
Lemma batch_step k w l w' l' :
  batch_inv roots k (w, l, k) ->
  wfm w' -> wfm l' -> nrows w' = nrows w -> ncols w' = ncols w ->
  nrows l' = nrows l -> ncols l' = ncols l ->
  (forall r v, r < nrows l -> v < ncols l ->
     mget l' r v = ounion Nat.add idc idc (mget l r v) (option_map (Nat.mul (S k)) (mget w r v))) ->
  (forall r v, r < nrows w -> v < ncols w -> mget w' r v =
     if negb (otrue ntrue (mget l' r v))
     then osum lor_n (map (fun u => omap2 (land_n tb) (mget w r u) (mget G u v)) (seq 0 N))
     else None) ->
  batch_inv roots (S k) (w', l', S k).
Proof.
  intros (_ & Ww & Wl & Rw & Cw & Rl & Cl & H1 & F) Ww' Wl' Rw' Cw' Rl' Cl' HL HW.
  assert (ST : forall r, r < nrows roots ->
     (forall v x, v < N -> mget w' r v = Some x -> x = 1) /\
     frontier N (edge G) (row_roots roots r) (S k) (fun v => is_some (mget w' r v)) /\
     levels_upto N (edge G) (row_roots roots r) (S k) (mget l' r)).
  { intros r Hr. destruct (F r Hr) as [FW FL].
    apply (level_step (row_roots roots r) (row_roots_dec r) 1 k (mget w r) (mget l r)
             (Nat.mul (S k)) lor_n (land_n tb)); auto.
    - lia.
    - intros g Hg. unfold land_n. rewrite Hg. reflexivity.
    - intros v x E. eapply H1; eauto.
    - intros v Hv. apply HL; lia.
    - intros v Hv. apply HW; lia. }
  split; [reflexivity|]. split; [auto|]. split; [auto|]. split; [congruence|].
  split; [congruence|]. split; [congruence|]. split; [congruence|]. split.
  - intros r v x E. destruct (Nat.ltb_spec r (nrows roots)), (Nat.ltb_spec v N).
    + destruct (ST r H) as [H2 _]. eauto.
    + rewrite mget_oob in E; auto; [discriminate|right; lia].
    + rewrite mget_oob in E; auto; [discriminate|left; lia].
    + rewrite mget_oob in E; auto; [discriminate|left; lia].
  - intros r Hr. apply ST; auto.
Qed.

Lemma batch_apply k w l :
  batch_inv roots k (w, l, k) ->
  exists l', apply (fun x : nat => S k * x) btrue idc (Acc Nat.add idc idc) mnomask REPLACE
               l (Mat w) = Ok l' /\ wfm l' /\ nrows l' = nrows l /\ ncols l' = ncols l /\
    forall r v, r < nrows l -> v < ncols l ->
     mget l' r v = ounion Nat.add idc idc (mget l r v) (option_map (Nat.mul (S k)) (mget w r v)).
Proof.
  intros (_ & Ww & Wl & Rw & Cw & Rl & Cl & H1 & F).
  destruct (apply_ok (fun x : nat => S k * x) btrue idc (Acc Nat.add idc idc) mnomask REPLACE
              l (Mat w)) as (l' & E & Wl' & Rl' & Cl' & Gl').
  { auto. } { auto. } { exact Logic.I. }
  { split; [exact Logic.I|]. simpl. split; congruence. }
  exists l'. do 4 (split; [assumption|]). intros r v Hr Hv. rewrite Gl' by auto. simpl.
  unfold idc. destruct (ounion _ _ _ _ _); reflexivity.
Qed.

Lemma batch_body k s :
  batch_inv roots k s -> exists s', bfs_batch_body tb G s = Ok s' /\ batch_inv roots (S k) s'.
Proof.
  destruct s as [[w l] d]. intro I. pose proof I as (-> & Ww & Wl & Rw & Cw & Rl & Cl & H1 & F).
  unfold bfs_batch_body.
  destruct (batch_apply k w l I) as (l' & -> & Wl' & Rl' & Cl' & Gl'). cbn [bind].
  destruct (mxm_ok lor_n (land_n tb) (fun (b : T) (a : nat) => land_n tb a b) idc idc ntrue idc
              (NoAcc idc) (MComp l') REPLACE w (Mat w) (Mat G)) as (w' & -> & Ww' & Rw' & Cw' & Gw').
  { auto. } { auto. } { auto. } { auto. } { simpl; split; congruence. }
  { reflexivity. } { simpl; congruence. } { simpl; congruence. } { exact Logic.I. }
  cbn [bind]. exists (w', l', S k). split; [reflexivity|].
  apply (batch_step k w l); auto.
  intros r v Hr Hv. rewrite Gw' by auto. simpl. unfold spec_write, smul. simpl.
  destruct (negb _); [|reflexivity]. unfold idc. rewrite !option_map_id', Cw. reflexivity.
Qed.

Lemma batch_m_body k s :
  batch_inv roots k s -> exists s', bfs_level_m_body tb G s = Ok s' /\ batch_inv roots (S k) s'.
Proof.
  destruct s as [[w l] d]. intro I. pose proof I as (-> & Ww & Wl & Rw & Cw & Rl & Cl & H1 & F).
  unfold bfs_level_m_body.
  destruct (batch_apply k w l I) as (l' & -> & Wl' & Rl' & Cl' & Gl'). cbn [bind].
  destruct (mxm_ok lor_n (land_n tb) (fun (b : T) (a : nat) => land_n tb a b) idc idc btrue idc
              (NoAcc idc) mnomask REPLACE w (Mat w) (Mat G)) as (w1 & -> & Ww1 & Rw1 & Cw1 & Gw1).
  { auto. } { auto. } { auto. } { exact Logic.I. } { exact Logic.I. }
  { reflexivity. } { simpl; congruence. } { simpl; congruence. } { exact Logic.I. }
  cbn [bind].
  destruct (apply_ok idc ntrue idc (NoAcc idc) (MComp l') REPLACE w1 (Mat w1))
    as (w2 & -> & Ww2 & Rw2 & Cw2 & Gw2).
  { auto. } { auto. } { auto. }
  { split; [simpl; split; congruence|]. split; reflexivity. }
  cbn [bind]. exists (w2, l', S k). split; [reflexivity|].
  apply (batch_step k w l); auto; try congruence.
  intros r v Hr Hv. rewrite Gw2 by congruence. simpl. unfold spec_write.
  destruct (negb _); [|reflexivity]. unfold idc. rewrite !option_map_id'.
  rewrite Gw1 by congruence. simpl. unfold spec_write, smul. simpl.
  unfold idc. rewrite !option_map_id', Cw. reflexivity.
Qed.

Lemma batch_loop body n levels :
  (forall k s, batch_inv roots k s -> exists s', body s = Ok s' /\ batch_inv roots (S k) s') ->
  wfm levels -> nrows levels = nrows roots -> ncols levels = N ->
  (forall r v, mget levels r v = None) -> (forall r v x, mget roots r v = Some x -> x = 1) ->
  N < n ->
  exists l, (r <- mwhile n (fun s => has_vals (nvals (fst (fst s)))) body (roots, levels, 0) ;;
             Ok (option_map (fun s => snd (fst s)) r)) = Ok (Some l) /\
    wfm l /\ nrows l = nrows roots /\ ncols l = N /\
    forall r v x, r < nrows roots -> v < N ->
      (mget l r v = Some x <->
       exists d, x = S d /\ at_distance (edge G) (row_roots roots r) d v).
Proof.
  intros Hbody Wl Rl Cl El H1 Hn. pose proof (edge_bound G N WG RG CG) as EB.
  destruct (mwhile_inv (fun s => has_vals (nvals (fst (fst s)))) body
              (batch_inv roots) N) with (n := n) (k := 0) (s := (roots, levels, 0))
    as (k & [[w l] d] & E & I & C).
  - intros k [[w l] d] I C. split; [|apply Hbody; auto].
    destruct I as (_ & Ww & _ & Rw & Cw & _ & _ & _ & F).
    destruct (has_vals_m w Ww C) as (r & v & Hr & Hv & Hg). cbn [fst] in *. rewrite Rw in Hr. rewrite Cw in Hv.
    apply (at_distance_lt N (edge G) (row_roots roots r) EB (row_roots_bound r) k v).
    apply (F r Hr); auto. apply is_some_true; auto.
  - split; [reflexivity|]. split; [auto|]. split; [auto|]. split; [auto|]. split; [auto|].
    split; [auto|]. split; [auto|]. split; [auto|]. intros r Hr. split.
    + intros v Hv. rewrite at_distance_0. apply is_some_true.
    + intros v Hv x. rewrite El. split; [discriminate|]. intros (d & _ & Hd & _). lia.
  - lia.
  - lia.
  - rewrite E. cbn [bind]. exists l.
    destruct I as (_ & Ww & Wl' & Rw & Cw & Rl' & Cl' & _ & F).
    split; [reflexivity|]. split; [auto|]. split; [auto|]. split; [auto|]. intros r v x Hr Hv.
    destruct (F r Hr) as [FW FL].
    apply (level_end (row_roots roots r) (row_roots_bound r) k (fun v => is_some (mget w r v)) (mget l r)); auto.
    intros u Hu. rewrite (no_vals_m w Ww C). reflexivity.
Qed.

Theorem batch_levels_ok n levels :
  wfm levels -> nrows levels = nrows roots -> ncols levels = N ->
  (forall r v, mget levels r v = None) -> (forall r v x, mget roots r v = Some x -> x = 1) ->
  N < n ->
  exists l, batch_bfs_level_masked tb n G roots levels = Ok (Some l) /\
    wfm l /\ nrows l = nrows roots /\ ncols l = N /\
    forall r v x, r < nrows roots -> v < N ->
      (mget l r v = Some x <->
       exists d, x = S d /\ at_distance (edge G) (row_roots roots r) d v).
Proof.
  intros. unfold batch_bfs_level_masked. rewrite RG, CG, Cr, Nat.eqb_refl. cbn [negb orb].
  apply batch_loop; auto. exact batch_body.
Qed.

Theorem levels_m_ok n levels :
  wfm levels -> nrows levels = nrows roots -> ncols levels = N ->
  (forall r v, mget levels r v = None) -> (forall r v x, mget roots r v = Some x -> x = 1) ->
  N < n ->
  exists l, bfs_level_m tb n G roots levels = Ok (Some l) /\
    wfm l /\ nrows l = nrows roots /\ ncols l = N /\
    forall r v x, r < nrows roots -> v < N ->
      (mget l r v = Some x <->
       exists d, x = S d /\ at_distance (edge G) (row_roots roots r) d v).
Proof. intros. apply batch_loop; auto. exact batch_m_body. Qed.
End Batch.
End Levels.
