(** The algorithms of the appendix. *)
From Coq Require Import Lia.
From Verif Require Import Base ModelLil ModelVec ModelHelpers ModelViews ModelMul ModelElem
  ModelIndex ModelAlgoBase ModelBfs ModelMis ModelTriangle ModelAppendix Spec SpecOps SpecIndex SpecGraph SpecMis
  SpecTriangle ProofBase ProofRow ProofLil ProofVec ProofViews ProofMul ProofElem ProofReduce ProofUtils ProofIndex
  ProofAssign ProofAssignRC ProofGraph ProofBfs ProofParents ProofTriangle ProofMis.

Lemma mdo_while {S} n cond (body : S -> res S) s :
  cond s = true -> mdo n cond body s = mwhile (1 + n) cond body s.
Proof. intro H. unfold mdo. cbn [mwhile Nat.add]. rewrite H. reflexivity. Qed.

(** ** The levels *)
Section Levels.
Context {T : Type} (tb : T -> bool) (G : lil T) (N : nat).
Hypothesis WG : wfm G.
Hypothesis RG : nrows G = N.
Hypothesis CG : ncols G = N.
Hypothesis TG : forall i j v, mget G i j = Some v -> tb v = true.

Lemma lv_next_ok (l : bvec nat) (w : bvec bool) :
  wfv l -> vsize l = N -> wfv w -> vsize w = N ->
  exists w', lv_next tb G l w = Ok w' /\ wfv w' /\ vsize w' = N /\
    forall v, v < N -> vget w' v =
      if negb (otrue ntrue (vget l v))
      then osum orb (map (fun u => omap2 (fun (b : bool) (g : T) => b && tb g) (vget w u) (mget G u v)) (seq 0 N)) else None.
Proof.
  intros Wl Sl Ww Sw. unfold lv_next.
  destruct (vxm_ok orb (fun (b : bool) (g : T) => b && tb g) ntrue idc (NoAcc idc) (MComp l) REPLACE w w (Mat G))
    as (w' & E & Ww' & Sw' & Gw').
  { apply Ww. } { exact WG. } { apply wfv_wfvn; auto. } { apply Wl. }
  { simpl; congruence. } { simpl; congruence. } { simpl; congruence. }
  exists w'. split; [auto|]. split; [auto|]. split; [congruence|].
  intros v Hv. rewrite Gw' by congruence. simpl. unfold spec_write, svmul. simpl.
  destruct (negb _); [|reflexivity]. unfold idc. rewrite !option_map_id'. rewrite RG. reflexivity.
Qed.

Lemma b1_step source k s : source < N -> level_inv G N source k s ->
  exists s', b1_body tb G s = Ok s' /\ level_inv G N source (S k) s'.
Proof.
  intros Hs. destruct s as [[w l] d]. intros (-> & Ww & Wl & Sw & Sl & H1 & FW & FL). unfold b1_body.
  destruct (assign_const_v_ok btrue idc idc (NoAcc idc) (MVal w) MERGE l (S k) AllIdx)
    as (l' & -> & Wl2 & Sl2 & Gl2).
  { apply Wl. } { apply Ww. } { split; [simpl; congruence|]. split; exact Logic.I. } { exact Logic.I. }
  cbn [bind]. destruct (lv_next_ok l' w) as (w' & -> & Ww' & Sw' & Gw'); auto; [congruence|].
  cbn [bind]. exists (w', l', S k). split; [reflexivity|].
  destruct (level_step0 tb G N WG RG CG TG (eq source) ltac:(intros; lia) true k (vget w) (vget l) orb
     (fun b g => b && tb g) (vget w') (vget l')) as (H1' & FW' & FL'); auto.
  { intros v Hv. rewrite Gl2 by congruence. cbn [vmask_allows idx_count spec_assign].
    rewrite in_idx_all by congruence. unfold spec_write.
    destruct (vget w v) as [x|] eqn:Ew; [|reflexivity]. rewrite (H1 v x Ew). reflexivity. }
  split; [reflexivity|]. split; [auto|]. split; [auto|]. split; [auto|]. split; [congruence|]. split; [|auto].
  intros v x Ex. destruct (Nat.ltb_spec v N); [eauto|]. rewrite vget_oob in Ex; [discriminate|apply Ww'|lia].
Qed.

Lemma b2_step source k s : source < N -> level_inv G N source k s ->
  exists s', b2_body tb G s = Ok s' /\ level_inv G N source (S k) s'.
Proof.
  intros Hs. destruct s as [[w l] d]. intros (-> & Ww & Wl & Sw & Sl & H1 & FW & FL). unfold b2_body.
  destruct (apply_v_ok (fun b : bool => (if b then 1 else 0) * S k) btrue idc
     (Acc Nat.add idc idc) vnomask REPLACE l w) as (l' & -> & Wl' & Sl' & Gl').
  { apply Wl. } { apply wfv_wfvn; auto. } { exact Logic.I. } { split; [exact Logic.I|congruence]. }
  cbn [bind]. destruct (lv_next_ok l' w) as (w' & -> & Ww' & Sw' & Gw'); auto; [congruence|].
  cbn [bind]. exists (w', l', S k). split; [reflexivity|].
  destruct (level_step tb G N WG RG CG TG (eq source) ltac:(intros; lia) true k (vget w) (vget l)
    (fun b : bool => (if b then 1 else 0) * S k) orb (fun b g => b && tb g) (vget w') (vget l')) as (H1' & FW' & FL'); auto.
  { lia. }
  { intros v Hv. rewrite Gl' by congruence. simpl. unfold idc. destruct (ounion _ _ _ _ _); reflexivity. }
  split; [reflexivity|]. split; [auto|]. split; [auto|]. split; [auto|]. split; [congruence|]. split; [|auto].
  intros v x Ex. destruct (Nat.ltb_spec v N); [eauto|]. rewrite vget_oob in Ex; [discriminate|apply Ww'|lia].
Qed.

Theorem lv_search_ok (body : lil T -> bvec bool * bvec nat * nat -> res (bvec bool * bvec nat * nat)) n source
    (levels : bvec nat) :
  (forall k s, level_inv G N source k s -> exists s', body G s = Ok s' /\ level_inv G N source (S k) s') ->
  wfv levels -> vsize levels = N -> (forall v, vget levels v = None) -> source < N -> N <= n ->
  exists r, lv_search body n levels G source = Ok (Some r) /\ wfv r /\ vsize r = N /\
    forall v x, v < N ->
      (vget r v = Some x <-> exists d, x = S d /\ at_distance (edge G) (eq source) d v).
Proof.
  intros Hbody Wl Sl El Hs Hn. unfold lv_search.
  destruct (vec_new_ok false (nrows G)) as (w0 & -> & W0 & S0 & G0); [lia|]. cbn [bind].
  destruct (vec_setElement_ok w0 source true) as (w1 & -> & _ & S1 & _ & G1 & W1); [apply W0|lia|]. cbn [bind].
  assert (RB : forall v, source = v -> v < N) by (intros; subst; auto).
  pose proof (edge_bound G N WG RG CG) as EB.
  rewrite mdo_while.
  2: { unfold lv_more. cbn [fst]. destruct (has_vals (vnvals w1)) eqn:E; auto. exfalso.
       assert (X := G1 source). rewrite Nat.eqb_refl in X. rewrite (no_vals_v w1 ltac:(auto) E) in X. discriminate. }
  destruct (mwhile_inv lv_more (body G) (level_inv G N source) N) with (n := 1 + n) (k := 0) (s := (w1, levels, 0))
    as (k & [[w l] d] & E & I & C).
  - intros k [[w l] d] I C. split; [|apply Hbody; auto].
    destruct I as (_ & Ww & _ & Sw & _ & _ & FW & _).
    destruct (has_vals_v w Ww C) as (v & Hv & Hg). rewrite Sw in Hv.
    apply (at_distance_lt N (edge G) (eq source) EB RB k v). apply (FW v Hv). apply is_some_true; auto.
  - split; [reflexivity|]. split; [auto|]. split; [auto|]. split; [congruence|]. split; [auto|]. split.
    { intros v x. rewrite G1, G0. destruct (v =? source); congruence. }
    split.
    + intros v Hv. rewrite G1, G0. rewrite at_distance_0. destruct (Nat.eqb_spec v source); simpl.
      * subst; tauto.
      * split; [discriminate|]. intro; congruence.
    + intros v Hv x. rewrite El. split; [discriminate|]. intros (d & _ & Hd & _). lia.
  - lia.
  - lia.
  - rewrite E. cbn [bind]. exists l. destruct I as (_ & Ww & Wl' & Sw & Sl' & _ & FW & FL).
    split; [reflexivity|]. split; [auto|]. split; [auto|]. intros v x Hv.
    apply (level_end G N WG RG CG (eq source) RB k (fun v => is_some (vget w v)) (vget l)); auto.
    intros u Hu. rewrite (no_vals_v w Ww C). reflexivity.
Qed.
End Levels.

(** ** The parents: the same as [bfs] *)
Lemma b3_bfs {T} n (parents : bvec nat) (A : lil T) src :
  src < nrows A -> wfv0 parents -> src < vsize parents ->
  bfs_parent_appendixB3 n parents A src = bfs n A src parents.
Proof.
  intros Hs Wp Hp. unfold bfs_parent_appendixB3, bfs. destruct (index_ramp (nrows A)); cbn [bind]; auto.
  destruct (vec_new_ok 0 (nrows A)) as (w0 & -> & W0 & S0 & _); [lia|]. cbn [bind].
  destruct (vec_setElement_ok w0 src 1) as (w1 & -> & _); [apply W0|lia|]. cbn [bind]. reflexivity.
Qed.

(** ** The triangles *)
Lemma b7_masked L : nrows L = ncols L -> triangle_count_appendixB7 L = triangle_count_masked L.
Proof. intro H. unfold triangle_count_appendixB7, triangle_count_masked. rewrite <- H. reflexivity. Qed.

(** ** The independent set *)
Lemma b6_starts {T R} (tb : T -> bool) (tr : T -> R) (r0 : R) (rplus : R -> R -> R) (rlt : R -> R -> bool)
    (rb : R -> bool) (draw : nat -> nat -> R -> R) (G : lil T) (N : nat) (pos : R -> Prop) (is : bvec bool) :
  wfm G -> nrows G = N -> ncols G = N -> (forall i j, edge G i j = edge G j i) ->
  (forall x, pos x -> rb x = true) -> (forall i j v, mget G i j = Some v -> pos (tr v)) ->
  (forall x y, pos x -> pos y -> pos (rplus x y)) -> N <> 0 -> wfv0 is -> vsize is = N ->
  starts tb rlt rb draw G N pos (fun n => mis_appendixB6 tb tr r0 rplus rlt rb draw n is G).
Proof.
  intros WG RG CG sym pos_true pos_edge pos_plus HN Wi Si. unfold starts, mis_appendixB6. rewrite RG.
  destruct (vec_new_ok r0 N HN) as (w0 & -> & W0 & S0 & G0). cbn [bind].
  destruct (vec_new_ok false N HN) as (b0 & -> & B0 & SB0 & GB0). cbn [bind].
  destruct (reduce_ok tr (fun x y => rplus (tr x) (tr y)) (fun s x => rplus s (tr x)) btrue idc
              (NoAcc idc) vnomask MERGE w0 (Mat G)) as (dg & -> & Wd & Sd & Gd).
  { reflexivity. } { apply W0. } { exact WG. } { exact Logic.I. }
  { split; [exact Logic.I|]. simpl. congruence. }
  cbn [bind].
  assert (Gd' : forall v, v < N -> vget dg v =
    ofold tr (fun s x => rplus s (tr x)) (map (mget G v) (seq 0 N))).
  { intros v Hv. rewrite Gd by lia. simpl. rewrite CG. unfold idc. unfold spec_write. simpl.
    change (fun j => mget G v j) with (mget G v). destruct (ofold _ _ _); reflexivity. }
  destruct (degrees_pos tr rplus G N RG CG pos pos_edge pos_plus dg Wd ltac:(congruence) Gd') as [Pd Nd].
  destruct (assign_const_v_ok rb idc idc (NoAcc idc) (MVal dg) MERGE b0 true AllIdx)
    as (cd & -> & Wc & Sc & Gc).
  { apply B0. } { apply Wd. } { repeat split; simpl; congruence. } { exact Logic.I. }
  cbn [bind].
  destruct (assign_const_v_ok rb idc idc (NoAcc idc) (MComp dg) REPLACE is true AllIdx)
    as (is' & -> & Wis & Sis & Gis).
  { apply Wi. } { apply Wd. } { repeat split; simpl; congruence. } { exact Logic.I. }
  cbn [bind].
  assert (IN : forall v, v < N -> in_idx AllIdx (idx_count AllIdx N) v = true).
  { intros v Hv. apply in_idx_all. exact Hv. }
  exists dg, (mkMis cd is' w0 w0 b0 b0 0).
  split; [assumption|]. split; [congruence|]. split; [assumption|]. split; [|intro n; reflexivity].
  apply (mis_start_inv tr rplus G N RG CG sym pos pos_edge pos_plus); auto; try congruence.
  - split; [exact Wc|]. split; [simpl; congruence|]. intros v Hv. rewrite Gc by lia.
    rewrite SB0, IN by auto. unfold spec_write. simpl. destruct (vget dg v) as [d|] eqn:E; simpl; auto.
    rewrite (pos_true d) by eauto. reflexivity.
  - split; [exact Wis|]. split; [simpl; congruence|]. intros v Hv. rewrite Gis by lia.
    rewrite Si, IN by auto. unfold spec_write. simpl. destruct (vget dg v) as [d|] eqn:E; simpl; auto.
    rewrite (pos_true d) by eauto. reflexivity.
Qed.
