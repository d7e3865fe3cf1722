(** The level searches over scalar types that hold all the levels. *)
From Coq Require Import Lia ZArith Floats.SpecFloat.
From Verif Require Import Base ModelLil ModelVec ModelHelpers ModelViews ModelMul ModelElem
  ModelIndex ModelAlgoBase ModelAlgebra ModelFloat ModelFsssp ModelBfs ModelLevels Spec SpecOps SpecIndex SpecGraph SpecInts SpecLevels
  ProofBase ProofRow ProofLil ProofVec ProofViews ProofMul ProofElem ProofReduce ProofUtils ProofIndex ProofAssign ProofAssignRC ProofGraph ProofBfs.

Lemma convert_id w z : (0 <= z < 2 ^ bits w)%Z -> convert (CInt false w) z = z.
Proof. intro H. simpl. unfold wrapu. apply Z.mod_small. exact H. Qed.
Lemma u64_id z : (0 <= z < 2 ^ 64)%Z -> u64 z = z.
Proof. apply (convert_id W64). Qed.
Lemma u32_id z : (0 <= z < 2 ^ 32)%Z -> u32 z = z.
Proof. apply (convert_id W32). Qed.

Section Levels.
Context {T : Type} (tb : T -> bool) (LT WT : scalar) (G : lil T) (N : nat).
Hypothesis WG : wfm G.
Hypothesis RG : nrows G = N.
Hypothesis CG : ncols G = N.
Hypothesis G1 : forall u v g, mget G u v = Some g -> tb g = true.
Notation L := (sty LT).
Notation good c d := (keeps_level c LT (Z.of_nat d)).
Notation W := (sty WT).
Definition lev (d : nat) : L := s_of LT (Z.of_nat d).
Definition one : W := s_of WT 1.

(** The levels after [k] rounds. *)
Definition llevels (R : nat -> Prop) k (Lv : nat -> option L) : Prop :=
  exists L0, levels_upto N (edge G) R k L0 /\ forall v, v < N -> Lv v = option_map lev (L0 v).

Section Roots.
Variable c : Z -> Z.
Variable R : nat -> Prop.
Hypothesis R_bound : forall v, R v -> v < N.
Hypothesis R_dec : forall v, R v \/ ~ R v.
Hypothesis HL : forall d v, at_distance (edge G) R d v -> good c (S d).

Lemma levels_good k L0 v x : levels_upto N (edge G) R k L0 -> v < N -> L0 v = Some x -> x <> 0 /\ good c x.
Proof.
  intros FL Hv E. apply (FL v Hv) in E. destruct E as (d & -> & _ & Ha). split; [lia|]. eauto.
Qed.

(** One round: [Lv'] is [Lv] with the new level where the wavefront [Wv] is, and the wavefront moves
    on to the vertices without a level. *)
Lemma llevel_step0 {A} (a1 : A) k (Wv : nat -> option A) (Lv : nat -> option L)
    (op : A -> A -> A) (mul : A -> T -> A) Wv' Lv' :
  op a1 a1 = a1 -> (forall g, tb g = true -> mul a1 g = a1) ->
  (forall v x, Wv v = Some x -> x = a1) ->
  frontier N (edge G) R k (fun v => is_some (Wv v)) -> llevels R k Lv ->
  (forall v, v < N -> is_some (Wv v) = true -> Lv v = None -> Lv' v = Some (lev (S k))) ->
  (forall v d, v < N -> Wv v = None -> good c d -> Lv v = Some (lev d) -> Lv' v = Some (lev d)) ->
  (forall v, v < N -> Wv v = None -> Lv v = None -> Lv' v = None) ->
  (forall v, v < N -> Wv' v =
     if negb (otrue (s_true LT) (Lv' v))
     then osum op (map (fun u => omap2 mul (Wv u) (mget G u v)) (seq 0 N)) else None) ->
  (forall v x, v < N -> Wv' v = Some x -> x = a1) /\
  frontier N (edge G) R (S k) (fun v => is_some (Wv' v)) /\ llevels R (S k) Lv'.
Proof.
  intros Hop Hmul H1 FW (L0 & FL & EL) Hnew Hold Hnone HW.
  set (L1 := fun v => if is_some (Wv v) then Some (S k) else L0 v).
  assert (EL1 : forall v, v < N -> Lv' v = option_map lev (L1 v)).
  { intros v Hv. unfold L1. destruct (Wv v) as [x|] eqn:E; simpl.
    - apply Hnew; auto; [rewrite E; reflexivity|]. rewrite EL by auto.
      destruct (L0 v) as [y|] eqn:Ey; [|reflexivity]. exfalso.
      apply (FL v Hv) in Ey. destruct Ey as (d & _ & Hd & Ha).
      assert (Hw : is_some (Wv v) = true) by (rewrite E; reflexivity).
      apply (FW v Hv) in Hw. pose proof (at_distance_unique (edge G) R d k v Ha Hw). lia.
    - destruct (L0 v) as [y|] eqn:Ey; simpl.
      + apply Hold; auto; [eapply levels_good; eauto|]. rewrite EL, Ey by auto. reflexivity.
      + apply Hnone; auto. rewrite EL, Ey by auto. reflexivity. }
  assert (ST : (forall v x, v < N -> Wv' v = Some x -> x = a1) /\
    frontier N (edge G) R (S k) (fun v => is_some (Wv' v)) /\ levels_upto N (edge G) R (S k) L1).
  { apply (level_step0 tb G N WG RG CG G1 R R_dec a1 k Wv L0 op mul); auto.
    intros v Hv. rewrite HW by auto.
    assert (EQ : otrue (s_true LT) (Lv' v) = otrue ntrue (L1 v)).
    { rewrite EL1 by auto. destruct (L1 v) as [y|] eqn:Ey; [|reflexivity]. simpl.
      assert (Hy : y <> 0 /\ good c y).
      { unfold L1 in Ey. destruct (is_some (Wv v)) eqn:E.
        - apply (FW v Hv) in E. injection Ey as <-. split; [lia|]. eauto.
        - eapply levels_good; eauto. }
      destruct Hy as (Hy & Hg & _). unfold lev. rewrite Hg. destruct y; [lia|reflexivity]. }
    rewrite EQ. reflexivity. }
  destruct ST as (S1 & S2 & S3). split; [exact S1|]. split; [exact S2|]. exists L1. auto.
Qed.

Lemma llevel_end k (Wv : nat -> bool) (Lv : nat -> option L) :
  frontier N (edge G) R k Wv -> (forall v, v < N -> Wv v = false) -> llevels R k Lv ->
  forall v x, v < N -> (Lv v = Some x <-> exists d, x = lev (S d) /\ at_distance (edge G) R d v).
Proof.
  intros FW HW (L0 & FL & EL) v x Hv. rewrite EL by auto.
  pose proof (level_end G N WG RG CG R R_bound k Wv L0 FW HW FL v) as E.
  destruct (L0 v) as [y|] eqn:Ey; simpl; split.
  - intro H. injection H as <-. destruct (proj1 (E y Hv) eq_refl) as (d & -> & Ha). eauto.
  - intros (d & -> & Ha). assert (Some y = Some (S d)) by (apply E; eauto). congruence.
  - discriminate.
  - intros (d & -> & Ha). assert (None = Some (S d)) by (apply E; eauto). discriminate.
Qed.

Lemma llevels_0 (Lv : nat -> option L) : (forall v, Lv v = None) -> llevels R 0 Lv.
Proof.
  intro El. exists (fun _ => None). split.
  - intros v Hv x. split; [discriminate|]. intros (d & _ & Hd & _). lia.
  - intros v Hv. apply El.
Qed.
End Roots.


(** ** bfs_level *)
Definition llevel_inv source k (s : bvec bool * bvec L * Z) : Prop :=
  let '(w, l, d) := s in
  d = Z.of_nat k /\ wfv w /\ wfv l /\ vsize w = N /\ vsize l = N /\
  (forall v x, vget w v = Some x -> x = true) /\
  frontier N (edge G) (eq source) k (fun v => is_some (vget w v)) /\ llevels (eq source) k (vget l).

Lemma llevel_body source k s : (Z.of_nat N < 2 ^ 64)%Z -> k < N ->
  (forall d v, at_distance (edge G) (eq source) d v -> good u64 (S d)) ->
  source < N -> llevel_inv source k s ->
  exists s', lbfs_level_body tb LT G s = Ok s' /\ llevel_inv source (S k) s'.
Proof.
  intros HN Hk HL Hs. destruct s as [[w l] d]. intros (-> & Ww & Wl & Sw & Sl & H1 & FW & FL).
  unfold lbfs_level_body. replace (Z.of_nat k + 1)%Z with (Z.of_nat (S k)) by lia.
  rewrite (u64_id (Z.of_nat (S k))) by lia.
  destruct (apply_v_ok (fun b : bool => u64 (Z.of_nat (S k) * ofbool b)) btrue (s_of LT)
     (acc64 LT) vnomask MERGE l w) as (l' & -> & Wl' & Sl' & Gl').
  { apply Wl. } { apply wfv_wfvn; auto. } { exact Logic.I. }
  { split; [exact Logic.I|congruence]. }
  cbn [bind].
  destruct (mxv_ok orb (fun (a : T) (b : bool) => tb a && b) (fun (b : bool) (a : T) => b && tb a)
              (s_true LT) idc (NoAcc idc) (MComp l') REPLACE w (Trn G) w) as (w' & -> & Ww' & Sw' & Gw').
  { apply Ww. } { exact WG. } { apply wfv_wfvn; auto. } { apply Wl'. }
  { simpl; congruence. } { simpl; congruence. } { simpl; congruence. }
  { intros x y. apply andb_comm. }
  cbn [bind]. exists (w', l', Z.of_nat (S k)). split; [reflexivity|].
  destruct (llevel_step0 u64 (eq source) ltac:(intros; lia) HL
    true k (vget w) (vget l) orb (fun b g => b && tb g) (vget w') (vget l'))
    as (H1' & FW' & FL'); auto.
  { intros v Hv Hw Hn. rewrite Gl' by congruence. simpl. rewrite Hn.
    destruct (vget w v) as [b|] eqn:E; [|discriminate]. rewrite (H1 v b E). simpl.
    rewrite Z.mul_1_r, !u64_id by (rewrite ?u64_id; lia). reflexivity. }
  { intros v y Hv Hw Hy Hl. rewrite Gl' by congruence. simpl. rewrite Hl, Hw. simpl.
    unfold lev. rewrite (proj2 Hy). reflexivity. }
  { intros v Hv Hw Hl. rewrite Gl' by congruence. simpl. rewrite Hl, Hw. reflexivity. }
  { intros v Hv. rewrite Gw' by congruence. simpl. unfold spec_write, smulv. simpl.
    destruct (negb _); [|reflexivity]. unfold idc. rewrite !option_map_id'. rewrite RG.
    f_equal. apply map_ext. intro u. unfold stran.
    destruct (mget G u v), (vget w u); simpl; auto. f_equal. apply andb_comm. }
  split; [reflexivity|]. split; [auto|]. split; [auto|]. split; [congruence|].
  split; [congruence|]. split; [|auto].
  intros v x E. destruct (Nat.ltb_spec v N); [eauto|].
  rewrite vget_oob in E; [discriminate|apply Ww'|lia].
Qed.

Theorem lbfs_level_ok n source (levels : bvec L) : (Z.of_nat N < 2 ^ 64)%Z ->
  (forall d v, at_distance (edge G) (eq source) d v -> good u64 (S d)) ->
  wfv levels -> vsize levels = N -> (forall v, vget levels v = None) -> source < N -> N < n ->
  exists r, lbfs_level tb LT n G source levels = Ok (Some r) /\ wfv r /\ vsize r = N /\
    forall v x, v < N ->
      (vget r v = Some x <-> exists d, x = lev (S d) /\ at_distance (edge G) (eq source) d v).
Proof.
  intros HN HL Wl Sl El Hs Hn. unfold lbfs_level.
  destruct (vec_new_ok false (nrows G)) as (w0 & -> & W0 & S0 & G0); [lia|]. cbn [bind].
  destruct (vec_setElement_ok w0 source true) as (w1 & -> & _ & S1 & _ & G1' & W1);
    [apply W0|lia|]. cbn [bind].
  assert (RB : forall v, source = v -> v < N) by (intros; subst; auto).
  pose proof (edge_bound G N WG RG CG) as EB.
  destruct (mwhile_inv (fun s => has_vals (vnvals (fst (fst s)))) (lbfs_level_body tb LT G)
              (llevel_inv source) N) with (n := n) (k := 0) (s := (w1, levels, 0%Z))
    as (k & [[w l] d] & E & I & C).
  - intros k [[w l] d] I C.
    assert (Hk : k < N).
    { destruct I as (_ & Ww & _ & Sw & _ & _ & FW & _).
      destruct (has_vals_v w Ww C) as (v & Hv & Hg). rewrite Sw in Hv.
      apply (at_distance_lt N (edge G) (eq source) EB RB k v). apply (FW v Hv).
      apply is_some_true; auto. }
    split; [exact Hk|apply llevel_body; auto].
  - split; [reflexivity|]. split; [auto|]. split; [auto|]. split; [congruence|].
    split; [auto|]. split.
    { intros v x. rewrite G1', G0. destruct (v =? source); congruence. }
    split; [|apply llevels_0; auto].
    intros v Hv. rewrite G1', G0. rewrite at_distance_0. destruct (Nat.eqb_spec v source); simpl.
    + subst; tauto.
    + split; [discriminate|]. intro; congruence.
  - lia.
  - lia.
  - rewrite E. cbn [bind]. exists l.
    destruct I as (_ & Ww & Wl' & Sw & Sl' & _ & FW & FL).
    split; [reflexivity|]. split; [auto|]. split; [auto|]. intros v x Hv.
    apply (llevel_end (eq source) RB k (fun v => is_some (vget w v)) (vget l)); auto.
    intros u Hu. rewrite (no_vals_v w Ww C). reflexivity.
Qed.

(** ** Wavefronts in any type that holds 1 *)
Hypothesis HW : holds_int WT 1.
Hypothesis HN : (Z.of_nat N < 2 ^ 32)%Z.

(** The wavefront's semiring, on truth values: [lor_l] and [land_l] on 0 and 1. *)
Lemma front_sum conv (Wv : nat -> option W) (col : nat -> option T) :
  conv 1%Z = 1%Z -> (forall v x, Wv v = Some x -> x = one) -> (forall u g, col u = Some g -> tb g = true) ->
  option_map (s_of WT) (osum lor_l (map (fun u => omap2 (land_l tb WT conv) (Wv u) (col u)) (seq 0 N))) =
  osum (fun a _ : W => a) (map (fun u => omap2 (fun (a : W) (_ : T) => a) (Wv u) (col u)) (seq 0 N)).
Proof.
  intros Hc H1 H2.
  set (l := map (fun u => omap2 (land_l tb WT conv) (Wv u) (col u)) (seq 0 N)).
  set (l' := map (fun u => omap2 (fun (a : W) (_ : T) => a) (Wv u) (col u)) (seq 0 N)).
  assert (E : Forall2 (fun a b => (a = None /\ b = None) \/ (a = Some 1%Z /\ b = Some one)) l l').
  { unfold l, l'. induction (seq 0 N) as [|u us IH]; simpl; constructor; auto.
    destruct (Wv u) as [x|] eqn:Ex, (col u) as [g|] eqn:Eg; simpl; auto. right.
    rewrite (H1 u x Ex). split; [|reflexivity]. unfold land_l, one. rewrite (proj1 HW), Hc, (H2 u g Eg). reflexivity. }
  clearbody l l'. clear -E.
  assert (R : (osum lor_l l = None /\ osum (fun a _ : W => a) l' = None) \/
              (osum lor_l l = Some 1%Z /\ osum (fun a _ : W => a) l' = Some one)).
  { unfold osum.
    assert (Gn : forall a b, (a = None /\ b = None) \/ (a = Some 1%Z /\ b = Some one) ->
      (fold_left (oadd lor_l) l a = None /\ fold_left (oadd (fun a _ : W => a)) l' b = None) \/
      (fold_left (oadd lor_l) l a = Some 1%Z /\ fold_left (oadd (fun a _ : W => a)) l' b = Some one)).
    { induction E as [|x y l l' Hxy E IH]; simpl; auto. intros a b Hab. apply IH.
      destruct Hab as [[-> ->]|[-> ->]], Hxy as [[-> ->]|[-> ->]]; simpl; auto. }
    apply Gn. auto. }
  destruct R as [[-> ->]|[-> ->]]; reflexivity.
Qed.

Definition lmasked_inv (roots : bvec W) k (s : bvec W * bvec L * Z) : Prop :=
  let '(w, l, d) := s in
  d = Z.of_nat k /\ wfv w /\ wfv l /\ vsize w = N /\ vsize l = N /\
  (forall v x, vget w v = Some x -> x = one) /\
  frontier N (edge G) (fun u => vget roots u <> None) k (fun v => is_some (vget w v)) /\
  llevels (fun u => vget roots u <> None) k (vget l).

Section Masked.
Variable roots : bvec W.
Hypothesis Wr : wfv roots.
Hypothesis Sr : vsize roots = N.
Notation R := (fun u => vget roots u <> None).
Hypothesis HL : forall d v, at_distance (edge G) R d v -> good u32 (S d).

Lemma roots_bound v : R v -> v < N.
Proof. intros Hv. apply Nat.nle_gt; intro Lt. apply Hv. apply vget_oob; [apply Wr|lia]. Qed.
Lemma roots_dec v : R v \/ ~ R v.
Proof. cbv beta. destruct (vget roots v); [left|right]; congruence. Qed.

(** The second half of both bodies. *)
Lemma lmasked_half k w l l' : lmasked_inv roots k (w, l, Z.of_nat k) ->
  wfv l' -> vsize l' = vsize l ->
  (forall v, v < N -> is_some (vget w v) = true -> vget l v = None -> vget l' v = Some (lev (S k))) ->
  (forall v d, v < N -> vget w v = None -> good u32 d -> vget l v = Some (lev d) -> vget l' v = Some (lev d)) ->
  (forall v, v < N -> vget w v = None -> vget l v = None -> vget l' v = None) ->
  exists w', vxm lor_l (land_l tb WT u64) (s_true LT) (s_of WT) (NoAcc idc) (MComp l') REPLACE w w (Mat G) = Ok w' /\
    lmasked_inv roots (S k) (w', l', Z.of_nat (S k)).
Proof.
  intros (_ & Ww & Wl & Sw & Sl & H1 & FW & FL) Wl2 Sl2 Hnew Hold Hnone.
  destruct (vxm_ok lor_l (land_l tb WT u64) (s_true LT) (s_of WT) (NoAcc idc) (MComp l') REPLACE w w (Mat G))
    as (w' & -> & Ww' & Sw' & Gw').
  { apply Ww. } { exact WG. } { apply wfv_wfvn; auto. } { apply Wl2. }
  { simpl; congruence. } { simpl; congruence. } { simpl; congruence. }
  exists w'. split; [reflexivity|].
  destruct (llevel_step0 u32 R roots_dec HL one k (vget w) (vget l) (fun a _ : W => a) (fun (a : W) (_ : T) => a)
       (vget w') (vget l')) as (H1' & FW' & FL'); auto.
  { intros v Hv. rewrite Gw' by congruence. simpl. unfold spec_write, svmul. simpl.
    destruct (negb _); [|reflexivity]. unfold idc. rewrite option_map_id'. rewrite RG.
    apply front_sum; auto. eauto. }
  split; [reflexivity|]. split; [auto|]. split; [auto|]. split; [congruence|].
  split; [congruence|]. split; [|auto].
  intros v x Ex. destruct (Nat.ltb_spec v N); [eauto|].
  rewrite vget_oob in Ex; [discriminate|apply Ww'|lia].
Qed.

Lemma lmasked_body k s : k < N -> lmasked_inv roots k s ->
  exists s', lbfs_masked_body tb LT WT G s = Ok s' /\ lmasked_inv roots (S k) s'.
Proof.
  intros Hk. destruct s as [[w l] d]. intros I. pose proof I as (-> & Ww & Wl & Sw & Sl & H1 & FW & FL).
  unfold lbfs_masked_body. replace (Z.of_nat k + 1)%Z with (Z.of_nat (S k)) by lia.
  rewrite (u64_id (Z.of_nat (S k))) by lia.
  destruct (apply_v_ok (fun x : W => u64 (Z.of_nat (S k) * u64 (s_to WT x))) btrue (s_of LT)
     (acc32 LT) vnomask REPLACE l w) as (l' & -> & Wl' & Sl' & Gl').
  { apply Wl. } { apply wfv_wfvn; auto. } { exact Logic.I. }
  { split; [exact Logic.I|congruence]. }
  cbn [bind].
  destruct (lmasked_half k w l l' I) as (w' & -> & I'); auto.
  { intros v Hv Hw Hn. rewrite Gl' by congruence. simpl. rewrite Hn.
    destruct (vget w v) as [b|] eqn:E; [|discriminate]. rewrite (H1 v b E). simpl.
    unfold one. rewrite (proj1 HW), (u64_id 1), Z.mul_1_r, u64_id, u32_id by lia. reflexivity. }
  { intros v y Hv Hw Hy Hl. rewrite Gl' by congruence. simpl. rewrite Hl, Hw. simpl.
    unfold lev. rewrite (proj2 Hy). reflexivity. }
  { intros v Hv Hw Hl. rewrite Gl' by congruence. simpl. rewrite Hl, Hw. reflexivity. }
  cbn [bind]. eauto.
Qed.

Lemma lmasked2_body k s : k < N -> lmasked_inv roots k s ->
  exists s', lbfs_masked2_body tb LT WT G s = Ok s' /\ lmasked_inv roots (S k) s'.
Proof.
  intros Hk. destruct s as [[w l] d]. intros I. pose proof I as (-> & Ww & Wl & Sw & Sl & H1 & FW & FL).
  unfold lbfs_masked2_body. replace (Z.of_nat k + 1)%Z with (Z.of_nat (S k)) by lia.
  rewrite (u64_id (Z.of_nat (S k))) by lia.
  destruct (assign_const_v_ok (s_true WT) idc idc (NoAcc (s_of LT)) (MVal w) MERGE l (Z.of_nat (S k)) AllIdx)
      as (l' & -> & Wl2 & Sl2 & Gl2).
  { apply Wl. } { apply Ww. }
  { split; [simpl; congruence|]. split; exact Logic.I. } { exact Logic.I. }
  cbn [bind].
  assert (Gl : forall v, v < N -> vget l' v = if is_some (vget w v) then Some (lev (S k)) else vget l v).
  { intros v Hv. rewrite Gl2 by congruence. cbn [vmask_allows idx_count spec_assign].
    rewrite in_idx_all by congruence. unfold spec_write.
    destruct (vget w v) as [x|] eqn:Ew; [|reflexivity]. rewrite (H1 v x Ew).
    cbn [otrue is_some]. unfold one. rewrite (proj2 HW). reflexivity. }
  destruct (lmasked_half k w l l' I) as (w' & -> & I'); auto.
  { intros v Hv Hw Hn. rewrite Gl, Hw by auto. reflexivity. }
  { intros v y Hv Hw Hy Hl. rewrite Gl, Hw by auto. exact Hl. }
  { intros v Hv Hw Hl. rewrite Gl, Hw by auto. exact Hl. }
  cbn [bind]. eauto.
Qed.

Lemma lmasked_loop body n levels :
  (forall k s, k < N -> lmasked_inv roots k s -> exists s', body s = Ok s' /\ lmasked_inv roots (S k) s') ->
  wfv levels -> vsize levels = N -> (forall v, vget levels v = None) ->
  (forall v x, vget roots v = Some x -> x = one) -> N < n ->
  exists r, (r <- mwhile n (fun s => has_vals (vnvals (fst (fst s)))) body (roots, levels, 0%Z) ;;
             Ok (option_map (fun s => snd (fst s)) r)) = Ok (Some r) /\ wfv r /\ vsize r = N /\
    forall v x, v < N -> (vget r v = Some x <-> exists d, x = lev (S d) /\ at_distance (edge G) R d v).
Proof.
  intros Hb Wl Sl El H1 Hn. pose proof (edge_bound G N WG RG CG) as EB.
  destruct (mwhile_inv (fun s => has_vals (vnvals (fst (fst s)))) body
              (lmasked_inv roots) N) with (n := n) (k := 0) (s := (roots, levels, 0%Z))
    as (k & [[w l] d] & E & I & C).
  - intros k [[w l] d] I C.
    assert (Hk : k < N).
    { destruct I as (_ & Ww & _ & Sw & _ & _ & FW & _).
      destruct (has_vals_v w Ww C) as (v & Hv & Hg). rewrite Sw in Hv.
      apply (at_distance_lt N (edge G) R EB roots_bound k v). apply (FW v Hv).
      apply is_some_true; auto. }
    split; [exact Hk|apply Hb; auto].
  - split; [reflexivity|]. split; [auto|]. split; [auto|]. split; [auto|]. split; [auto|].
    split; [auto|]. split; [|apply llevels_0; auto].
    intros v Hv. rewrite at_distance_0. apply is_some_true.
  - lia.
  - lia.
  - rewrite E. cbn [bind]. exists l.
    destruct I as (_ & Ww & Wl' & Sw & Sl' & _ & FW & FL).
    split; [reflexivity|]. split; [auto|]. split; [auto|]. intros v x Hv.
    apply (llevel_end R roots_bound k (fun v => is_some (vget w v)) (vget l)); auto.
    intros u Hu. rewrite (no_vals_v w Ww C). reflexivity.
Qed.

Theorem lmasked_ok n levels :
  wfv levels -> vsize levels = N -> (forall v, vget levels v = None) ->
  (forall v x, vget roots v = Some x -> x = one) -> N < n ->
  exists r, lbfs_level_masked tb LT WT n G roots levels = Ok (Some r) /\ wfv r /\ vsize r = N /\
    forall v x, v < N -> (vget r v = Some x <-> exists d, x = lev (S d) /\ at_distance (edge G) R d v).
Proof.
  intros. unfold lbfs_level_masked. rewrite RG, CG, Sr, Nat.eqb_refl. cbn [negb orb].
  apply lmasked_loop; auto. exact lmasked_body.
Qed.
Theorem lmasked2_ok n levels :
  wfv levels -> vsize levels = N -> (forall v, vget levels v = None) ->
  (forall v x, vget roots v = Some x -> x = one) -> N < n ->
  exists r, lbfs_level_masked_v2 tb LT WT n G roots levels = Ok (Some r) /\ wfv r /\ vsize r = N /\
    forall v x, v < N -> (vget r v = Some x <-> exists d, x = lev (S d) /\ at_distance (edge G) R d v).
Proof.
  intros. unfold lbfs_level_masked_v2. rewrite RG, CG, Sr, Nat.eqb_refl. cbn [negb orb].
  apply lmasked_loop; auto. exact lmasked2_body.
Qed.
End Masked.

(** ** The batch versions: every row is a search *)
Definition lbatch_inv (roots : lil W) k (s : lil W * lil L * Z) : Prop :=
  let '(w, l, d) := s in
  d = Z.of_nat k /\ wfm w /\ wfm l /\ nrows w = nrows roots /\ ncols w = N /\
  nrows l = nrows roots /\ ncols l = N /\
  (forall r v x, mget w r v = Some x -> x = one) /\
  forall r, r < nrows roots ->
    frontier N (edge G) (fun u => mget roots r u <> None) k (fun v => is_some (mget w r v)) /\
    llevels (fun u => mget roots r u <> None) k (mget l r).

Section Batch.
Variable roots : lil W.
Hypothesis Wr : wfm roots.
Hypothesis Cr : ncols roots = N.
Notation R r := (fun u => mget roots r u <> None).
Hypothesis HL : forall r d v, r < nrows roots -> at_distance (edge G) (R r) d v -> good u32 (S d).

Lemma brow_bound r v : R r v -> v < N.
Proof. intro Hv. apply Nat.nle_gt; intro Lt. apply Hv. apply mget_oob; auto. lia. Qed.
Lemma brow_dec r v : R r v \/ ~ R r v.
Proof. cbv beta. destruct (mget roots r v); [left|right]; congruence. Qed.

(** The step of one row, given what the operations returned. *)
Lemma lbatch_step k w l w' l' conv : conv 1%Z = 1%Z ->
  lbatch_inv roots k (w, l, Z.of_nat k) ->
  wfm w' -> wfm l' -> nrows w' = nrows w -> ncols w' = ncols w ->
  nrows l' = nrows l -> ncols l' = ncols l ->
  (forall r v, r < nrows l -> v < ncols l -> is_some (mget w r v) = true -> mget l r v = None -> mget l' r v = Some (lev (S k))) ->
  (forall r v d, r < nrows l -> v < ncols l -> mget w r v = None -> good u32 d -> mget l r v = Some (lev d) ->
     mget l' r v = Some (lev d)) ->
  (forall r v, r < nrows l -> v < ncols l -> mget w r v = None -> mget l r v = None -> mget l' r v = None) ->
  (forall r v, r < nrows w -> v < ncols w -> mget w' r v =
     if negb (otrue (s_true LT) (mget l' r v))
     then option_map (s_of WT) (osum lor_l (map (fun u => omap2 (land_l tb WT conv) (mget w r u) (mget G u v)) (seq 0 N)))
     else None) ->
  lbatch_inv roots (S k) (w', l', Z.of_nat (S k)).
Proof.
  intros Hc (_ & Ww & Wl & Rw & Cw & Rl & Cl & H1 & F) Ww' Wl' Rw' Cw' Rl' Cl' Hnew Hold Hnone HWv.
  assert (ST : forall r, r < nrows roots ->
     (forall v x, v < N -> mget w' r v = Some x -> x = one) /\
     frontier N (edge G) (R r) (S k) (fun v => is_some (mget w' r v)) /\
     llevels (R r) (S k) (mget l' r)).
  { intros r Hr. destruct (F r Hr) as [FW FL].
    apply (llevel_step0 u32 (R r) (brow_dec r) (fun d v => HL r d v Hr) one k (mget w r) (mget l r)
             (fun a _ : W => a) (fun (a : W) (_ : T) => a)); auto.
    - intros v x E. eapply H1; eauto.
    - intros v Hv. apply Hnew; lia.
    - intros v d Hv. apply Hold; lia.
    - intros v Hv. apply Hnone; lia.
    - intros v Hv. rewrite HWv by lia. destruct (negb _); [|reflexivity].
      apply front_sum; eauto. }
  split; [reflexivity|]. split; [auto|]. split; [auto|]. split; [congruence|].
  split; [congruence|]. split; [congruence|]. split; [congruence|]. split.
  - intros r v x E. destruct (Nat.ltb_spec r (nrows roots)), (Nat.ltb_spec v N).
    + destruct (ST r H) as [H2 _]. eauto.
    + rewrite mget_oob in E; auto; [discriminate|right; lia].
    + rewrite mget_oob in E; auto; [discriminate|left; lia].
    + rewrite mget_oob in E; auto; [discriminate|left; lia].
  - intros r Hr. apply ST; auto.
Qed.

Lemma lbatch_apply (conv : Z -> Z) k w l : k < N ->
  (forall z, (0 <= z < 2 ^ 32)%Z -> conv z = z) ->
  lbatch_inv roots k (w, l, Z.of_nat k) ->
  exists l', apply (fun x : W => conv (Z.of_nat (S k) * conv (s_to WT x))%Z) btrue (s_of LT) (acc32 LT) mnomask REPLACE
               l (Mat w) = Ok l' /\ wfm l' /\ nrows l' = nrows l /\ ncols l' = ncols l /\
    (forall r v, r < nrows l -> v < ncols l -> is_some (mget w r v) = true -> mget l r v = None ->
       mget l' r v = Some (lev (S k))) /\
    (forall r v d, r < nrows l -> v < ncols l -> mget w r v = None -> good u32 d -> mget l r v = Some (lev d) ->
       mget l' r v = Some (lev d)) /\
    (forall r v, r < nrows l -> v < ncols l -> mget w r v = None -> mget l r v = None -> mget l' r v = None).
Proof.
  intros Hk Hc (_ & Ww & Wl & Rw & Cw & Rl & Cl & H1 & F).
  destruct (apply_ok (fun x : W => conv (Z.of_nat (S k) * conv (s_to WT x))%Z) btrue (s_of LT) (acc32 LT) mnomask REPLACE
              l (Mat w)) as (l' & E & Wl' & Rl' & Cl' & Gl').
  { auto. } { auto. } { exact Logic.I. }
  { split; [exact Logic.I|]. simpl. split; congruence. }
  exists l'. do 4 (split; [assumption|]). split; [|split].
  - intros r v Hr Hv Hw Hn. rewrite Gl' by auto. simpl. rewrite Hn.
    destruct (mget w r v) as [b|] eqn:Eb; [|discriminate]. rewrite (H1 r v b Eb). simpl.
    unfold one. rewrite (proj1 HW), (Hc 1%Z), Z.mul_1_r, Hc, u32_id by lia. reflexivity.
  - intros r v y Hr Hv Hw Hy Hl. rewrite Gl' by auto. simpl. rewrite Hl, Hw. simpl.
    unfold lev. rewrite (proj2 Hy). reflexivity.
  - intros r v Hr Hv Hw Hl. rewrite Gl' by auto. simpl. rewrite Hl, Hw. reflexivity.
Qed.

Lemma lbatch_body k s : k < N ->
  lbatch_inv roots k s -> exists s', lbfs_batch_body tb LT WT G s = Ok s' /\ lbatch_inv roots (S k) s'.
Proof.
  intro Hk. destruct s as [[w l] d]. intro I. pose proof I as (-> & Ww & Wl & Rw & Cw & Rl & Cl & H1 & F).
  unfold lbfs_batch_body. replace (Z.of_nat k + 1)%Z with (Z.of_nat (S k)) by lia.
  rewrite (u64_id (Z.of_nat (S k))) by lia.
  destruct (lbatch_apply u64 k w l Hk) as (l' & -> & Wl' & Rl' & Cl' & Gn & Go & Ge).
  { intros z Hz. apply u64_id. lia. } { exact I. } cbn [bind].
  destruct (mxm_ok lor_l (land_l tb WT u64) (fun (b : T) (a : W) => land_l tb WT u64 a b) (s_of WT) (s_to WT) (s_true LT)
              (s_of WT) (NoAcc idc) (MComp l') REPLACE w (Mat w) (Mat G)) as (w' & -> & Ww' & Rw' & Cw' & Gw').
  { auto. } { auto. } { auto. } { auto. } { simpl; split; congruence. }
  { reflexivity. } { simpl; congruence. } { simpl; congruence. } { exact Logic.I. }
  cbn [bind]. exists (w', l', Z.of_nat (S k)). split; [reflexivity|].
  apply (lbatch_step k w l w' l' u64); auto.
  intros r v Hr Hv. rewrite Gw' by auto. simpl. unfold spec_write, smul. simpl.
  destruct (negb _); [|reflexivity]. unfold idc. rewrite ?option_map_id', Cw. reflexivity.
Qed.

Lemma lbatch_m_body k s : k < N ->
  lbatch_inv roots k s -> exists s', lbfs_level_m_body tb LT WT G s = Ok s' /\ lbatch_inv roots (S k) s'.
Proof.
  intro Hk. destruct s as [[w l] d]. intro I. pose proof I as (-> & Ww & Wl & Rw & Cw & Rl & Cl & H1 & F).
  unfold lbfs_level_m_body. replace (Z.of_nat k + 1)%Z with (Z.of_nat (S k)) by lia.
  rewrite (u32_id (Z.of_nat (S k))) by lia.
  destruct (lbatch_apply u32 k w l Hk) as (l' & -> & Wl' & Rl' & Cl' & Gn & Go & Ge).
  { intros z Hz. apply u32_id. lia. } { exact I. } cbn [bind].
  destruct (mxm_ok lor_l (land_l tb WT u32) (fun (b : T) (a : W) => land_l tb WT u32 a b) (s_of WT) (s_to WT) btrue
              (s_of WT) (NoAcc idc) mnomask REPLACE w (Mat w) (Mat G)) as (w1 & -> & Ww1 & Rw1 & Cw1 & Gw1).
  { auto. } { auto. } { auto. } { exact Logic.I. } { exact Logic.I. }
  { reflexivity. } { simpl; congruence. } { simpl; congruence. } { exact Logic.I. }
  cbn [bind].
  destruct (apply_ok idc (s_true LT) idc (NoAcc idc) (MComp l') REPLACE w1 (Mat w1))
    as (w2 & -> & Ww2 & Rw2 & Cw2 & Gw2).
  { auto. } { auto. } { auto. }
  { split; [simpl; split; congruence|]. split; reflexivity. }
  cbn [bind]. exists (w2, l', Z.of_nat (S k)). split; [reflexivity|].
  apply (lbatch_step k w l w2 l' u32); auto; try congruence.
  intros r v Hr Hv. rewrite Gw2 by congruence. simpl. unfold spec_write.
  destruct (negb _); [|reflexivity]. unfold idc. rewrite !option_map_id'.
  rewrite Gw1 by congruence. simpl. unfold spec_write, smul. simpl.
  unfold idc. rewrite ?option_map_id', Cw. reflexivity.
Qed.

Lemma lbatch_loop body n levels :
  (forall k s, k < N -> lbatch_inv roots k s -> exists s', body s = Ok s' /\ lbatch_inv roots (S k) s') ->
  wfm levels -> nrows levels = nrows roots -> ncols levels = N ->
  (forall r v, mget levels r v = None) -> (forall r v x, mget roots r v = Some x -> x = one) ->
  N < n ->
  exists l, (r <- mwhile n (fun s => has_vals (nvals (fst (fst s)))) body (roots, levels, 0%Z) ;;
             Ok (option_map (fun s => snd (fst s)) r)) = Ok (Some l) /\
    wfm l /\ nrows l = nrows roots /\ ncols l = N /\
    forall r v x, r < nrows roots -> v < N ->
      (mget l r v = Some x <-> exists d, x = lev (S d) /\ at_distance (edge G) (R r) d v).
Proof.
  intros Hbody Wl Rl Cl El H1 Hn. pose proof (edge_bound G N WG RG CG) as EB.
  destruct (mwhile_inv (fun s => has_vals (nvals (fst (fst s)))) body
              (lbatch_inv roots) N) with (n := n) (k := 0) (s := (roots, levels, 0%Z))
    as (k & [[w l] d] & E & I & C).
  - intros k [[w l] d] I C.
    assert (Hk : k < N).
    { destruct I as (_ & Ww & _ & Rw & Cw & _ & _ & _ & F).
      destruct (has_vals_m w Ww C) as (r & v & Hr & Hv & Hg). cbn [fst] in *. rewrite Rw in Hr. rewrite Cw in Hv.
      apply (at_distance_lt N (edge G) (R r) EB (brow_bound r) k v).
      apply (F r Hr); auto. apply is_some_true; auto. }
    split; [exact Hk|apply Hbody; auto].
  - split; [reflexivity|]. split; [auto|]. split; [auto|]. split; [auto|]. split; [auto|].
    split; [auto|]. split; [auto|]. split; [auto|]. intros r Hr. split; [|apply llevels_0; auto].
    intros v Hv. rewrite at_distance_0. apply is_some_true.
  - lia.
  - lia.
  - rewrite E. cbn [bind]. exists l.
    destruct I as (_ & Ww & Wl' & Rw & Cw & Rl' & Cl' & _ & F).
    split; [reflexivity|]. split; [auto|]. split; [auto|]. split; [auto|]. intros r v x Hr Hv.
    destruct (F r Hr) as [FW FL].
    apply (llevel_end (R r) (brow_bound r) k (fun v => is_some (mget w r v)) (mget l r)); auto.
    intros u Hu. rewrite (no_vals_m w Ww C). reflexivity.
Qed.

Theorem lbatch_ok n levels :
  wfm levels -> nrows levels = nrows roots -> ncols levels = N ->
  (forall r v, mget levels r v = None) -> (forall r v x, mget roots r v = Some x -> x = one) ->
  N < n ->
  exists l, lbatch_bfs_level_masked tb LT WT n G roots levels = Ok (Some l) /\
    wfm l /\ nrows l = nrows roots /\ ncols l = N /\
    forall r v x, r < nrows roots -> v < N ->
      (mget l r v = Some x <-> exists d, x = lev (S d) /\ at_distance (edge G) (R r) d v).
Proof.
  intros. unfold lbatch_bfs_level_masked. rewrite RG, CG, Cr, Nat.eqb_refl. cbn [negb orb].
  apply lbatch_loop; auto. exact lbatch_body.
Qed.

Theorem llevel_m_ok n levels :
  wfm levels -> nrows levels = nrows roots -> ncols levels = N ->
  (forall r v, mget levels r v = None) -> (forall r v x, mget roots r v = Some x -> x = one) ->
  N < n ->
  exists l, lbfs_level_m tb LT WT n G roots levels = Ok (Some l) /\
    wfm l /\ nrows l = nrows roots /\ ncols l = N /\
    forall r v x, r < nrows roots -> v < N ->
      (mget l r v = Some x <-> exists d, x = lev (S d) /\ at_distance (edge G) (R r) d v).
Proof. intros. apply lbatch_loop; auto. exact lbatch_m_body. Qed.
End Batch.
End Levels.
