(** Peer pressure clustering over any type of numbers. *)
From Coq Require Import Lia ZArith QArith Qcanon.
From Verif Require Import Base ModelLil ModelVec ModelHelpers ModelViews ModelMul ModelElem ModelIndex ModelUtils
  ModelAlgoBase ModelRank ModelCluster ModelFloat ModelClusterTypes Spec SpecOps SpecRank SpecCluster ProofBase ProofLil ProofVec ProofElem ProofReduce
  ProofUtils ProofContainers ProofGraph ProofRank ProofVis ProofRc ProofCluster.
Local Open Scope nat_scope.

Section Body.
Context {R : Type} (plus times : R -> R -> R) (rmax : R -> R -> R) (reqb : R -> R -> bool)
  (of_bool : bool -> R) (of_index : nat -> R) (good : R -> Prop) (key : R -> Z) (N : nat).
Hypothesis max_case : forall a b, rmax a b = a \/ rmax a b = b.
Hypothesis max_key : forall a b, good a -> good b -> key (rmax a b) = Z.max (key a) (key b).
Hypothesis eqb_key : forall a b, good a -> good b -> reqb a b = (key a =? key b)%Z.
Hypothesis one_times : forall a, good a -> times (of_bool true) a = a.
Hypothesis times_1 : forall a, good a -> times a (of_bool true) = a.
Hypothesis good_plus : forall a b, good a -> good b -> good (plus a b).
Hypothesis good_index : forall k, k <= N -> good (of_index k).
Hypothesis index_mono : forall j k, j < k -> k <= N -> (key (of_index j) < key (of_index k))%Z.

Lemma good_osum (l : list (option R)) : (forall x, In (Some x) l -> good x) -> forall x, osum plus l = Some x -> good x.
Proof.
  induction l as [|o l IH] using rev_ind; intros H x E; [discriminate|]. rewrite osum_snoc' in E.
  assert (IH' := IH (fun y Hy => H y (in_or_app _ _ _ (or_introl Hy)))).
  destruct (osum plus l) as [s|], o as [y|]; simpl in E; try discriminate; injection E as <-.
  - apply good_plus; [apply IH'; auto|apply H, in_or_app; right; left; auto].
  - apply IH'; auto.
  - apply H, in_or_app. right. left. auto.
Qed.

Lemma osum_rmax (l : list (option R)) : (forall x, In (Some x) l -> good x) ->
  match osum rmax l with
  | Some M => In (Some M) l /\ forall x, In (Some x) l -> (key x <= key M)%Z
  | None => forall x, In x l -> x = None
  end.
Proof.
  induction l as [|x l IH] using rev_ind; intro Gl; [simpl; tauto|]. rewrite osum_snoc'.
  specialize (IH (fun y Hy => Gl y (in_or_app _ _ _ (or_introl Hy)))).
  destruct (osum rmax l) as [M|] eqn:E.
  - destruct IH as (I & L). destruct x as [x|]; simpl oadd; cbv iota.
    + assert (GM : good M) by (apply Gl, in_or_app; auto). assert (Gx : good x) by (apply Gl, in_or_app; right; left; auto).
      pose proof (max_key M x GM Gx) as K. split.
      * apply in_or_app. destruct (max_case M x) as [-> | ->]; [left; auto|right; left; auto].
      * intros y Hy. apply in_app_or in Hy. destruct Hy as [Hy|[Hy|[]]].
        -- specialize (L y Hy). lia.
        -- injection Hy as ->. lia.
    + split; [apply in_or_app; auto|]. intros y Hy. apply in_app_or in Hy. destruct Hy as [Hy|[Hy|[]]]; [auto|discriminate].
  - destruct x as [x|]; simpl oadd; cbv iota.
    + split; [apply in_or_app; right; left; auto|]. intros y Hy. apply in_app_or in Hy. destruct Hy as [Hy|[Hy|[]]].
      * specialize (IH _ Hy). discriminate.
      * injection Hy as ->. lia.
    + intros y Hy. apply in_app_or in Hy. destruct Hy as [Hy|[Hy|[]]]; auto.
Qed.

(** The elements that are the greatest of a column. *)
Definition gpicked (f : nat -> option R) (i : nat) : option bool := omap2 reqb (f i) (osum rmax (map f (seq 0 N))).
Lemma gpicked_true f i : (forall k x, k < N -> f k = Some x -> good x) -> i < N ->
  (otrue btrue (gpicked f i) = true <->
   exists x, f i = Some x /\ forall i' x', i' < N -> f i' = Some x' -> (key x' <= key x)%Z).
Proof.
  intros Gf Hi. unfold gpicked. assert (Gl : forall x, In (Some x) (map f (seq 0 N)) -> good x).
  { intros x Hx. apply in_map_iff in Hx. destruct Hx as (k & Ek & Ik). apply in_seq in Ik. apply (Gf k); [lia|auto]. }
  pose proof (osum_rmax _ Gl) as H. destruct (osum rmax (map f (seq 0 N))) as [M|].
  - destruct H as (I & L). pose proof (Gl _ I) as GM. destruct (f i) as [x|] eqn:E; simpl.
    + unfold btrue. rewrite eqb_key by (auto; apply (Gf i); auto). rewrite Z.eqb_eq. split.
      * intros K. exists x. split; [auto|]. intros i' x' Hi' E'. rewrite K. apply L. rewrite <- E'. apply in_map, in_seq. lia.
      * intros (y & Ey & Hy). injection Ey as <-. apply in_map_iff in I. destruct I as (k & Ek & Ik). apply in_seq in Ik.
        apply Z.le_antisymm; [apply L; rewrite <- E; apply in_map, in_seq; lia|apply (Hy k); [lia|auto]].
    + split; [discriminate|]. intros (x & Ex & _). discriminate.
  - rewrite (H (f i)) by (apply in_map, in_seq; lia). simpl. split; [discriminate|]. intros (x & Ex & _). discriminate.
Qed.

Lemma rt_diag w f : vis N w f -> exists D : lil R, diag idc w = Ok D /\ rc N N D (fun i j => if i =? j then f i else None).
Proof.
  clear - w. intros (V & S0 & G). destruct (diag_ok idc w (proj1 V)) as (D & E & WD & R0 & C & GD).
  exists D. split; [auto|]. split; [auto|]. split; [congruence|]. split; [congruence|]. intros i j Hi Hj. rewrite GD.
  destruct (i =? j); auto. rewrite G by auto. destruct (f i); auto.
Qed.
Lemma rt_mul_eq_diag Cf f Tl fT D g :
  rc N N Cf f -> rc N N Tl fT -> rc N N D (fun i j => if i =? j then g i else None) ->
  exists Cf', rt_mul_eq reqb Cf Tl D = Ok Cf' /\ rc N N Cf' (fun i v => omap2 reqb (fT i v) (g v)).
Proof.
  intros H HT HD. unfold rt_mul_eq.
  destruct (rc_mxm N N N orb reqb (fun x y => reqb y x) idc idc btrue mnomask _ MERGE Cf Tl D _ _ _ H HT HD (mrc_none N N btrue))
    as (Cf' & E & H'). exists Cf'. split; [exact E|]. eapply rc_ext; [exact H'|]. intros i v Hi Hv. cbv beta. unfold wr.
  rewrite (osum_single _ _ N v Hv); [rewrite Nat.eqb_refl; auto|]. intros k Hk. rewrite (proj2 (Nat.eqb_neq k v)) by auto.
  destruct (fT i k); auto.
Qed.

Context {TA : Type} (ta : TA -> R) (fA : nat -> nat -> option TA).
Hypothesis posA : forall u v x, u < N -> v < N -> fA u v = Some x -> good (ta x).

Definition gvotes (m : nat -> nat -> bool) (i v : nat) : option R :=
  osum plus (map (fun u => if m i u then option_map ta (fA u v) else None) (seq 0 N)).
Definition gwins (m : nat -> nat -> bool) (i v : nat) : Prop :=
  exists x, gvotes m i v = Some x /\
    forall i' y, i' < N -> gvotes m i' v = Some y -> (key y < key x)%Z \/ (key y = key x /\ i' <= i).
Definition ground (m m' : nat -> nat -> bool) : Prop := forall i v, i < N -> v < N -> (m' i v = true <-> gwins m i v).
Fixpoint grounds (k : nat) (m m' : nat -> nat -> bool) : Prop :=
  match k with
  | O => forall i v, i < N -> v < N -> m' i v = m i v
  | S j => exists m1, ground m m1 /\ grounds j m1 m'
  end.

Lemma gvotes_good m i v x : v < N -> gvotes m i v = Some x -> good x.
Proof.
  intros Hv E. revert E. apply good_osum. intros y Hy. apply in_map_iff in Hy. destruct Hy as (u & Eu & Iu). apply in_seq in Iu.
  destruct (m i u); [|discriminate]. destruct (fA u v) as [a|] eqn:Ea; [|discriminate]. injection Eu as <-. apply (posA u v); auto; lia.
Qed.
Lemma gtally fC i v : only_true N fC -> i < N -> v < N ->
  osum plus (map (fun u => omap2 (fun (c : bool) (a : TA) => times (of_bool c) (ta a)) (fC i u) (fA u v)) (seq 0 N)) = gvotes (mem fC) i v.
Proof.
  intros HT Hi Hv. unfold gvotes. f_equal. apply map_ext_in. intros u Hu. apply in_seq in Hu. unfold mem.
  destruct (fC i u) as [b|] eqn:Eb; [|destruct (fA u v); reflexivity]. assert (b = true) by (destruct b; auto; exfalso; apply (HT i u); auto; lia). subst b.
  destruct (fA u v) as [a|] eqn:Ea; [|reflexivity]. simpl. f_equal. apply one_times. apply (posA u v); auto; lia.
Qed.

Definition gtal (m : nat -> nat -> bool) (v i : nat) : option R := gvotes m i v.
Definition gtal2 (m : nat -> nat -> bool) (v i : nat) : option R :=
  if otrue btrue (gpicked (gtal m v) i) then Some (of_index (i + 1)) else None.
Definition gelected (m : nat -> nat -> bool) (i v : nat) : bool := otrue btrue (gpicked (gtal2 m v) i).

Lemma index_le j k : j <= N -> k <= N -> (key (of_index j) <= key (of_index k))%Z -> j <= k.
Proof. intros Hj Hk L. destruct (le_lt_dec j k) as [|G]; auto. specialize (index_mono k j G Hj). lia. Qed.
Lemma index_le' j k : j <= k -> k <= N -> (key (of_index j) <= key (of_index k))%Z.
Proof. intros Hj Hk. destruct (Nat.eq_dec j k) as [->|]; [lia|]. assert (j < k) as L by lia. specialize (index_mono j k L Hk). lia. Qed.

Lemma gelected_wins m i v : i < N -> v < N -> (gelected m i v = true <-> gwins m i v).
Proof.
  intros Hi Hv. unfold gelected.
  assert (P : forall k, k < N -> (otrue btrue (gpicked (gtal m v) k) = true <->
    exists x, gvotes m k v = Some x /\ forall i' y, i' < N -> gvotes m i' v = Some y -> (key y <= key x)%Z)).
  { intros k Hk. exact (gpicked_true (gtal m v) k (fun k' x Hk' E => gvotes_good m k' v x Hv E) Hk). }
  rewrite gpicked_true; [|intros k x Hk E; unfold gtal2 in E; destruct (otrue _ _); [injection E as <-; apply good_index; lia|discriminate]|auto].
  unfold gtal2, gwins. split.
  - intros (x & Ex & L). destruct (otrue btrue (gpicked (gtal m v) i)) eqn:Ei; [|discriminate]. injection Ex as <-.
    apply P in Ei; [|auto]. destruct Ei as (x & Ex & M). exists x. split; [auto|]. intros i' y Hi' Ey. specialize (L i').
    pose proof (M i' y Hi' Ey) as Le. destruct (Z.eq_dec (key y) (key x)) as [Ev|Ne]; [|left; lia].
    right. split; [auto|]. assert (Q : otrue btrue (gpicked (gtal m v) i') = true).
    { apply P; auto. exists y. split; [auto|]. intros i2 y2 H2 E2. rewrite Ev. eapply M; eauto. }
    rewrite Q in L. specialize (L _ Hi' eq_refl). apply index_le in L; lia.
  - intros (x & Ex & M). exists (of_index (i + 1)).
    rewrite (proj2 (P i Hi)).
    2:{ exists x. split; [auto|]. intros i' y Hi' Ey. destruct (M i' y Hi' Ey) as [|(-> & _)]; lia. }
    split; [auto|]. intros i' x' Hi' E'. destruct (otrue btrue (gpicked (gtal m v) i')) eqn:Ei; [|discriminate]. injection E' as <-.
    apply P in Ei; [|auto]. destruct Ei as (y & Ey & M'). specialize (M' i x Hi Ex). apply index_le'; [|lia].
    destruct (M i' y Hi' Ey) as [|(_ & ?)]; lia.
Qed.

Lemma rt_pp_body_ok A nums C m Cf Tl fC fm fCf fTl :
  rc N N A fA -> rc N N nums (fun i j => if i =? j then Some (i + 1) else None) -> rc N N C fC -> only_true N fC ->
  vis N m fm -> rc N N Cf fCf -> rc N N Tl fTl ->
  exists m' Cf' Tl' fm' fTl', rt_pp_body plus times rmax reqb of_bool of_index ta A nums C m Cf Tl = Ok (m', Cf', Tl') /\
    vis N m' fm' /\ rc N N Tl' fTl' /\
    rc N N Cf' (fun i v => if gelected (mem fC) i v then Some true else None).
Proof.
  intros HA Hn HC OT Hm HCf HTl. unfold rt_pp_body, rt_col_max.
  destruct (rc_mxm N N N plus (fun (c : bool) (a : TA) => times (of_bool c) (ta a)) (fun (a : TA) (c : bool) => times (ta a) (of_bool c))
    idc idc btrue mnomask _ MERGE Tl C A _ _ _ HTl HC HA (mrc_none N N btrue)) as (T1 & -> & HT1). cbn [bind].
  apply (rc_ext N N T1 _ (fun i v => gtal (mem fC) v i)) in HT1.
  2:{ intros i v Hi Hv. cbv beta. unfold wr. rewrite gtally by auto. unfold gtal. reflexivity. }
  destruct (vis_reduce_t N N rmax MERGE m _ T1 _ Hm HT1) as (m1 & -> & Hm1). cbn [bind].
  destruct (rt_diag m1 _ Hm1) as (D1 & -> & HD1). cbn [bind].
  destruct (rt_mul_eq_diag Cf _ T1 _ D1 (fun v => osum rmax (map (gtal (mem fC) v) (seq 0 N))) HCf HT1 HD1) as (C1 & -> & HC1). cbn [bind].
  change (rc N N C1 (fun i v => gpicked (gtal (mem fC) v) i)) in HC1.
  destruct (rc_mxm N N N plus (fun (k : nat) (c : bool) => times (of_index k) (of_bool c)) (fun (c : bool) (k : nat) => times (of_bool c) (of_index k))
    idc idc btrue (MVal C1) _ REPLACE T1 nums C1 _ _ _ HT1 Hn HC1 (mrc_val N N btrue C1 _ HC1)) as (T2 & -> & HT2). cbn [bind].
  apply (rc_ext N N T2 _ (fun i v => gtal2 (mem fC) v i)) in HT2.
  2:{ intros i v Hi Hv. cbv beta. unfold wr, gtal2. destruct (otrue btrue (gpicked (gtal (mem fC) v) i)) eqn:E; [|reflexivity].
      rewrite (osum_single _ _ N i Hi).
      - rewrite Nat.eqb_refl. destruct (gpicked (gtal (mem fC) v) i) as [b|]; [|discriminate]. simpl in E. unfold btrue in E. subst b.
        cbn [omap2]. f_equal. apply times_1, good_index. lia.
      - intros k Hk. rewrite (proj2 (Nat.eqb_neq i k)) by auto. auto. }
  destruct (vis_reduce_t N N rmax MERGE m1 _ T2 _ Hm1 HT2) as (m2 & -> & Hm2). cbn [bind].
  destruct (rt_diag m2 _ Hm2) as (D2 & -> & HD2). cbn [bind].
  rewrite (lil_assign_ok N D1 D2 _ _ HD1 HD2). cbn [bind].
  destruct (rt_mul_eq_diag C1 _ T2 _ D2 (fun v => osum rmax (map (gtal2 (mem fC) v) (seq 0 N))) HC1 HT2 HD2) as (C2 & -> & HC2). cbn [bind].
  change (rc N N C2 (fun i v => gpicked (gtal2 (mem fC) v) i)) in HC2.
  destruct (rc_apply N N idc btrue (MVal C2) _ REPLACE C2 C2 _ _ HC2 HC2 (mrc_val N N btrue C2 _ HC2)) as (C3 & -> & HC3). cbn [bind].
  exists m2, C3, T2. do 2 eexists. split; [reflexivity|]. split; [exact Hm2|]. split; [exact HT2|].
  eapply rc_ext; [exact HC3|]. intros i v Hi Hv. cbv beta. unfold wr, gelected.
  destruct (gpicked (gtal2 (mem fC) v) i) as [[|]|]; reflexivity.
Qed.

Lemma rt_pp_loop_ok A nums n : forall C m Cf Tl fC fm fCf fTl,
  rc N N A fA -> rc N N nums (fun i j => if i =? j then Some (i + 1) else None) -> rc N N C fC -> only_true N fC ->
  vis N m fm -> rc N N Cf fCf -> rc N N Tl fTl ->
  exists C' fC', rt_pp_loop plus times rmax reqb of_bool of_index n ta A nums C m Cf Tl = Ok C' /\ rc N N C' fC' /\ only_true N fC' /\
    exists k, k <= n /\ grounds k (mem fC) (mem fC') /\ (k = n \/ ground (mem fC') (mem fC')).
Proof.
  induction n as [|n IH]; intros C m Cf Tl fC fm fCf fTl HA Hn HC OT Hm HCf HTl.
  - exists C, fC. split; [reflexivity|]. split; [auto|]. split; [auto|]. exists 0. split; [lia|]. split; [intros i v _ _; reflexivity|auto].
  - cbn [rt_pp_loop]. destruct (rt_pp_body_ok A nums C m Cf Tl fC fm fCf fTl HA Hn HC OT Hm HCf HTl)
      as (m' & Cf' & Tl' & fm' & fTl' & -> & Hm' & HTl' & HCf'). cbn [bind].
    assert (RD : ground (mem fC) (fun i v => gelected (mem fC) i v)).
    { intros i v Hi Hv. apply gelected_wins; auto. }
    destruct (lil_eqb Bool.eqb Cf' C) eqn:E.
    + exists C, fC. split; [reflexivity|]. split; [auto|]. split; [auto|]. exists 0. split; [lia|].
      split; [intros i v _ _; reflexivity|]. right.
      apply (lil_eqb_spec Bool.eqb Cf' C eqb_true_iff) in E. subst Cf'.
      intros i v Hi Hv. rewrite <- (RD i v Hi Hv). unfold mem at 1.
      rewrite <- (rc_get _ _ _ _ _ _ HC Hi Hv), (rc_get _ _ _ _ _ _ HCf' Hi Hv).
      destruct (gelected (mem fC) i v); tauto.
    + rewrite (lil_assign_ok N C Cf' _ _ HC HCf'). cbn [bind].
      destruct (IH Cf' m' Cf' Tl' _ _ _ _ HA Hn HCf' ltac:(intros i v _ _; destruct (gelected (mem fC) i v); discriminate) Hm' HCf' HTl')
        as (C' & fC' & E' & HC' & OT' & k & Hk & Rk & St).
      exists C', fC'. split; [exact E'|]. split; [auto|]. split; [auto|]. exists (S k). split; [lia|]. split; [|intuition lia].
      cbn [grounds]. eexists. split; [|exact Rk]. intros i v Hi Hv. rewrite <- (RD i v Hi Hv). unfold mem at 1.
      destruct (gelected (mem fC) i v); tauto.
Qed.

Lemma gwins_ext m m' i v : i < N -> (forall i v, i < N -> v < N -> m i v = m' i v) -> (gwins m i v <-> gwins m' i v).
Proof.
  clear - i. intros Hi H.
  assert (V : forall i', i' < N -> gvotes m i' v = gvotes m' i' v).
  { intros i' Hi'. unfold gvotes. f_equal. apply map_ext_in. intros u Hu. apply in_seq in Hu. rewrite H by lia. reflexivity. }
  unfold gwins. rewrite V by auto. split; intros (x & E & M); exists x; (split; [auto|]); intros i' y Hi' Ey; apply (M i' y); auto; rewrite V in * by auto; auto.
Qed.
Lemma ground_ext m1 m2 m1' m2' : (forall i v, i < N -> v < N -> m1 i v = m1' i v) -> (forall i v, i < N -> v < N -> m2 i v = m2' i v) ->
  ground m1 m2 -> ground m1' m2'.
Proof. clear - m1. intros H1 H2 Rd i v Hi Hv. rewrite <- H2, <- (gwins_ext m1 m1') by auto. apply Rd; auto. Qed.
Lemma grounds_ext k : forall m1 m2 m1' m2', (forall i v, i < N -> v < N -> m1 i v = m1' i v) -> (forall i v, i < N -> v < N -> m2 i v = m2' i v) ->
  grounds k m1 m2 -> grounds k m1' m2'.
Proof.
  clear - k. induction k as [|k IH]; intros m1 m2 m1' m2' H1 H2 Rd; simpl in *.
  - intros i v Hi Hv. rewrite <- H1, <- H2 by auto. auto.
  - destruct Rd as (m & R1 & R2). exists m. split; [eapply ground_ext; eauto|eapply IH; eauto].
Qed.

Definition goutcome (n : nat) (C : lil bool) (r : res (lil bool)) : Prop :=
  exists C' k, r = Ok C' /\ clustering N C' /\ k <= n /\ grounds k (member C) (member C') /\
    (k = n \/ ground (member C') (member C')).

Lemma rt_pp_run_ok {T} (zero : R) (makeA : res (lil TA)) (G : lil T) C n A :
  N <> 0 -> nrows G = N -> ncols G = N -> clustering N C -> makeA = Ok A -> rc N N A fA ->
  goutcome n C (rt_pp_run zero plus times rmax reqb of_bool of_index makeA ta G C n).
Proof.
  intros N0 RG CG (WC & RC & CC & OT) EA HA. unfold rt_pp_run. rewrite RG, CG, RC, CC, !Nat.eqb_refl. cbn [negb orb].
  destruct (cluster_nums_ok N) as (nums & -> & Hn). cbn [bind]. rewrite EA. cbn [bind].
  destruct (vis_new zero N N0) as (m & -> & Hm). cbn [bind].
  destruct (rt_pp_loop_ok A nums n C m (lil_new N N) (lil_new N N) (mget C) _ _ _ HA Hn
    ltac:(split; [auto|split; [auto|split; [auto|auto]]]) (fun i v _ _ => OT i v) Hm (rc_new N N) (rc_new N N))
    as (C' & fC' & E & HC' & OT' & k & Hk & Rk & St).
  assert (EM : forall i v, i < N -> v < N -> mem fC' i v = member C' i v).
  { intros i v Hi Hv. unfold mem, member. rewrite (rc_get _ _ _ _ _ _ HC') by auto. reflexivity. }
  exists C', k. split; [exact E|]. split.
  { destruct HC' as (W' & R' & C0' & G'). split; [auto|split; [auto|split; [auto|]]]. intros i v.
    destruct (Nat.lt_ge_cases i N); [destruct (Nat.lt_ge_cases v N)|].
    - rewrite G' by auto. auto.
    - rewrite mget_oob; auto; [discriminate|lia].
    - rewrite mget_oob; auto; [discriminate|lia]. }
  split; [auto|]. split.
  - eapply grounds_ext; [|exact EM|exact Rk]. intros; reflexivity.
  - destruct St as [|St]; [auto|]. right. eapply ground_ext; [exact EM|exact EM|exact St].
Qed.
End Body.
