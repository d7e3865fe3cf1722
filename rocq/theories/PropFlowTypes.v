(** Maximum flows over the built-in integer types and over [float] and [double] (C144, C145). *)
From Coq Require Import Lia ZArith Floats.SpecFloat.
From Verif Require Import Base ModelLil ModelVec ModelHelpers ModelViews ModelAlgoBase ModelAlgebra ModelOps ModelFloat ModelFsssp
  ModelInts ModelIntPaths ModelMstTypes ModelDeltaTypes ModelFlow ModelFlowTypes Spec SpecOps SpecAlgebra SpecFloats SpecInts SpecIntPaths SpecFlow
  ProofLil ProofAlgebra ProofLaws ProofOps ProofFloat ProofInts ProofExact ProofIntPaths ProofDelta ProofDeltaTypes ProofFlow ProofFordFulk ProofFlowTypes ProofViews
  PropFlow PropInts PropDeltaTypes SpecRel.
Local Open Scope Z_scope.

(** ** The operators *)
Section Wrapped.
Variable t : ctype.
Hypothesis HT : plus_wraps t.
Lemma wraps_int : integer_type t.
Proof. destruct HT as (s & w & E & _). exists s, w. exact E. Qed.
Lemma wrapped_neg a x : wrapped t a x -> wrapped t (- a) (op1 AdditiveInverse t x).
Proof.
  intros ->. unfold wrapped, op1, AdditiveInverse.
  assert (A : exists r, arith (promote t) (- convert t a) = Ok r).
  { pose proof (convert_inty t a) as I. destruct HT as (s & w & -> & H). destruct s.
    - destruct (H eq_refl) as [->| ->]; cbn [promote]; unfold arith; unfold inty in I; cbn in I |- *;
        match goal with |- context [if ?c then _ else _] => assert (c = true) as -> by (apply andb_true_iff; split; apply Z.leb_le; lia) end; eauto.
    - destruct w; cbn [promote]; unfold arith; unfold inty in I; cbn in I |- *; eauto;
        match goal with |- context [if ?c then _ else _] => assert (c = true) as -> by (apply andb_true_iff; split; apply Z.leb_le; lia) end; eauto. }
  destruct A as (r & E). rewrite E. cbn [bind]. f_equal. rewrite (arith_convert _ _ _ E).
  destruct HT as (s & w & -> & _). apply convert_eq_iff.
  rewrite <- (Z.sub_0_l (convert _ a)), <- (Z.sub_0_l a), Zminus_mod, convert_mod, <- Zminus_mod. reflexivity.
Qed.
Lemma wrapped_id a x : 0 <= a <= tmax t -> wrapped t a x -> x = Ok a.
Proof. intros H ->. f_equal. apply convert_id. split; [pose proof (tmin_neg t wraps_int); lia|lia]. Qed.
Lemma wrapped_min a x b y : 0 <= a <= tmax t -> 0 <= b <= tmax t -> wrapped t a x -> wrapped t b y -> wrapped t (zmin a b) (op2 Min t x y).
Proof.
  intros Ha Hb Hx Hy. pose proof (wrapped_id a x Ha Hx) as Ex. pose proof (wrapped_id b y Hb Hy) as Ey. subst x y.
  unfold zmin, op2, Min. destruct (a <? b); auto.
Qed.
Lemma wrapped_true a x : 0 <= a <= tmax t -> wrapped t a x -> inonzero x = ztrue a.
Proof. intros Ha Hx. rewrite (wrapped_id a x Ha Hx). reflexivity. Qed.
Lemma wrapped_one a x : 0 <= a <= tmax t -> wrapped t a x -> wrapped t a (op2 Times t (Ok 1) x).
Proof.
  intros Ha Hx. pose proof (wrapped_id a x Ha Hx) as Ex. subst x. cbn [op2].
  rewrite fits_times; [rewrite Z.mul_1_l; exact Hx| |rewrite Z.mul_1_l; split; [pose proof (tmin_neg t wraps_int); lia|lia]].
  apply wraps_int.
Qed.
Lemma wrapped_chkm M M' : mrel (wrapped t) M M' -> defined_m M' = Ok M'.
Proof.
  intros (_ & W' & _ & _ & H). apply defined_m_ok; [auto|]. intros i j x E. specialize (H i j). rewrite E in H.
  destruct (mget M i j); simpl in H; [|contradiction]. rewrite H. eauto.
Qed.
End Wrapped.
Lemma classic_wraps t : integer_type t -> plus_wraps t \/ ~ plus_wraps t /\ exists w, t = CInt true w.
Proof.
  intros (s & w & ->). destruct s; [|left; exists false, w; split; [auto|discriminate]].
  destruct w; [left; exists true, W8; auto|left; exists true, W16; auto|right..];
    (split; [|eauto]); intros (s & w & E & H); inversion E; subst; destruct (H eq_refl); discriminate.
Qed.
Lemma IR_neg w a x : Z.abs a <= tmax (CInt true w) -> IR (CInt true w) a x -> IR (CInt true w) (- a) (op1 AdditiveInverse (CInt true w) x).
Proof.
  intros L [-> _]. assert (I : inty (CInt true w) (- a)) by (apply inty_bound; [exists true, w; auto|lia|destruct w; vm_compute; intro E; discriminate E]).
  split; [|auto]. unfold op1, AdditiveInverse. destruct (arith_inty _ _ I) as (r & E). rewrite E. cbn [bind]. f_equal.
  rewrite (arith_convert _ _ _ E). apply convert_id. auto.
Qed.
Lemma FR_neg t a x : FR t a x -> FR t (- a) (FAdditiveInverse t x).
Proof.
  intros [Nx H]. split; [apply opp_number; auto|]. rewrite opp_sv. destruct H as [[L E]|[[-> ->]|[-> ->]]].
  - left. split; lia.
  - right; right. split; [lia|reflexivity].
  - right; left. split; [lia|reflexivity].
Qed.

(** ** C144: the flow returned.  [capacity G] are the capacities; the flow from [u] to [v] cancels that from [v] to [u], so that a
    residual capacity can reach [capacity G u v + capacity G v u]. *)
Lemma flow_value_nonneg N cap source sink x lo n : (source < N)%nat -> (forall u v, 0 <= cap u v) -> 0 <= lo -> 0 <= n ->
  is_max_flow N cap source sink x \/ lo * n <= x -> 0 <= x.
Proof.
  intros Hs Hc L1 L2 [[_ H]|H]; [|nia]. assert (Z0 : zsum N (fun _ => 0) = 0) by (apply zsum_zero; auto).
  specialize (H (fun _ _ => 0)). unfold flow_value in H. rewrite Z0 in H. apply H. split; [auto|]. split; [intros; apply Hc|intros; exact Z0].
Qed.

(** [lo] is 0 or 1: a lower bound of the capacities. *)
Lemma flow_integers t (G : lil Z) (G' : lil ival) N n source sink lo : integer_type t ->
  mrel (exactly t (tmax t)) G G' -> nrows G = N -> ncols G = N -> (source < N)%nat -> (sink < N)%nat -> source <> sink ->
  0 <= lo <= 1 -> (forall i j c, mget G i j = Some c -> lo <= c) ->
  (forall u v, (u < N)%nat -> (v < N)%nat -> capacity G u v + capacity G v u <= tmax t) ->
  (plus_wraps t \/ zsum N (fun u => Z.max (capacity G u sink) (capacity G sink u)) <= tmax t) ->
  (N < n)%nat -> nvals G < Z.of_nat n ->
  exists x, imaxflow t n G' source sink = Ok (Some (Ok (convert t x))) /\ 0 <= x /\
    (exists f, is_flow N (capacity G) source sink f /\ flow_value N sink f = x) /\
    (is_max_flow N (capacity G) source sink x \/ lo * nvals G <= x).
Proof.
  intros T HG RG CG Hs Ht Hst Hlo Hc HB HS Hn1 Hn2.
  assert (NV : 0 <= nvals G) by (destruct HG as ((_ & ->) & _); lia).
  assert (NN : forall u v, 0 <= capacity G u v) by (intros u v; unfold capacity; destruct (mget G u v) eqn:E; [apply Hc in E; lia|lia]).
  assert (T1 : 1 <= tmax t) by (destruct T as (s & w & ->); destruct s, w; vm_compute; discriminate).
  destruct (classic_wraps t T) as [W|(NW & w & E)].
  - assert (HG' : mrel (wrapped t) G G').
    { eapply mrel_impl; [|exact HG]. intros z x (-> & I & _). unfold wrapped. rewrite convert_id; auto. }
    destruct (gford_fulk_ok (wrapped t) (tmax t) (tmax t) (fun _ => True) (op2 Min t) (op2 Plus t) (op2 Times t) (op1 AdditiveInverse t) inonzero
      (fun b => Ok (if b then 1%Z else 0%Z)) (Ok 0%Z) (Ok (tmax t)) defined defined_m) with (G := G) (G' := G') (N := N) (source := source)
      (sink := sink) (lo := lo) (n := n) as (x & x' & E & Rx & F & M); auto; try lia.
    + intros. apply wrapped_plus; auto.
    + intros. apply wrapped_neg; auto.
    + intros. apply wrapped_min; auto.
    + intros. apply (wrapped_true t W); auto.
    + intros. apply (wrapped_one t W); auto.
    + unfold wrapped. rewrite convert_id; [auto|apply convert_range_0].
    + unfold wrapped. rewrite convert_id; [auto|]. split; [pose proof (tmin_neg t T); lia|lia].
    + intros z y ->. reflexivity.
    + intros. eapply wrapped_chkm; eauto.
    + exists x. rewrite Rx in E. split; [exact E|]. split; [|auto]. eapply (flow_value_nonneg N _ source sink x lo (nvals G)); eauto; lia.
  - subst t. destruct HS as [HS|HS].
    { contradiction. }
    set (t := CInt true w) in *.
    assert (HG' : mrel (IR t) G G') by (eapply mrel_impl; [|exact HG]; intros z x (-> & I & _); split; auto).
    destruct (gford_fulk_ok (IR t) (tmax t) (tmax t) (fun z => Z.abs z <= tmax t) (op2 Min t) (op2 Plus t) (op2 Times t) (op1 AdditiveInverse t) inonzero
      (fun b => Ok (if b then 1%Z else 0%Z)) (Ok 0%Z) (Ok (tmax t)) defined defined_m) with (G := G) (G' := G') (N := N) (source := source)
      (sink := sink) (lo := lo) (n := n) as (x & x' & E & Rx & F & M); auto; try lia.
    + intros. apply IR_plus; auto.
    + intros. apply IR_neg; auto.
    + intros. apply IR_min; auto.
    + intros a x _ Hx. symmetry. apply (IR_true t a x Hx).
    + intros a x La Hx. rewrite <- (Z.mul_1_l a). apply (IR_times t T 1 (Ok 1) a x); auto; try lia. apply (IR_bool t T true).
    + apply IR_0; auto.
    + apply IR_high; auto.
    + intros z y Hz. apply (IR_chk t z y Hz).
    + intros. eapply IR_chkm; eauto.
    + intros f (A1 & A2 & _) k Hk. apply Z.le_trans with (2 := HS). apply zsum_partial; [auto|]. intros i Hi.
      pose proof (A1 i sink Hi Ht). pose proof (A2 i sink Hi Ht). pose proof (A2 sink i Ht Hi). lia.
    + exists x. destruct Rx as [-> I]. rewrite (convert_id t x I). split; [exact E|]. split; [|auto].
      eapply (flow_value_nonneg N _ source sink x lo (nvals G)); eauto; lia.
Qed.

Lemma flow_floats t (G : lil Z) (G' : lil fval) N n source sink lo :
  mrel (fexactly t (2 ^ prec t)) G G' -> nrows G = N -> ncols G = N -> (source < N)%nat -> (sink < N)%nat -> source <> sink ->
  0 <= lo <= 1 -> (forall i j c, mget G i j = Some c -> lo <= c) ->
  (forall u v, (u < N)%nat -> (v < N)%nat -> capacity G u v + capacity G v u <= 2 ^ prec t) ->
  zsum N (fun u => Z.max (capacity G u sink) (capacity G sink u)) <= 2 ^ prec t ->
  (N < n)%nat -> nvals G < Z.of_nat n ->
  exists x x', fmaxflow t n G' source sink = Ok (Some x') /\ fexactly t (2 ^ prec t) x x' /\
    (exists f, is_flow N (capacity G) source sink f /\ flow_value N sink f = x) /\
    (is_max_flow N (capacity G) source sink x \/ lo * nvals G <= x).
Proof.
  intros HG RG CG Hs Ht Hst Hlo Hc HB HS Hn1 Hn2. pose proof (P_pos t) as PP.
  assert (HG' : mrel (FR t) G G').
  { eapply mrel_impl; [|exact HG]. intros z x Hx. apply FR_ex in Hx; [apply Hx|lia]. }
  assert (PS : forall f, is_flow N (capacity G) source sink f -> forall k, (k <= N)%nat -> Z.abs (zsum k (fun u => f u sink)) <= 2 ^ prec t).
  { intros f (A1 & A2 & _) k Hk. apply Z.le_trans with (2 := HS). apply zsum_partial; [auto|]. intros i Hi.
    pose proof (A1 i sink Hi Ht). pose proof (A2 i sink Hi Ht). pose proof (A2 sink i Ht Hi). lia. }
  destruct (gford_fulk_ok (FR t) (2 ^ prec t) (2 ^ prec t + 1) (fun z => Z.abs z <= 2 ^ prec t) (FMin t) (FPlus t) (FTimes t) (FAdditiveInverse t)
    ftrue (fun b : bool => if b then f1 t else f0) f0 finf Ok Ok) with (G := G) (G' := G') (N := N) (source := source)
      (sink := sink) (lo := lo) (n := n) as (x & x' & E & Rx & F & M); auto; try lia.
  - intros. apply FR_plus; auto.
  - intros. apply FR_neg; auto.
  - intros. apply FR_min; auto.
  - intros a x _ Hx. symmetry. apply (FR_true t a x Hx).
  - intros a x La Hx. rewrite <- (Z.mul_1_l a). apply (FR_times t 1 (f1 t) a x); auto; try lia. apply (FR_bool t true).
  - apply FR_0.
  - apply FR_high.
  - exists x, x'. split; [exact E|]. split; [|auto]. apply FR_ex; [lia|]. split; [auto|].
    destruct F as (f & Ff & <-). apply (PS f Ff N). lia.
Qed.

(** The value returned is that of a flow that respects the capacities, reduced to the type; over types whose addition is undefined on
    overflow the net flows into the sink must not exceed the type when they are added up. *)
Theorem C144_feasible_integers :
  forall (t : ctype) (G : lil Z) (G' : lil ival) (N n source sink : nat), integer_type t ->
    mrel (exactly t (tmax t)) G G' -> nrows G = N -> ncols G = N -> (source < N)%nat -> (sink < N)%nat -> source <> sink ->
    (forall i j c, mget G i j = Some c -> 0 <= c) ->
    (forall u v, (u < N)%nat -> (v < N)%nat -> capacity G u v + capacity G v u <= tmax t) ->
    (plus_wraps t \/ zsum N (fun u => Z.max (capacity G u sink) (capacity G sink u)) <= tmax t) ->
    (N < n)%nat -> nvals G < Z.of_nat n ->
    exists x, imaxflow t n G' source sink = Ok (Some (Ok (convert t x))) /\ (x <= tmax t -> convert t x = x) /\
      exists f, is_flow N (capacity G) source sink f /\ flow_value N sink f = x.
Proof.
  intros t G G' N n source sink T HG RG CG Hs Ht Hst Hc HB HS Hn1 Hn2.
  destruct (flow_integers t G G' N n source sink 0 T HG RG CG Hs Ht Hst ltac:(lia) Hc HB HS Hn1 Hn2) as (x & E & P & F & _).
  exists x. split; [exact E|]. split; [|exact F]. intro L. apply convert_id. split; [pose proof (tmin_neg t T); lia|lia].
Qed.
Print Assumptions C144_feasible_integers.

(** It is the maximum when the capacity of some cut is at most the number of edges (see C67) and a value of the type. *)
Theorem C144_max_integers :
  forall (t : ctype) (G : lil Z) (G' : lil ival) (N n source sink : nat) (S : nat -> bool), integer_type t ->
    mrel (exactly t (tmax t)) G G' -> nrows G = N -> ncols G = N -> (source < N)%nat -> (sink < N)%nat -> source <> sink ->
    (forall i j c, mget G i j = Some c -> 1 <= c) ->
    (forall u v, (u < N)%nat -> (v < N)%nat -> capacity G u v + capacity G v u <= tmax t) ->
    (plus_wraps t \/ zsum N (fun u => Z.max (capacity G u sink) (capacity G sink u)) <= tmax t) ->
    is_cut N source sink S -> cut_capacity N (capacity G) S <= nvals G -> cut_capacity N (capacity G) S <= tmax t ->
    (N < n)%nat -> nvals G < Z.of_nat n ->
    exists x, imaxflow t n G' source sink = Ok (Some (Ok x)) /\ is_max_flow N (capacity G) source sink x.
Proof.
  intros t G G' N n source sink S T HG RG CG Hs Ht Hst Hc HB HS HC L1 L2 Hn1 Hn2.
  destruct (flow_integers t G G' N n source sink 1 T HG RG CG Hs Ht Hst ltac:(lia) Hc HB HS Hn1 Hn2) as (x & E & P & (f & Ff & V) & M).
  exists x. assert (MX : is_max_flow N (capacity G) source sink x).
  { destruct M as [M|M]; [exact M|]. rewrite <- V. apply (cut_max N (capacity G) source sink Hs Ht f S Ff HC). lia. }
  split; [|exact MX]. rewrite convert_id in E; [exact E|]. split; [pose proof (tmin_neg t T); lia|].
  rewrite <- V. pose proof (flow_le_cut N (capacity G) source sink Hs Ht f S Ff HC). lia.
Qed.
Print Assumptions C144_max_integers.

Theorem C144_floating_point :
  forall (t : ftype) (G : lil Z) (G' : lil fval) (N n source sink : nat),
    mrel (fexactly t (2 ^ prec t)) G G' -> nrows G = N -> ncols G = N -> (source < N)%nat -> (sink < N)%nat -> source <> sink ->
    (forall i j c, mget G i j = Some c -> 0 <= c) ->
    (forall u v, (u < N)%nat -> (v < N)%nat -> capacity G u v + capacity G v u <= 2 ^ prec t) ->
    zsum N (fun u => Z.max (capacity G u sink) (capacity G sink u)) <= 2 ^ prec t ->
    (N < n)%nat -> nvals G < Z.of_nat n ->
    exists x x', fmaxflow t n G' source sink = Ok (Some x') /\ fexactly t (2 ^ prec t) x x' /\
      (exists f, is_flow N (capacity G) source sink f /\ flow_value N sink f = x) /\
      (forall S, (forall i j c, mget G i j = Some c -> 1 <= c) -> is_cut N source sink S -> cut_capacity N (capacity G) S <= nvals G ->
         is_max_flow N (capacity G) source sink x).
Proof.
  intros t G G' N n source sink HG RG CG Hs Ht Hst Hc HB HS Hn1 Hn2.
  destruct (flow_floats t G G' N n source sink 0 HG RG CG Hs Ht Hst ltac:(lia) Hc HB HS Hn1 Hn2) as (x & x' & E & Rx & F & _).
  exists x, x'. split; [exact E|]. split; [exact Rx|]. split; [exact F|]. intros S Hc1 HC L.
  destruct (flow_floats t G G' N n source sink 1 HG RG CG Hs Ht Hst ltac:(lia) Hc1 HB HS Hn1 Hn2) as (y & y' & E' & Ry & (f & Ff & V) & M).
  assert (y' = x') by congruence. subst y'.
  assert (EQ : x = y).
  { pose proof (P_pos t). apply FR_ex in Rx; [|lia]. apply FR_ex in Ry; [|lia]. destruct Rx as [Rx _], Ry as [Ry _].
    pose proof (FR_order t x x' y x' Rx Ry) as O. rewrite Z.compare_refl in O. symmetry in O. apply Z.compare_eq in O. auto. }
  rewrite EQ. destruct M as [M|M]; [exact M|]. rewrite <- V. apply (cut_max N (capacity G) source sink Hs Ht f S Ff HC). lia.
Qed.
Print Assumptions C144_floating_point.

(** Over [unsigned char]: the flow from 1 to 2 is sent back along the second path; -1 is represented by 255. *)
Example C144_example :
  wfm eff_G /\ (forall u v, (u < 8)%nat -> (v < 8)%nat -> capacity eff_G u v + capacity eff_G v u <= tmax u8) /\ plus_wraps u8 /\
  imaxflow u8 10 (lil_map Ok eff_G) 0 5 = Ok (Some (Ok 2)) /\
  imaxflow i32 10 (lil_map Ok eff_G) 0 5 = Ok (Some (Ok 2)) /\
  fmaxflow CFloat 10 (lil_map (of_int CFloat) eff_G) 0 5 = Ok (Some (of_int CFloat 2)).
Proof.
  split; [wf_mat|]. split.
  { intros u v Hu Hv. do 8 (destruct u as [|u]; [do 8 (destruct v as [|v]; [vm_compute; discriminate|]); lia|]). lia. }
  split; [exists false, W8; split; [auto|discriminate]|]. split; [vm_compute; reflexivity|]. split; vm_compute; reflexivity.
Qed.

(** ** C145: capacities, and even the maximum flow, that are values of the type are not enough *)

(** [int]: an edge each way, both with capacity 2^30; the residual capacity of the second one would be 2^31. *)
Definition both (c : Z) : lil Z := mkLil 2 2 2%Z [[(1%nat, c)]; [(0%nat, c)]].
Theorem C145_undefined_refuted :
  exists (G : lil Z), wfm G /\ (forall i j c, mget G i j = Some c -> 1 <= c <= tmax i32) /\
    (exists x, is_max_flow 2 (capacity G) 0 1 x /\ x <= tmax i32 /\ maxflow_ford_fulk (tmax i32) 3 G 0 1 = Ok (Some x)) /\
    forall n, (3 <= n)%nat -> imaxflow i32 n (lil_map Ok G) 0 1 = UB.
Proof.
  exists (both (2 ^ 30)). split; [wf_mat|].
  assert (C : forall i j c, mget (both (2 ^ 30)) i j = Some c -> c = 2 ^ 30).
  { intros [|[|i]] [|[|j]] c E; try discriminate; try (injection E as <-; reflexivity); destruct i; discriminate. }
  split; [intros i j c E; rewrite (C i j c E); vm_compute; split; discriminate|]. split.
  - exists (2 ^ 30). split; [|split; [vm_compute; discriminate|vm_compute; reflexivity]]. split.
    + exists (fun u v => if (u =? 0)%nat && (v =? 1)%nat then 2 ^ 30 else if (u =? 1)%nat && (v =? 0)%nat then - 2 ^ 30 else 0).
      split; [|vm_compute; reflexivity]. split; [|split].
      * intros [|[|u]] [|[|v]] Hu Hv; try lia; vm_compute; reflexivity.
      * intros [|[|u]] [|[|v]] Hu Hv; try lia; vm_compute; discriminate.
      * intros [|[|v]] Hv; lia.
    + intros f (A1 & A2 & _). unfold flow_value. rewrite !zsum_S, zsum_0.
      pose proof (A1 1%nat 1%nat ltac:(lia) ltac:(lia)). pose proof (A2 0%nat 1%nat ltac:(lia) ltac:(lia)) as H1. unfold capacity in H1. simpl in H1. lia.
  - intros n Hn. do 3 (destruct n as [|n]; [lia|]). vm_compute. reflexivity.
Qed.
Print Assumptions C145_undefined_refuted.

(** [unsigned char]: the residual capacity of the edge from 2 to 1 is 256 after the flow from 1 to 2, stored as 0, which removes the edge.
    The second path, which needs it, is not found: 128 is returned, 228 is the maximum. *)
Definition lost : lil Z :=
  mkLil 6 6 8%Z [[(1%nat, 128); (3%nat, 100)]; [(2%nat, 128); (4%nat, 128)]; [(1%nat, 128); (5%nat, 128)]; [(2%nat, 128)]; [(5%nat, 128)]; []].
Definition lost_flow (u v : nat) : Z :=
  let f (u v : nat) := match u, v with
    | 0%nat, 1%nat => 128 | 0%nat, 3%nat => 100 | 1%nat, 2%nat => 28 | 1%nat, 4%nat => 100 | 2%nat, 5%nat => 128 | 3%nat, 2%nat => 100
    | 4%nat, 5%nat => 100 | _, _ => 0 end in f u v - f v u.
Theorem C145_lost_edge_refuted :
  exists (G : lil Z) (f : nat -> nat -> Z) (x : Z), wfm G /\ (forall i j c, mget G i j = Some c -> 1 <= c <= tmax u8) /\
    is_flow 6 (capacity G) 0 5 f /\ flow_value 6 5 f <= tmax u8 /\
    maxflow_ford_fulk (tmax u8) 9 G 0 5 = Ok (Some (flow_value 6 5 f)) /\
    x < flow_value 6 5 f /\ forall n, (9 <= n)%nat -> imaxflow u8 n (lil_map Ok G) 0 5 = Ok (Some (Ok x)).
Proof.
  exists lost, lost_flow, 128. split; [wf_mat|]. split.
  { intros i j c. destruct (Nat.lt_ge_cases i 6), (Nat.lt_ge_cases j 6).
    2, 3, 4: rewrite mget_oob by (try wf_mat; simpl; lia); discriminate.
    do 6 (destruct i as [|i]; [do 6 (destruct j as [|j]; [intro E; vm_compute in E; try discriminate; injection E as <-; vm_compute; split; discriminate|]); lia|]). lia. }
  split.
  { split; [|split].
    - intros u v _ _. unfold lost_flow. lia.
    - intros u v Hu Hv. do 6 (destruct u as [|u]; [do 6 (destruct v as [|v]; [vm_compute; discriminate|]); lia|]). lia.
    - intros v Hv N1 N2. do 6 (destruct v as [|v]; [vm_compute; congruence|]). lia. }
  split; [vm_compute; discriminate|]. split; [vm_compute; reflexivity|]. split; [vm_compute; reflexivity|].
  intros n Hn. do 9 (destruct n as [|n]; [lia|]). vm_compute. reflexivity.
Qed.
Print Assumptions C145_lost_edge_refuted.
