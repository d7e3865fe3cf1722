(** Push and relabel over [float] and [double] with integer capacities: a run follows the run over the unbounded integers. *)
From Coq Require Import Lia ZArith Floats.SpecFloat.
From Verif Require Import Base ModelLil ModelVec ModelHelpers ModelViews ModelMul ModelElem
  ModelIndex ModelAlgoBase ModelFlow ModelPush ModelAlgebra ModelOps ModelFloat ModelConv ModelPushFloat Spec SpecOps SpecFlow
  SpecAlgebra SpecFloats SpecRel ProofBase ProofLil ProofVec
  ProofViews ProofReduce ProofVis ProofFlow ProofDelta ProofElem ProofFloat ProofConv ProofIntPaths ProofDeltaTypes ProofPush ProofPushTypes.
Local Open Scope Z_scope.

Section Arith.
Context (t : ftype).
Notation P := (2 ^ prec t).
Notation FR := (ProofIntPaths.FR t).

Lemma FR_minus a x b y : Z.abs a <= P -> Z.abs b <= P -> Z.abs (a - b) <= P -> FR a x -> FR b y -> FR (a - b) (FMinus t x y).
Proof.
  intros La Lb L Hx Hy. rewrite minus_plus. apply (FR_plus t a x (- b)); auto; try lia.
  destruct (FR_finite t b y Lb Hy) as [_ S]. split; [apply opp_number, Hy|]. left. split; [lia|]. rewrite opp_sv, S. lia.
Qed.
Lemma FR_1 : FR 1 (f1 t).
Proof. apply (FR_bool t true). Qed.
Lemma FR_zero z : Z.abs z <= P -> FR z ModelFloat.f0 -> z = 0.
Proof. intros L H. destruct (FR_finite t z ModelFloat.f0 L H) as [_ S]. pose proof (unit_pos t). unfold sv in S. simpl in S. nia. Qed.
Lemma fmax_number : number t (fmax t).
Proof. split; [destruct t; vm_compute; reflexivity|discriminate]. Qed.
Lemma fmax_big : P * unit_of t < sv t (fmax t).
Proof. destruct t; vm_compute; reflexivity. Qed.
Lemma lt_fmax z x : Z.abs z <= P -> FR z x -> SFltb x (fmax t) = true.
Proof.
  intros L H. destruct (FR_finite t z x L H) as [_ S]. rewrite (ltb_sv t) by (apply H || apply fmax_number). apply Z.ltb_lt.
  rewrite S. pose proof fmax_big. pose proof (unit_pos t). nia.
Qed.
Lemma fmax_absorbs x : number t x -> - P * unit_of t <= sv t x <= P * unit_of t -> FPlus t (fmax t) x = fmax t.
Proof.
  intros N B. pose proof fmax_number as NM. pose proof fmax_big as BM. pose proof (unit_pos t) as UP. pose proof (P_pos t) as PP.
  assert (A1 : FPlus t (fmax t) (of_int t (- P)) = fmax t) by (destruct t; vm_compute; reflexivity).
  assert (A2 : FPlus t (fmax t) (of_int t P) = fmax t) by (destruct t; vm_compute; reflexivity).
  destruct (int_ok t (- P) ltac:(lia)) as (N1 & F1 & S1). destruct (int_ok t P ltac:(lia)) as (N2 & F2 & S2).
  change (sv t (of_int t (- P)) = - P * unit_of t) in S1. change (sv t (of_int t P) = P * unit_of t) in S2.
  assert (FX : finite x).
  { destruct x as [s|s| |s m e]; try exact I; [|destruct N; congruence].
    pose proof (unit_big t). unfold sv in B. simpl in B. destruct s; simpl in B; nia. }
  assert (FM : finite (fmax t)) by exact I.
  destruct (plus_fin t (fmax t) x (proj1 NM) (proj1 N) FM FX) as [NX _].
  assert (L1 : sv t (fmax t) <= sv t (FPlus t (fmax t) x)).
  { rewrite <- A1 at 1. apply plus_mono; auto; [rewrite A1; discriminate|apply NX|rewrite S1; lia]. }
  assert (L2 : sv t (FPlus t (fmax t) x) <= sv t (fmax t)).
  { rewrite <- A2 at 2. apply plus_mono; auto; [apply NX|rewrite A2; discriminate|rewrite S2; lia]. }
  destruct (sv_inj t (FPlus t (fmax t) x) (fmax t) NX NM ltac:(lia)) as [E|(s1 & s2 & _ & E)]; [auto|discriminate].
Qed.
Lemma fmax_plus d x : Z.abs d <= P -> FR d x -> FPlus t (fmax t) x = fmax t.
Proof.
  intros D H. destruct (FR_finite t d x D H) as [_ S]. apply fmax_absorbs; [apply H|]. rewrite S. pose proof (unit_pos t). nia.
Qed.
Lemma fmax_minus d x : Z.abs d <= P -> FR d x -> FMinus t (fmax t) x = fmax t.
Proof.
  intros D H. destruct (FR_finite t d x D H) as [_ S]. rewrite minus_plus. apply fmax_absorbs; [apply opp_number, H|].
  rewrite opp_sv, S. pose proof (unit_pos t). nia.
Qed.
Lemma FR_index k x : 0 <= k <= P -> k < 2 ^ 64 -> FR k x -> float_to_int (CInt false W64) x = Ok k.
Proof.
  intros K K' H. destruct (FR_finite t k x ltac:(lia) H) as [_ S]. destruct (int_ok t k ltac:(lia)) as (N & F & S').
  change (sv t (of_int t k) = k * unit_of t) in S'.
  assert (E : float_to_int (CInt false W64) (of_int t k) = Ok k).
  { apply int_round_trip; [discriminate|cbn; lia|lia]. }
  destruct (sv_inj t x (of_int t k) (proj1 H) N ltac:(lia)) as [-> |(s & s' & -> & E')]; [auto|].
  rewrite E' in E. exact E.
Qed.
End Arith.

(** ** The relation between the containers *)
Section Run.
Context (t : ftype) (N : nat) (C : lil Z) (C' : lil fval) (source sink : nat).
Notation P := (2 ^ prec t).
Notation FR := (ProofIntPaths.FR t).
Hypothesis WC : wfm C.
Hypothesis RC : nrows C = N.
Hypothesis CC : ncols C = N.
Hypothesis Hs : (source < N)%nat.
Hypothesis Ht : (sink < N)%nat.
Hypothesis Hst : source <> sink.
Hypothesis HN : Z.of_nat N < 2 ^ 64.
Hypothesis HP : 2 * Z.of_nat N + 1 <= P.
Let c := capacity C.
Hypothesis Hc : forall u v, (u < N)%nat -> (v < N)%nat -> 0 <= c u v.
Hypothesis Hsum : forall v, (v < N)%nat -> zsum N (fun j => c v j + c j v) <= P.

Definition fv (w : bvec fval) (i : nat) : fval := match vget w i with Some x => x | None => ModelFloat.f0 end.
Definition fm (M : lil fval) (i j : nat) : fval := match mget M i j with Some x => x | None => ModelFloat.f0 end.
Definition vf (Q : nat -> Prop) (w : bvec fval) (g : nat -> Z) : Prop :=
  wfv w /\ vsize w = N /\ forall i, (i < N)%nat -> Q i -> FR (g i) (fv w i).
Definition mf (M : lil fval) (f : nat -> nat -> Z) : Prop :=
  wfm M /\ nrows M = N /\ ncols M = N /\ forall i j, (i < N)%nat -> (j < N)%nat -> FR (f i j) (fm M i j).
Hypothesis HC' : mf C' c.

Lemma vf_ext Q w g g' : vf Q w g -> (forall i, (i < N)%nat -> g i = g' i) -> vf Q w g'.
Proof. intros (W & S & G) H. split; [auto|split; [auto|]]. intros. rewrite <- H by auto. auto. Qed.
Lemma mf_ext M f f' : mf M f -> (forall i j, (i < N)%nat -> (j < N)%nat -> f i j = f' i j) -> mf M f'.
Proof. intros (W & S & S' & G) H. split; [auto|split; [auto|split; [auto|]]]. intros. rewrite <- H by auto. auto. Qed.

Lemma fat_v_ok Q w g i : vf Q w g -> (i < N)%nat -> fat_v w i = Ok (fv w i).
Proof.
  intros (W & S & G) H. unfold fat_v. rewrite vec_hasElement_ok by apply W.
  rewrite (proj2 (Nat.ltb_lt _ _)) by lia. cbn [bind]. rewrite vec_extractElement_ok by apply W.
  rewrite (proj2 (Nat.ltb_lt _ _)) by lia. unfold fv. destruct (vget w i); auto.
Qed.
Lemma fat_m_ok M f i j : mf M f -> (i < N)%nat -> (j < N)%nat -> fat_m M i j = Ok (fm M i j).
Proof.
  intros (W & S & S' & G) H H'. unfold fat_m. rewrite hasElement_ok by (auto; lia). cbn [bind].
  rewrite extractElement_ok by (auto; lia). unfold fm. destruct (mget M i j); auto.
Qed.
Lemma fset_v_ok Q w g i x z : vf Q w g -> (i < N)%nat -> (Q i -> FR z x) ->
  exists w', vec_setElement w i x = Ok w' /\ vf Q w' (fun k => if (k =? i)%nat then z else g k) /\
    forall k, fv w' k = if (k =? i)%nat then x else fv w k.
Proof.
  intros (W & S & G) H HX. destruct (vec_setElement_ok w i x) as (w' & E & W' & S' & _ & G' & Q'); [apply W|lia|].
  assert (FV : forall k, fv w' k = if (k =? i)%nat then x else fv w k).
  { intro k. unfold fv. rewrite G'. destruct (k =? i)%nat; auto. }
  exists w'. split; [auto|]. split; [|auto]. split; [auto|split; [lia|]]. intros k Hk Qk. rewrite FV.
  destruct (Nat.eqb_spec k i); subst; auto.
Qed.
Lemma fset_m_ok M f i j x z : mf M f -> (i < N)%nat -> (j < N)%nat -> FR z x ->
  exists M', lil_setElement M i j x = Ok M' /\
    mf M' (fun k l => if (k =? i)%nat && (l =? j)%nat then z else f k l).
Proof.
  intros (W & R0 & C0 & G) Hi Hj HX.
  destruct (setElement_merge_ok (fun _ new : fval => new) M i j x W) as (M' & E & W' & R1 & C1 & G'); [lia|lia|].
  exists M'. split; [exact E|]. split; [auto|split; [congruence|split; [congruence|]]].
  intros k l Hk Hl. unfold fm. rewrite G'. specialize (G k l Hk Hl). unfold fm in G.
  destruct ((k =? i)%nat && (l =? j)%nat) eqn:B; auto. destruct (mget M i j); auto.
Qed.

Lemma fcap_pair u v : (u < N)%nat -> (v < N)%nat -> c u v + c v u <= P.
Proof.
  intros Hu Hv. etransitivity; [|apply (Hsum u Hu)]. apply (zsum_ge_one N (fun j => c u j + c j u) v); auto.
  intros j Hj. pose proof (Hc u j Hu Hj). pose proof (Hc j u Hj Hu). lia.
Qed.

Lemma fresidual_ok F f u v : mf F f -> (u < N)%nat -> (v < N)%nat -> f u v = - f v u -> f u v <= c u v -> f v u <= c v u ->
  exists b, fpr_residual t C' F u v = Ok b /\ FR (c u v - f u v) b.
Proof.
  intros HF Hu Hv AS C1 C2. unfold fpr_residual.
  pose proof (fcap_pair u v Hu Hv). pose proof (Hc u v Hu Hv). pose proof (Hc v u Hv Hu).
  rewrite (fat_m_ok C' c u v), (fat_m_ok F f u v) by auto. cbn [bind]. eexists. split; [reflexivity|].
  apply FR_minus; try lia; [apply HC'; auto|apply HF; auto].
Qed.

(** ** One push *)
Lemma fpush_ok Q F f E e u v d : mf F f -> vf Q E e -> (u < N)%nat -> (v < N)%nat ->
  f u v = - f v u -> f u v <= c u v -> f v u <= c v u -> 0 <= d <= c u v - f u v ->
  (forall b, FR (c u v - f u v) b -> FR d (if SFltb b (fv E u) then b else fv E u)) ->
  (Q u -> Z.abs (e u) <= P /\ Z.abs (e u - d) <= P) -> (Q v -> v <> u -> Z.abs (e v) <= P /\ Z.abs (e v + d) <= P) ->
  exists F1 E1 s, fpr_push t C' F E u v = Ok (F1, E1) /\ mf F1 (push_f f u v d) /\ vf Q E1 (push_e e u v d) /\ FR d s /\
    fv E1 u = if (v =? u)%nat then FPlus t (FMinus t (fv E u) s) s else FMinus t (fv E u) s.
Proof.
  intros HF HE Hu Hv AS C1 C2 D HD QU QV. unfold fpr_push.
  destruct (fresidual_ok F f u v HF Hu Hv AS C1 C2) as (b & -> & HB).
  pose proof (fcap_pair u v Hu Hv) as CP. pose proof (Hc u v Hu Hv). pose proof (Hc v u Hv Hu).
  rewrite (fat_v_ok Q E e u), (fat_m_ok F f u v) by auto. cbn [bind]. cbv zeta.
  specialize (HD b HB). set (s := if SFltb b (fv E u) then b else fv E u) in *. clearbody s.
  assert (S1 : FR (f u v + d) (FPlus t (fm F u v) s)) by (apply FR_plus; try lia; [apply HF; auto|auto]).
  destruct (fset_m_ok F f u v _ _ HF Hu Hv S1) as (F1 & -> & H1). cbn [bind].
  rewrite (fat_m_ok _ _ v u H1) by auto. cbn [bind].
  assert (S2 : FR ((if (v =? u)%nat && (u =? v)%nat then f u v + d else f v u) - d) (FMinus t (fm F1 v u) s)).
  { apply FR_minus; auto; try lia; [..|apply H1; auto]; destruct (Nat.eqb_spec v u) as [->|]; rewrite ?Nat.eqb_refl; cbn [andb]; lia. }
  destruct (fset_m_ok F1 _ v u _ _ H1 Hv Hu S2) as (F2 & -> & H2). cbn [bind].
  assert (S3 : Q u -> FR (e u - d) (FMinus t (fv E u) s)).
  { intro q. destruct (QU q). apply FR_minus; auto; try lia. apply HE; auto. }
  destruct (fset_v_ok Q E e u _ _ HE Hu S3) as (E1 & -> & G1 & V1). cbn [bind].
  rewrite (fat_v_ok _ _ _ v G1) by auto. cbn [bind].
  assert (S4 : Q v -> FR ((if (v =? u)%nat then e u - d else e v) + d) (FPlus t (fv E1 v) s)).
  { intro q. apply FR_plus; auto; try lia; [..|apply G1; auto]; destruct (Nat.eqb_spec v u) as [->|Nv]; try destruct (QU q); try destruct (QV q Nv); lia. }
  destruct (fset_v_ok Q E1 _ v _ _ G1 Hv S4) as (E2 & -> & G2 & V2). cbn [bind].
  exists F2, E2, s. split; [auto|]. split; [|split; [|split; [auto|]]].
  - eapply mf_ext; [exact H2|]. intros i j Hi Hj. cbv beta. unfold push_f. eqbs; simpl in *; try congruence; lia.
  - eapply vf_ext; [exact G2|]. intros i Hi. cbv beta. unfold push_e. eqbs; simpl in *; try congruence; lia.
  - rewrite V2, V1, V1, Nat.eqb_refl. destruct (Nat.eqb_spec u v) as [->|Nv]; rewrite ?Nat.eqb_refl; auto.
    rewrite (proj2 (Nat.eqb_neq v u)) by auto. auto.
Qed.

(** ** Relabelling *)
Definition inf : Z := 2 * Z.of_nat N + zsum N (fun v => c source v).
Notation inv := (ProofPush.inv N C source sink).
Notation st := (ProofPush.st N).
Definition every (i : nat) : Prop := True.

Lemma out_pos : 0 <= zsum N (fun v => c source v).
Proof. rewrite <- (zsum_zero N (fun _ => 0)) at 1 by auto. apply zsum_le. intros j Hj. apply Hc; auto. Qed.
Lemma inf_ok : 2 * Z.of_nat N <= inf.
Proof. unfold inf. pose proof out_pos. lia. Qed.
Lemma zresidual_ok F f u v : mz N F f -> (u < N)%nat -> (v < N)%nat -> pr_residual C F u v = Ok (c u v - f u v).
Proof.
  intros HF Hu Hv. unfold pr_residual. pose proof (HC N C WC RC CC) as HCC. change (capacity C) with c in HCC.
  rewrite (at_m_ok N C c u v), (at_m_ok N F f u v) by auto. auto.
Qed.

Lemma frelabel_sim F F' f H H' h u e k : mz N F f -> mf F' f -> vz N H h -> vf every H' h -> inv f e h k -> (u < N)%nat ->
  exists G G' g, pr_relabel inf C F H u = Ok G /\ fpr_relabel t C' F' H' u = Ok G' /\ vz N G g /\ vf every G' g.
Proof.
  intros HF HF' HH HH' I Hu. unfold pr_relabel, fpr_relabel. rewrite RC. replace (nrows C') with N by (symmetry; apply HC').
  pose proof out_pos as OP.
  assert (L : forall l, (forall v, In v l -> (v < N)%nat) -> forall G G' m m' g, vz N G g -> vf every G' g ->
    (m = inf /\ m' = fmax t /\ forall i, (i < N)%nat -> 0 <= g i <= 2 * Z.of_nat N) \/
    (0 <= m <= 2 * Z.of_nat N /\ FR m m' /\ forall i, (i < N)%nat -> 0 <= g i <= 2 * Z.of_nat N + 1) ->
    exists K K' m1 m1' g',
      mfor l (fun v '(height, min_height) =>
         r <- pr_residual C F u v ;;
         if (0 <? r)%Z then
           a <- at_v height v ;;
           let min_height := Z.min min_height a in
           height <- vec_setElement height u (min_height + 1)%Z ;;
           Ok (height, min_height)
         else Ok (height, min_height)) (G, m) = Ok (K, m1) /\
      mfor l (fun v '(height, min_height) =>
         r <- fpr_residual t C' F' u v ;;
         if SFltb ModelFloat.f0 r then
           a <- fat_v height v ;;
           let min_height := if SFltb a min_height then a else min_height in
           height <- vec_setElement height u (FPlus t min_height (f1 t)) ;;
           Ok (height, min_height)
         else Ok (height, min_height)) (G', m') = Ok (K', m1') /\ vz N K g' /\ vf every K' g').
  { induction l as [|v l IH]; intros Hl G G' m m' g VG VG' B.
    - exists G, G', m, m', g. cbn [mfor]. split; [auto|split; [auto|split; auto]].
    - cbn [mfor]. assert (Hv : (v < N)%nat) by (apply Hl; left; auto).
      rewrite (zresidual_ok F f u v) by auto.
      destruct (fresidual_ok F' f u v HF' Hu Hv) as (b & -> & HB); try (apply I; auto). cbn [bind].
      rewrite (FR_lt t 0 ModelFloat.f0 _ b (FR_0 t) HB).
      destruct (0 <? c u v - f u v); cbn [bind].
      2: { apply (IH ltac:(intros; apply Hl; right; auto) G G' m m' g); auto. }
      rewrite (at_v_ok N G g v), (fat_v_ok every G' g v) by auto. cbn [bind]. cbv zeta.
      assert (GV : FR (g v) (fv G' v)) by (apply VG'; [auto|exact Logic.I]).
      set (m1 := Z.min m (g v)). set (m1' := if SFltb (fv G' v) m' then fv G' v else m').
      assert (M : 0 <= m1 <= 2 * Z.of_nat N /\ FR m1 m1').
      { unfold m1, m1'. destruct B as [(-> & -> & B)|(M & M' & B)]; specialize (B v Hv).
        - rewrite (lt_fmax t (g v)) by (auto; lia). unfold inf. rewrite Z.min_r by lia. auto.
        - rewrite (FR_lt t (g v) _ m m' GV M'). split; [lia|]. destruct (Z.ltb_spec (g v) m); [rewrite Z.min_r by lia|rewrite Z.min_l by lia]; auto. }
      destruct M as (M & M').
      assert (PL : FR (m1 + 1) (FPlus t m1' (f1 t))) by (apply FR_plus; try lia; auto; apply FR_1).
      destruct (set_v_ok N G g u (m1 + 1) VG Hu) as (G1 & -> & V1). cbn [bind].
      destruct (fset_v_ok every G' g u _ _ VG' Hu (fun _ => PL)) as (G1' & -> & V1' & _). cbn [bind].
      apply (IH ltac:(intros; apply Hl; right; auto) G1 G1' m1 m1' _ V1 V1').
      right. split; [auto|]. split; [auto|]. intros i Hi. destruct (Nat.eqb_spec i u); [lia|].
      destruct B as [(_ & _ & B)|(_ & _ & B)]; specialize (B i Hi); lia. }
  destruct (L (seq 0 N) ltac:(intros v Hv; apply in_seq in Hv; lia) H H' inf (fmax t) h HH HH') as (K & K' & m1 & m1' & g' & E1 & E2 & V & V').
  { left. split; [auto|]. split; [auto|]. apply I. }
  exists K, K', g'. split; [|split; [|auto]].
  - etransitivity; [apply (f_equal (fun z => s <- z ;; Ok (fst s)) E1)|reflexivity].
  - etransitivity; [apply (f_equal (fun z => s <- z ;; Ok (fst s)) E2)|reflexivity].
Qed.

(** ** The relation between the two runs *)
Definition inner_v (i : nat) : Prop := i <> source.
Definition stf (x : fpr_state) f e h k : Prop :=
  mf (fpr_F x) f /\ vf inner_v (fpr_excess x) e /\ vf every (fpr_height x) h /\ vf every (fpr_seen x) k.
Definition frel (x : pr_state) (x' : fpr_state) : Prop := forall f e h k, st x f e h k -> stf x' f e h k.
Lemma frel_intro x x' f e h k : st x f e h k -> stf x' f e h k -> frel x x'.
Proof.
  intros (A1 & A2 & A3 & A4) (B1 & B2 & B3 & B4) g1 e1 h1 k1 (D1 & D2 & D3 & D4). split; [|split; [|split]].
  - eapply mf_ext; [exact B1|]. exact (mz_uniq N _ _ _ A1 D1).
  - eapply vf_ext; [exact B2|]. exact (vz_uniq N _ _ _ A2 D2).
  - eapply vf_ext; [exact B3|]. exact (vz_uniq N _ _ _ A3 D3).
  - eapply vf_ext; [exact B4|]. exact (vz_uniq N _ _ _ A4 D4).
Qed.

Lemma exc_le f e h k v : inv f e h k -> (v < N)%nat -> v <> source -> 0 <= e v <= P.
Proof.
  intros I Hv Ns. split; [apply (i_pos _ _ _ _ _ _ _ _ I); auto|]. rewrite (i_exc _ _ _ _ _ _ _ _ I) by auto.
  etransitivity; [|apply (Hsum v Hv)]. apply zsum_le. intros j Hj.
  pose proof (i_cap _ _ _ _ _ _ _ _ I j v Hj Hv) as Q. change (capacity C) with c in Q. pose proof (Hc v j Hv Hj). lia.
Qed.

Lemma fstep_sim u x x' f e h k : st x f e h k -> inv f e h k -> frel x x' ->
  (u < N)%nat -> u <> source -> 0 < e u ->
  exists y y', pr_step inf C u x = Ok y /\ fpr_step t C' u x' = Ok y' /\ frel y y'.
Proof.
  intros S I RL Hu Ns Eu. pose proof S as (SF & SE & SH & SK). pose proof (RL f e h k S) as (SF' & SE' & SH' & SK').
  unfold pr_step, fpr_step. rewrite (at_v_ok _ _ _ u SK), (fat_v_ok _ _ _ u SK') by auto. cbn [bind].
  rewrite RC. replace (nrows C') with N by (symmetry; apply HC').
  pose proof (i_seen _ _ _ _ _ _ _ _ I u Hu) as KR.
  assert (KF : FR (k u) (fv (fpr_seen x') u)) by (apply SK'; [auto|exact Logic.I]).
  rewrite (FR_lt t (k u) _ (Z.of_nat N) _ KF (FR_nat t N ltac:(lia))).
  destruct (Z.ltb_spec (k u) (Z.of_nat N)) as [K|K].
  - rewrite (FR_index t (k u)) by (auto; lia). cbn [bind].
    set (v := Z.to_nat (k u)). assert (Hv : (v < N)%nat) by lia. cbv zeta.
    rewrite (zresidual_ok _ f u v) by auto.
    destruct (fresidual_ok _ f u v SF' Hu Hv) as (b & -> & HB); try (apply I; auto). cbn [bind].
    rewrite (FR_lt t 0 ModelFloat.f0 _ b (FR_0 t) HB).
    rewrite (at_v_ok _ _ _ u SH), (at_v_ok _ _ _ v SH), (fat_v_ok _ _ _ u SH'), (fat_v_ok _ _ _ v SH') by auto. cbn [bind].
    rewrite (FR_lt t (h v) _ (h u)) by (apply SH'; [auto|exact Logic.I]).
    assert (ADM : (if 0 <? c u v - f u v then Ok (h v <? h u) else Ok false) = Ok ((0 <? c u v - f u v) && (h v <? h u)) )
      by (destruct (0 <? _); auto).
    rewrite ADM. cbn [bind]. destruct ((0 <? c u v - f u v) && (h v <? h u)) eqn:AD.
    + apply andb_prop in AD. destruct AD as (AD1 & AD2). apply Z.ltb_lt in AD1, AD2.
      assert (Nv : v <> u) by (intros ->; lia).
      pose proof (HC N C WC RC CC) as HCC. change (capacity C) with c in HCC.
      destruct (push_ok N C c _ f e _ u v HCC SF SE Hu Hv) as (F1 & E1 & -> & HF1 & HE1). cbn [bind fst snd].
      pose proof (inv_push N C source sink inf RC CC Hs Ht Hst inf_ok Hc f e h k u v I Hu Hv Ns Eu (conj AD1 AD2)) as I1. cbv zeta in I1.
      change (capacity C) with c in I1.
      set (d := Z.min (e u) (c u v - f u v)) in *.
      destruct (fpush_ok inner_v _ f _ e u v d SF' SE' Hu Hv) as (F1' & E1' & s & -> & HF1' & HE1' & _); try (apply I; auto).
      { lia. }
      { intros b' HB'. assert (EF : FR (e u) (fv (fpr_excess x') u)) by (apply SE'; auto).
        rewrite (FR_lt t _ _ _ _ HB' EF). unfold d. destruct (Z.ltb_spec (c u v - f u v) (e u)); [rewrite Z.min_r by lia|rewrite Z.min_l by lia]; auto. }
      { intros q. pose proof (exc_le f e h k u I Hu q). lia. }
      { intros q _. pose proof (exc_le f e h k v I Hv q). pose proof (exc_le _ _ h k v I1 Hv q) as B.
        unfold push_e in B. rewrite Nat.eqb_refl, (proj2 (Nat.eqb_neq v u) Nv) in B. cbn [b1] in B. lia. }
      cbn [bind fst snd].
      eexists. eexists. split; [reflexivity|]. split; [reflexivity|].
      apply (frel_intro _ _ (push_f f u v d) (push_e e u v d) h k); (split; [auto|split; [auto|split; auto]]).
    + assert (PL : FR (k u + 1) (FPlus t (fv (fpr_seen x') u) (f1 t))) by (apply FR_plus; try lia; auto; apply FR_1).
      destruct (set_v_ok _ _ _ u (k u + 1) SK Hu) as (K1 & -> & HK1). cbn [bind].
      destruct (fset_v_ok every _ _ u _ _ SK' Hu (fun _ => PL)) as (K1' & -> & HK1' & _). cbn [bind].
      eexists. eexists. split; [reflexivity|]. split; [reflexivity|].
      eapply frel_intro; (split; [eassumption|split; [eassumption|split; eassumption]]).
  - destruct (frelabel_sim _ _ f _ _ h u e k SF SF' SH SH' I Hu) as (G & G' & g & -> & -> & V & V'). cbn [bind].
    destruct (set_v_ok _ _ _ u 0 SK Hu) as (K1 & -> & HK1). cbn [bind].
    destruct (fset_v_ok every _ _ u ModelFloat.f0 0 SK' Hu (fun _ => FR_0 t)) as (K1' & -> & HK1' & _). cbn [bind].
    eexists. eexists. split; [reflexivity|]. split; [reflexivity|].
    eapply frel_intro; (split; [eassumption|split; [eassumption|split; eassumption]]).
Qed.

Definition fgood (x : pr_state) : Prop := exists f e h k, st x f e h k /\ inv f e h k.

Lemma fdischarge_sim u : (u < N)%nat -> u <> source -> u <> sink -> forall n x x' y, fgood x -> frel x x' ->
  pr_discharge n inf C u x = Ok (Some y) ->
  exists y', fpr_discharge t n C' u x' = Ok (Some y') /\ frel y y' /\ fgood y.
Proof.
  intros Hu Ns Nt. unfold pr_discharge, fpr_discharge.
  induction n as [|n IH]; intros x x' y (f & e & h & k & S & I) RL; [discriminate|].
  cbn [mwhileM]. pose proof S as (SF & SE & SH & SK). pose proof (RL f e h k S) as (SF' & SE' & SH' & SK').
  rewrite (at_v_ok _ _ _ u SE), (fat_v_ok _ _ _ u SE') by auto. cbn [bind].
  rewrite (FR_lt t 0 ModelFloat.f0 (e u) _ (FR_0 t)) by (apply SE'; auto).
  destruct (Z.ltb_spec 0 (e u)) as [Eu|Eu].
  - destruct (fstep_sim u x x' f e h k S I RL Hu Ns Eu) as (y1 & y1' & E1 & E2 & RL1).
    destruct (step_ok N C source sink inf WC RC CC Hs Ht Hst inf_ok Hc u x f e h k f e h S I Hu Ns Nt Eu)
      as (y2 & f' & e' & h' & k' & E3 & S' & I' & _ & _).
    { constructor; auto; lia. }
    rewrite E1 in E3. injection E3 as <-. rewrite E1, E2. cbn [bind]. apply IH; auto.
    exists f', e', h', k'. auto.
  - intro Q. injection Q as <-. exists x'. split; [auto|split; [auto|]]. exists f, e, h, k. auto.
Qed.

Lemma fmain_sim fuel : forall n L p x x' y, (forall v, In v L -> (v < N)%nat /\ v <> source /\ v <> sink) -> fgood x -> frel x x' ->
  pr_main n fuel inf C L p x = Ok (Some y) ->
  exists y', fpr_main t n fuel C' L p x' = Ok (Some y') /\ frel y y' /\ fgood y.
Proof.
  induction n as [|n IH]; intros L p x x' y HL G RL; [discriminate|]. cbn [pr_main fpr_main].
  replace (nrows C') with (nrows C) by (rewrite RC; symmetry; apply HC').
  destruct (Z.of_nat p <? pr_last (nrows C)).
  2: { intro Q. injection Q as <-. exists x'. auto. }
  destruct (nth_error L p) as [u|] eqn:EU; [|discriminate].
  destruct (HL u (nth_error_In _ _ EU)) as (Hu & Ns & Nt).
  pose proof G as (f & e & h & k & S & I). pose proof S as (SF & SE & SH & SK).
  pose proof (RL f e h k S) as (SF' & SE' & SH' & SK').
  rewrite (at_v_ok _ _ _ u SH), (fat_v_ok _ _ _ u SH') by auto. cbn [bind].
  destruct (pr_discharge fuel inf C u x) as [[z|]| |] eqn:ED; try discriminate. cbn [bind].
  destruct (fdischarge_sim u Hu Ns Nt fuel x x' z G RL ED) as (z' & -> & RL1 & G1). cbn [bind].
  pose proof G1 as (f1 & e1 & h1 & k1 & S1 & I1). pose proof S1 as (_ & _ & SH1 & _).
  pose proof (RL1 f1 e1 h1 k1 S1) as (_ & _ & SH1' & _).
  rewrite (at_v_ok _ _ _ u SH1), (fat_v_ok _ _ _ u SH1') by auto. cbn [bind].
  rewrite (FR_lt t (h u) _ (h1 u)) by ((apply SH' || apply SH1'); [auto|exact Logic.I]).
  destruct (h u <? h1 u); apply IH; auto.
  intros v [<-|Hv]; auto. apply HL. apply in_app_iff in Hv. destruct Hv as [Hv|Hv].
  - rewrite <- (firstn_skipn p L). apply in_app_iff. auto.
  - rewrite <- (firstn_skipn (p + 1) L). apply in_app_iff. auto.
Qed.

(** ** The first pushes *)
Notation f0 := (ProofPush.f0 C source).
Notation e0 := (ProofPush.e0 C source inf).

Lemma fout_source : zsum N (fun v => c source v) <= inf.
Proof. unfold inf. lia. Qed.
Lemma fpush0 i : (i < N)%nat -> let d := c source i - f0 i source i in
  d = c source i /\
  (forall x y, (x < N)%nat -> (y < N)%nat -> push_f (f0 i) source i d x y = f0 (S i) x y) /\
  (forall x, (x < N)%nat -> push_e (e0 i) source i d x = e0 (S i) x).
Proof.
  intros Hi d.
  assert (DE : d = c source i).
  { assert (FE : f0 i source i = 0).
    { unfold ProofPush.f0. rewrite Nat.eqb_refl, Nat.ltb_irrefl. simpl. rewrite andb_false_r. simpl.
      destruct (Nat.eqb_spec i source) as [->|]; simpl; rewrite ?Nat.ltb_irrefl; simpl; lia. }
    unfold d. lia. }
  split; [auto|]. clearbody d. destruct (Nat.eq_dec i source) as [->|Ni].
  - assert (LS : forall j, (j <? S source)%nat = ((j <? source)%nat || (j =? source)%nat)).
    { intro j. destruct (Nat.ltb_spec j (S source)), (Nat.ltb_spec j source), (Nat.eqb_spec j source); simpl; auto; lia. }
    split.
    + intros x y _ _. unfold push_f, ProofPush.f0.
      rewrite !LS. destruct (x =? source)%nat, (y =? source)%nat, (x <? source)%nat, (y <? source)%nat; simpl; lia.
    + intros x _. unfold push_e, ProofPush.e0.
      rewrite LS, zsum_S, Nat.eqb_refl. destruct (x =? source)%nat, (x <? source)%nat; simpl; lia.
  - assert (LS : forall j, (j <? S i)%nat = ((j <? i)%nat || (j =? i)%nat)).
    { intro j. destruct (Nat.ltb_spec j (S i)), (Nat.ltb_spec j i), (Nat.eqb_spec j i); simpl; auto; lia. }
    split.
    + intros x y _ _. unfold push_f, ProofPush.f0. fold c. rewrite DE, !LS.
      destruct (Nat.ltb_spec x i), (Nat.ltb_spec y i); eqbs; simpl; try congruence; lia.
    + intros x _. unfold push_e, ProofPush.e0. fold c.
      rewrite LS, zsum_S, DE, (proj2 (Nat.eqb_neq _ _) Ni). cbn [negb b1].
      destruct (Nat.ltb_spec x i); eqbs; simpl; try congruence; lia.
Qed.

Lemma finit_ok F E : mf F (fun _ _ => 0) -> vf inner_v E (fun x => if (x =? source)%nat then inf else 0) -> fv E source = fmax t ->
  exists s, mfor (seq 0 N) (fun i '(F, excess) => fpr_push t C' F excess source i) (F, E) = Ok s /\
    mf (fst s) (f0 N) /\ vf inner_v (snd s) (e0 N) /\ fv (snd s) source = fmax t.
Proof.
  intros HF HE HM.
  apply (mfor_seq_inv (fun i (s : lil fval * bvec fval) => mf (fst s) (f0 i) /\ vf inner_v (snd s) (e0 i) /\ fv (snd s) source = fmax t)).
  - cbn [fst snd]. split; [|split].
    + eapply mf_ext; [exact HF|]. intros x y _ _. unfold ProofPush.f0. simpl. rewrite !andb_false_r. simpl. lia.
    + eapply vf_ext; [exact HE|]. intros x _. unfold ProofPush.e0. rewrite zsum_0. destruct (x =? source)%nat; simpl; lia.
    + auto.
  - intros i (F1, E1) Hi (H1 & H2 & H3). cbn [fst snd] in *.
    destruct (fpush0 i Hi) as (DE & P1 & P2). set (d := c source i - f0 i source i) in *.
    pose proof (Hc source i Hs Hi) as CS. pose proof (Hc i source Hi Hs) as CS'. pose proof (fcap_pair source i Hs Hi) as CP.
    destruct (fpush_ok inner_v F1 (f0 i) E1 (e0 i) source i d H1 H2 Hs Hi) as (F' & E' & s & -> & H4 & H5 & H6 & H7).
    + unfold ProofPush.f0. destruct (Nat.eqb_spec i source); rewrite ?Nat.eqb_refl; simpl; lia.
    + unfold d in DE. lia.
    + unfold ProofPush.f0. rewrite Nat.eqb_refl, Nat.ltb_irrefl. rewrite !andb_false_r. simpl.
      pose proof (Hc source source Hs Hs). unfold c in *. destruct (i =? source)%nat, (source <? i)%nat; simpl; lia.
    + lia.
    + intros b HB. rewrite H3. fold d in HB. rewrite (lt_fmax t d) by (auto; lia). auto.
    + intro q. destruct q. auto.
    + intros q Nv. unfold ProofPush.e0. rewrite (proj2 (Nat.eqb_neq _ _) Nv), Nat.ltb_irrefl. simpl. lia.
    + exists (F', E'). split; [auto|]. cbn [fst snd]. change (1 + i)%nat with (S i). split; [|split].
      * eapply mf_ext; [exact H4|]. intros x y Hx Hy. apply P1; auto.
      * eapply vf_ext; [exact H5|]. intros x Hx. apply P2; auto.
      * rewrite H7, H3, (fmax_minus t d) by (auto; lia). rewrite (fmax_plus t d) by (auto; lia). destruct (_ =? _)%nat; auto.
Qed.

(** ** The sum of the row of the source *)
Lemma fsum_fold (f : nat -> Z) (g : nat -> option fval) : forall l S acc,
  (forall j, In j l -> FR (f j) (match g j with Some x => x | None => ModelFloat.f0 end) /\ Z.abs (f j) <= P) ->
  Z.abs S + fold_right Z.add 0 (map (fun j => Z.abs (f j)) l) <= P ->
  (acc = None /\ S = 0) \/ (exists x, acc = Some x /\ FR S x) ->
  let r := fold_left (fun acc x => match acc, x with
                          | None, Some v => Some (idc v)
                          | Some a, Some v => Some (FPlus t a v)
                          | _, None => acc
                          end) (map g l) acc in
  let S' := S + fold_right Z.add 0 (map f l) in
  (r = None /\ S' = 0) \/ (exists x, r = Some x /\ FR S' x).
Proof.
  induction l as [|j l IH]; intros S acc Hl B A; cbn [map fold_left fold_right] in *.
  - cbv zeta. rewrite Z.add_0_r. auto.
  - destruct (Hl j (or_introl eq_refl)) as (G & FJ).
    assert (POS : 0 <= fold_right Z.add 0 (map (fun j => Z.abs (f j)) l)).
    { clear. induction l; simpl; lia. }
    cbv zeta. replace (S + (f j + fold_right Z.add 0 (map f l))) with ((S + f j) + fold_right Z.add 0 (map f l)) by lia.
    apply IH; [intros; apply Hl; right; auto|lia|].
    destruct (g j) as [v|].
    + right. destruct A as [(-> & ->)|(x & -> & HX)].
      * exists v. rewrite Z.add_0_l. auto.
      * eexists. split; [reflexivity|]. apply FR_plus; auto; lia.
    + assert (Z0 : f j = 0) by (apply (FR_zero t); auto). rewrite Z0, Z.add_0_r.
      destruct A as [(-> & ->)|(x & -> & HX)]; eauto.
Qed.

Lemma fflows_ok F f : mf F f -> (forall x y, (x < N)%nat -> (y < N)%nat -> f x y = - f y x /\ f x y <= c x y) ->
  exists w0 w, vec_new ModelFloat.f0 N = Ok w0 /\
    reduce idc (FPlus t) (FPlus t) btrue idc (NoAcc idc) vnomask MERGE w0 (Mat F) = Ok w /\
    vf every w (fun i => zsum N (f i)).
Proof.
  intros (WF & RF & CF & GF) Hf.
  destruct (vis_new ModelFloat.f0 N ltac:(lia)) as (w0 & E0 & V0). exists w0.
  destruct V0 as (W0 & S0 & G0).
  destruct (reduce_ok (fun x : fval => idc x) (FPlus t) (FPlus t) btrue idc
              (NoAcc idc) vnomask MERGE w0 (Mat F)) as (w' & Ew & Ww & Sw & Gw); auto.
  { apply W0. }
  { exact Logic.I. }
  { split; [exact Logic.I|]. simpl. lia. }
  exists w'. split; [auto|]. split; [exact Ew|]. split; [auto|split; [lia|]]. intros i Hi _. unfold fv. rewrite Gw by lia.
  unfold spec_write. cbn [vnomask vmask_allows spec_accum]. unfold idc at 1. rewrite ?option_map_id'. unfold ofold. simpl vcols. rewrite CF.
  destruct (fsum_fold (f i) (fun j => sview (Mat F) i j) (seq 0 N) 0 None) as [(A & B)|(x & A & B)]; auto.
  - intros j Hj. apply in_seq in Hj. assert (Hj' : (j < N)%nat) by lia. split.
    + apply (GF i j Hi Hj').
    + destruct (Hf i j Hi Hj') as (A & B). destruct (Hf j i Hj' Hi) as (_ & B'). pose proof (fcap_pair i j Hi Hj').
      pose proof (Hc i j Hi Hj'). pose proof (Hc j i Hj' Hi). lia.
  - change (fold_right Z.add 0 (map (fun j => Z.abs (f i j)) (seq 0 N))) with (zsum N (fun j => Z.abs (f i j))).
    transitivity (zsum N (fun j => c i j + c j i)); [|apply Hsum; auto]. simpl Z.abs at 1. rewrite Z.add_0_l. apply zsum_le.
    intros j Hj. destruct (Hf i j Hi Hj) as (A & B). destruct (Hf j i Hj Hi) as (_ & B').
    pose proof (Hc i j Hi Hj). pose proof (Hc j i Hj Hi). lia.
  - unfold ofold in *. rewrite A. replace (zsum N (f i)) with 0 by (symmetry; exact B). apply FR_0.
  - unfold ofold in *. rewrite A. exact B.
Qed.

Theorem fpush_relabel_ok n : (4 * (N + 1) * (N + 1) * (N + 1) <= n)%nat ->
  exists x x', fmaxflow_push_relabel t n C' source sink = Ok (Some x') /\ FR x x' /\ Z.abs x <= P /\ is_max_flow N c source sink x.
Proof.
  intro Hn. unfold fmaxflow_push_relabel. replace (nrows C') with N by (symmetry; apply HC').
  replace (ncols C') with N by (symmetry; apply HC').
  assert (N0 : N <> 0%nat) by lia.
  destruct (vis_new 0 N N0) as (w0 & EW & V0). apply vz_vis in V0. cbn [oz] in V0.
  destruct (vis_new ModelFloat.f0 N N0) as (v0 & EV & V0'). rewrite EV. cbn [bind].
  assert (VF : forall Q, vf Q v0 (fun _ => 0)).
  { intro Q. destruct V0' as (A & B & G). split; [auto|split; [auto|]]. intros i Hi _. unfold fv. rewrite G by auto. apply FR_0. }
  destruct (set_v_ok N w0 _ source (Z.of_nat N) V0 Hs) as (H & _ & HH).
  destruct (fset_v_ok every v0 _ source (of_int t (Z.of_nat N)) (Z.of_nat N) (VF every) Hs) as (H' & -> & HH' & _).
  { intros _. apply FR_nat. lia. }
  cbn [bind].
  destruct (set_v_ok N w0 _ source inf V0 Hs) as (E & _ & HE).
  destruct (fset_v_ok inner_v v0 _ source (fmax t) inf (VF inner_v) Hs) as (E' & -> & HE' & EE).
  { intros q. destruct q. auto. }
  cbn [bind].
  assert (NEW : mz N (lil_new N N) (fun _ _ => 0)).
  { split; [apply lil_new_wf|split; [auto|split; [auto|]]]. intros. unfold capacity. rewrite mget_new. auto. }
  assert (NEW' : mf (lil_new N N) (fun _ _ => 0)).
  { split; [apply lil_new_wf|split; [auto|split; [auto|]]]. intros. unfold fm. rewrite mget_new. apply FR_0. }
  destruct (init_ok N C source sink inf WC RC CC Hs Ht Hst inf_ok Hc HN fout_source (lil_new N N) E NEW HE) as (s & _ & HF & HE1).
  destruct (finit_ok (lil_new N N) E' NEW' HE') as (s' & -> & HF2 & HE2 & _).
  { rewrite EE, Nat.eqb_refl. auto. }
  cbn [bind].
  set (L := filter _ _).
  assert (IL : inner N source sink L).
  { split; [apply NoDup_filter, seq_NoDup|]. intro x. unfold L. rewrite filter_In, in_seq, andb_true_iff, !negb_true_iff, !Nat.eqb_neq.
    intuition lia. }
  assert (FOP : ForallOrdPairs (fun a b => ~ adm C (f0 N) (hh0 N source) b a) L).
  { assert (B : forall x, In x L -> (x < N)%nat) by (intros x Hx; apply IL; auto).
    clearbody L. clear IL. induction L as [|a L IH]; constructor.
    - apply Forall_forall. intros b Hb. apply (adm0 N C source sink); auto; apply B; simpl; auto.
    - apply IH. intros; apply B; simpl; auto. }
  pose proof (inv0 N C source sink inf RC CC Hs Ht Hst inf_ok Hc HN fout_source) as I0.
  set (x0 := mkPr (fst s) (snd s) H w0). set (x0' := mkFpr (fst s') (snd s') H' v0).
  assert (ST0 : st x0 (f0 N) (e0 N) (hh0 N source) (fun _ => 0)) by (split; [auto|split; [auto|split; auto]]).
  assert (ST0' : stf x0' (f0 N) (e0 N) (hh0 N source) (fun _ => 0)) by (split; [auto|split; [auto|split; auto]]).
  destruct (main_ok N C source sink inf WC RC CC Hs Ht Hst inf_ok Hc HN n n ltac:(nia) L 0 x0 (f0 N) (e0 N) (hh0 N source) (fun _ => 0))
    as (x & f & e & h & k & EM & S & I & Z0); auto.
  - lia.
  - intros v [].
  - unfold omeas. assert (zsum N (fun v => 2 * Z.of_nat N - hh0 N source v) <= 2 * Z.of_nat N * Z.of_nat N).
    { transitivity (zsum N (fun _ => 2 * Z.of_nat N)).
      - apply zsum_le. intros i Hi. unfold hh0. destruct (_ =? _)%nat; lia.
      - clear. assert (forall m, zsum m (fun _ => 2 * Z.of_nat N) = 2 * Z.of_nat N * Z.of_nat m); [|rewrite H; lia].
        induction m; [rewrite zsum_0; lia|]. rewrite zsum_S. lia. }
    nia.
  - destruct (fmain_sim n n L 0 x0 x0' x) as (x' & -> & RL & G).
    { intros v Hv. apply IL. auto. }
    { exists (f0 N), (e0 N), (hh0 N source), (fun _ => 0). auto. }
    { apply (frel_intro _ _ _ _ _ _ ST0 ST0'). }
    { exact EM. }
    cbn [bind]. pose proof (RL f e h k S) as (SF' & _).
    destruct (fflows_ok (fpr_F x') f SF') as (w1 & w & EW1 & EW2 & VW).
    { intros a b Ha Hb. split; apply I; auto. }
    rewrite EV in EW1. injection EW1 as <-. rewrite EW2.
    cbn [bind]. destruct (final_max N C source sink RC CC Hs Ht Hst f e h k I Z0) as (FL & MX).
    rewrite (fat_v_ok _ _ _ source VW Hs). cbn [bind].
    exists (zsum N (f source)), (fv w source). split; [auto|]. split; [apply VW; [auto|exact Logic.I]|]. split; [|exact MX].
    assert (0 <= zsum N (fun v => f source v)).
    { destruct MX as (_ & MX). specialize (MX (fun _ _ => 0)). unfold flow_value in MX. rewrite zsum_zero in MX by auto. apply MX.
      split; [intros; lia|split; [intros; apply Hc; auto|]]. intros. apply zsum_zero. auto. }
    assert (zsum N (fun v => f source v) <= P).
    { etransitivity; [|apply (Hsum source Hs)]. apply zsum_le. intros j Hj.
      pose proof (i_cap _ _ _ _ _ _ _ _ I source j Hs Hj) as Q. change (capacity C) with c in Q. pose proof (Hc j source Hj Hs). lia. }
    change (zsum N (f source)) with (zsum N (fun v => f source v)). lia.
Qed.
End Run.

(** ** Runs that do not end *)

(** [k] rounds of a loop, all of which pass the test. *)
Fixpoint loop_rounds {X} (k : nat) (cond : X -> res bool) (step : X -> res X) (x : X) : option X :=
  match k with
  | O => Some x
  | S k' => match cond x, step x with Ok true, Ok y => loop_rounds k' cond step y | _, _ => None end
  end.
Lemma rounds_none {X} (cond : X -> res bool) (step : X -> res X) k : forall x y, loop_rounds k cond step x = Some y ->
  (forall n, mwhileM n cond step y = Ok None) -> forall n, mwhileM n cond step x = Ok None.
Proof.
  induction k as [|k IH]; intros x y H Hy n; cbn [loop_rounds] in H; [injection H as <-; auto|].
  destruct n as [|n]; [auto|]. cbn [mwhileM].
  destruct (cond x) as [[|]| |]; try discriminate. cbn [bind]. destruct (step x); try discriminate. cbn [bind]. eapply IH; eauto.
Qed.
Lemma rounds_short {X} (cond : X -> res bool) (step : X -> res X) k : forall x y, loop_rounds k cond step x = Some y ->
  forall n, mwhileM n cond step x = (if (n <=? k)%nat then Ok None else mwhileM (n - k) cond step y).
Proof.
  induction k as [|k IH]; intros x y H n; cbn [loop_rounds] in H.
  - injection H as <-. destruct n; auto.
  - destruct n as [|n]; [auto|]. cbn [mwhileM Nat.leb Nat.sub].
    destruct (cond x) as [[|]| |]; try discriminate. cbn [bind]. destruct (step x); try discriminate. cbn [bind]. apply IH; auto.
Qed.
Lemma rounds_cycle {X} (cond : X -> res bool) (step : X -> res X) k x : loop_rounds (S k) cond step x = Some x ->
  forall n, mwhileM n cond step x = Ok None.
Proof.
  intros H n. induction n as [n IH] using (well_founded_induction Nat.lt_wf_0).
  rewrite (rounds_short cond step (S k) x x H). destruct (Nat.leb_spec n (S k)); auto. apply IH. lia.
Qed.
Lemma while_some {X} (cond : X -> res bool) (step : X -> res X) K : forall x y, mwhileM K cond step x = Ok (Some y) ->
  forall n, mwhileM n cond step x = Ok None \/ mwhileM n cond step x = Ok (Some y).
Proof.
  induction K as [|K IH]; intros x y H n; cbn [mwhileM] in H; [discriminate|].
  destruct n as [|n]; [auto|]. cbn [mwhileM].
  destruct (cond x) as [[|]| |]; try discriminate; cbn [bind] in *; [|auto]. destruct (step x); try discriminate. cbn [bind] in *. auto.
Qed.

(** The first [k] rounds of the main loop. *)
Fixpoint main_rounds (t : ftype) (k fuel : nat) (C : lil fval) (l : list nat) (p : nat) (x : fpr_state)
  : option (list nat * nat * fpr_state) :=
  match k with
  | O => Some (l, p, x)
  | S k' =>
      if Z.of_nat p <? pr_last (nrows C) then
        match nth_error l p with
        | None => None
        | Some u =>
            match fat_v (fpr_height x) u, fpr_discharge t fuel C u x with
            | Ok h0, Ok (Some y) =>
                match fat_v (fpr_height y) u with
                | Ok h1 => if SFltb h0 h1 then main_rounds t k' fuel C (u :: firstn p l ++ skipn (p + 1) l) 0 y
                           else main_rounds t k' fuel C l (p + 1) y
                | _ => None
                end
            | _, _ => None
            end
        end
      else None
  end.
Lemma main_rounds_none t K C k : forall l p x l' p' x', main_rounds t k K C l p x = Some (l', p', x') ->
  (forall n fuel, fpr_main t n fuel C l' p' x' = Ok None) -> forall n fuel, fpr_main t n fuel C l p x = Ok None.
Proof.
  induction k as [|k IH]; intros l p x l' p' x' H HN n fuel; cbn [main_rounds] in H; [injection H as <- <- <-; auto|].
  destruct n as [|n]; [auto|]. cbn [fpr_main].
  destruct (Z.of_nat p <? pr_last (nrows C)); [|discriminate].
  destruct (nth_error l p) as [u|]; [|discriminate].
  destruct (fat_v (fpr_height x) u) as [h0| |]; try discriminate. cbn [bind].
  destruct (fpr_discharge t K C u x) as [[y|]| |] eqn:D; try discriminate.
  destruct (fat_v (fpr_height y) u) as [h1| |] eqn:E1; try discriminate.
  destruct (while_some _ _ K x y D fuel) as [E|E]; unfold fpr_discharge; rewrite E; cbn [bind]; [auto|].
  rewrite E1. cbn [bind]. destruct (SFltb h0 h1); eapply IH; eauto.
Qed.
Lemma main_stuck t C l p x u k k' y : (Z.of_nat p <? pr_last (nrows C)) = true -> nth_error l p = Some u ->
  (match fat_v (fpr_height x) u with Ok _ => true | _ => false end) = true ->
  loop_rounds k (fun x => e <- fat_v (fpr_excess x) u ;; Ok (SFltb ModelFloat.f0 e)) (fpr_step t C u) x = Some y ->
  loop_rounds (S k') (fun x => e <- fat_v (fpr_excess x) u ;; Ok (SFltb ModelFloat.f0 e)) (fpr_step t C u) y = Some y ->
  forall n fuel, fpr_main t n fuel C l p x = Ok None.
Proof.
  intros HP HU HH R1 R2 [|n] fuel; [auto|]. cbn [fpr_main]. rewrite HP, HU. destruct (fat_v (fpr_height x) u); try discriminate.
  cbn [bind]. unfold fpr_discharge. rewrite (rounds_none _ _ k x y R1); auto. apply (rounds_cycle _ _ k' y R2).
Qed.
