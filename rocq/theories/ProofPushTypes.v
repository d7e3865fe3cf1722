(** Push and relabel over the integer types: a run follows the run over the unbounded integers. *)
From Coq Require Import Lia.
From Verif Require Import Base ModelLil ModelVec ModelHelpers ModelViews ModelMul ModelElem
  ModelIndex ModelAlgoBase ModelFlow ModelPush ModelAlgebra ModelOps ModelInts ModelPushTypes Spec SpecOps SpecFlow
  SpecAlgebra SpecPushTypes ProofBase ProofLil ProofVec
  ProofViews ProofReduce ProofVis ProofFlow ProofDelta ProofElem ProofLaws ProofOps ProofInts ProofPush.
Local Open Scope Z_scope.

(** ** Arithmetic *)
Section Arith.
Context (t : ctype).
Hypothesis Ht : holds_negatives t.
Notation cv := (convert t).
Definition fits (z : Z) : Prop := - tmax t <= z <= tmax t.

Lemma tmax_big : 127 <= tmax t.
Proof. destruct Ht as [(w & ->)|[-> | ->]]; [destruct w|..]; vm_compute; discriminate. Qed.
Lemma inty_id z : 0 <= z <= tmax t -> cv z = z.
Proof.
  intro H. apply ProofLaws.convert_id. unfold inty. destruct Ht as [(w & ->)|[-> | ->]]; [destruct w|..]; simpl tmin in *; lia.
Qed.
Lemma tmin_signed w : tmin (CInt true w) = - tmax (CInt true w) - 1.
Proof. destruct w; reflexivity. Qed.
Lemma signed_id w z : t = CInt true w -> fits z -> inty t z.
Proof. intros E H. unfold fits, inty in *. pose proof (tmin_signed w). rewrite E in *. lia. Qed.
Lemma arith_promoted w z : t = CInt true w -> fits z -> arith (promote t) z = Ok z.
Proof.
  intros E H. apply arith_exact, inty_promote. apply (signed_id w); auto.
Qed.
Lemma plus_cv a b : fits a -> fits b -> fits (a + b) -> Plus t (cv a) (cv b) = Ok (cv (a + b)).
Proof.
  intros A B S. unfold Plus. destruct Ht as [(w & E)|H].
  - rewrite !(ProofLaws.convert_id t) by (eapply signed_id; eauto). rewrite (arith_promoted w) by auto. cbn [bind].
    rewrite (ProofLaws.convert_id t) by (eapply signed_id; eauto). auto.
  - destruct H as [-> | ->]; cbn [promote arith bind convert]; unfold wrapu;
      rewrite Zmod_mod, <- Zplus_mod; auto.
Qed.
Lemma minus_cv a b : fits a -> fits b -> fits (a - b) -> Minus t (cv a) (cv b) = Ok (cv (a - b)).
Proof.
  intros A B S. unfold Minus. destruct Ht as [(w & E)|H].
  - rewrite !(ProofLaws.convert_id t) by (eapply signed_id; eauto). rewrite (arith_promoted w) by auto. cbn [bind].
    rewrite (ProofLaws.convert_id t) by (eapply signed_id; eauto). auto.
  - destruct H as [-> | ->]; cbn [promote arith bind convert]; unfold wrapu;
      rewrite Zmod_mod, <- Zminus_mod; auto.
Qed.
(** Differences that are not negative are seen even if a negative flow wraps around. *)
Lemma residual_cv a b : fits b -> 0 <= a <= tmax t -> 0 <= a - b <= tmax t -> arith (promote t) (a - cv b) = Ok (a - b).
Proof.
  intros B A D. destruct Ht as [(w & E)|H].
  - rewrite !(ProofLaws.convert_id t) by (eapply signed_id; eauto). apply (arith_promoted w); auto. unfold fits; lia.
  - rewrite <- (inty_id a) at 1 by auto.
    rewrite <- (inty_id (a - b)) by auto.
    destruct H as [-> | ->]; cbn [promote arith bind convert]; unfold wrapu; rewrite <- Zminus_mod; auto.
Qed.
Lemma cv_zero z : fits z -> cv z = 0 -> z = 0.
Proof.
  intros F H. destruct Ht as [(w & E)|U].
  - rewrite ProofLaws.convert_id in H by (eapply signed_id; eauto). auto.
  - unfold fits in F. destruct U as [-> | ->]; cbn [convert] in H; unfold wrapu in H; simpl tmax in F; simpl bits in H;
      apply Z.mod_divide in H; try lia; destruct H as (q & ->); nia.
Qed.
End Arith.

Lemma zsum_ge_one N f i : (forall j, (j < N)%nat -> 0 <= f j) -> (i < N)%nat -> f i <= zsum N f.
Proof.
  intros H Hi. rewrite <- (zsum_b1 N i (f i) Hi) at 1. apply zsum_le. intros j Hj. specialize (H j Hj).
  destruct (Nat.eqb_spec j i); subst; simpl; lia.
Qed.
Lemma push_e_sum N e u v d : (u < N)%nat -> (v < N)%nat -> zsum N (push_e e u v d) = zsum N e.
Proof.
  intros Hu Hv. unfold push_e. rewrite zsum_add.
  replace (zsum N (fun x => d * (b1 (x =? v)%nat - b1 (x =? u)%nat))) with 0; [lia|].
  transitivity (zsum N (fun x => d * b1 (x =? v)%nat) + zsum N (fun x => (- d) * b1 (x =? u)%nat)).
  - rewrite !zsum_b1 by auto. lia.
  - rewrite <- zsum_add. apply zsum_ext. intros. lia.
Qed.

(** ** One push *)
Section Run.
Context (t : ctype) (N : nat) (C : lil Z) (source sink : nat).
Hypothesis Hty : holds_negatives t.
Hypothesis WC : wfm C.
Hypothesis RC : nrows C = N.
Hypothesis CC : ncols C = N.
Hypothesis Hs : (source < N)%nat.
Hypothesis Ht : (sink < N)%nat.
Hypothesis Hst : source <> sink.
Hypothesis HN : Z.of_nat N < 2 ^ 64.
Hypothesis Hinf : 2 * Z.of_nat N < tmax t.
Let c := capacity C.
Hypothesis Hc : forall u v, (u < N)%nat -> (v < N)%nat -> 0 <= c u v.
Hypothesis Hsum : forall v, (v < N)%nat -> zsum N (fun j => c v j + c j v) <= tmax t.
Notation cv := (convert t).
Definition cvf (f : nat -> nat -> Z) (x y : nat) : Z := cv (f x y).

Lemma cap_pair u v : (u < N)%nat -> (v < N)%nat -> c u v + c v u <= tmax t.
Proof.
  intros Hu Hv. etransitivity; [|apply (Hsum u Hu)]. apply (zsum_ge_one N (fun j => c u j + c j u) v); auto.
  intros j Hj. pose proof (Hc u j Hu Hj). pose proof (Hc j u Hj Hu). lia.
Qed.

Lemma ipush_ok F f E e u v : mz N F (cvf f) -> vz N E e -> (u < N)%nat -> (v < N)%nat ->
  f u v = - f v u -> f u v <= c u v -> f v u <= c v u -> 0 <= e u <= tmax t -> 0 <= e v ->
  (v <> u -> e u + e v <= tmax t) ->
  exists F' E', ipr_push t C F E u v = Ok (F', E') /\
    let d := Z.min (e u) (c u v - f u v) in mz N F' (cvf (push_f f u v d)) /\ vz N E' (push_e e u v d).
Proof.
  intros HF HE Hu Hv AS C1 C2 EU EV EB. unfold ipr_push, ipr_residual.
  pose proof (HC N C WC RC CC) as HCC. change (capacity C) with c in HCC.
  pose proof (cap_pair u v Hu Hv) as CP. pose proof (Hc u v Hu Hv). pose proof (Hc v u Hv Hu).
  rewrite (at_v_ok N E e u), (at_m_ok N C c u v), (at_m_ok N F (cvf f) u v) by auto. cbn [bind]. unfold cvf at 1.
  rewrite (residual_cv t Hty) by (unfold fits; lia). cbn [bind]. rewrite (inty_id t Hty) by lia. cbv zeta.
  replace (if c u v - f u v <? e u then c u v - f u v else e u) with (Z.min (e u) (c u v - f u v))
    by (destruct (Z.ltb_spec (c u v - f u v) (e u)); lia).
  set (d := Z.min (e u) (c u v - f u v)). assert (D : 0 <= d <= tmax t) by lia. assert (D' : d <= c u v - f u v) by lia.
  assert (D2 : d <= e u) by lia. clearbody d. pose proof (tmax_big t Hty) as TB.
  assert (DC : cv d = d) by (apply (inty_id t Hty); lia).
  assert (PC : forall a, fits t a -> fits t (a + d) -> Plus t (cv a) d = Ok (cv (a + d))).
  { intros a A B. rewrite <- DC at 1. apply (plus_cv t Hty); auto. unfold fits; lia. }
  assert (MC : forall a, fits t a -> fits t (a - d) -> Minus t (cv a) d = Ok (cv (a - d))).
  { intros a A B. rewrite <- DC at 1. apply (minus_cv t Hty); auto. unfold fits; lia. }
  change (cvf f u v) with (cv (f u v)). rewrite PC by (unfold fits; lia). cbn [bind].
  destruct (set_m_ok N F _ u v (cv (f u v + d)) HF Hu Hv) as (F1 & -> & H1). cbn [bind].
  rewrite (at_m_ok _ _ _ v u H1) by auto. cbn [bind].
  assert (M1 : Minus t (if (v =? u)%nat && (u =? v)%nat then cv (f u v + d) else cvf f v u) d =
               Ok (cv ((if (v =? u)%nat && (u =? v)%nat then f u v + d else f v u) - d))).
  { unfold cvf. destruct (Nat.eqb_spec v u) as [->|]; [rewrite Nat.eqb_refl|]; cbn [andb]; apply MC; unfold fits; lia. }
  rewrite M1. cbn [bind].
  match goal with |- context [lil_setElement F1 v u ?x] =>
    destruct (set_m_ok N F1 _ v u x H1 Hv Hu) as (F2 & -> & H2) end. cbn [bind].
  assert (M2 : Minus t (e u) d = Ok (e u - d)).
  { rewrite <- (inty_id t Hty (e u)) at 1 by lia. rewrite MC by (unfold fits; lia).
    rewrite (inty_id t Hty) by lia. auto. }
  rewrite M2. cbn [bind].
  destruct (set_v_ok N E e u (e u - d) HE Hu) as (E1 & -> & G1). cbn [bind].
  rewrite (at_v_ok _ _ _ v G1) by auto. cbn [bind].
  assert (M3 : Plus t (if (v =? u)%nat then e u - d else e v) d = Ok ((if (v =? u)%nat then e u - d else e v) + d)).
  { set (y := if (v =? u)%nat then e u - d else e v).
    assert (Y : 0 <= y /\ y + d <= tmax t).
    { unfold y. destruct (Nat.eqb_spec v u) as [|Q]; [lia|]. specialize (EB Q). lia. }
    rewrite <- (inty_id t Hty y) at 1 by lia. rewrite PC by (unfold fits; lia).
    rewrite (inty_id t Hty) by lia. auto. }
  rewrite M3. cbn [bind].
  match goal with |- context [vec_setElement E1 v ?x] =>
    destruct (set_v_ok N E1 _ v x G1 Hv) as (E2 & -> & G2) end. cbn [bind].
  exists F2, E2. split; [auto|]. split.
  - eapply mz_ext; [exact H2|]. intros i j Hi Hj. cbv beta. unfold cvf, push_f. eqbs; simpl in *; try congruence; f_equal; lia.
  - eapply vz_ext; [exact G2|]. intros i Hi. cbv beta. unfold push_e. eqbs; simpl in *; try congruence; lia.
Qed.

(** ** Relabelling *)
Notation inf := (tmax t).
Notation inv := (ProofPush.inv N C source sink).
Notation st := (ProofPush.st N).

Lemma iresidual_ok F f u v : mz N F (cvf f) -> (u < N)%nat -> (v < N)%nat -> f u v = - f v u -> f u v <= c u v -> f v u <= c v u ->
  ipr_residual t C F u v = Ok (c u v - f u v).
Proof.
  intros HF Hu Hv AS C1 C2. unfold ipr_residual. pose proof (HC N C WC RC CC) as HCC. change (capacity C) with c in HCC.
  pose proof (cap_pair u v Hu Hv) as CP. pose proof (Hc u v Hu Hv). pose proof (Hc v u Hv Hu).
  rewrite (at_m_ok N C c u v), (at_m_ok N F (cvf f) u v) by auto. cbn [bind]. unfold cvf.
  apply (residual_cv t Hty); unfold fits; lia.
Qed.
Lemma residual_ok F f u v : mz N F f -> (u < N)%nat -> (v < N)%nat -> pr_residual C F u v = Ok (c u v - f u v).
Proof.
  intros HF Hu Hv. unfold pr_residual. pose proof (HC N C WC RC CC) as HCC. change (capacity C) with c in HCC.
  rewrite (at_m_ok N C c u v), (at_m_ok N F f u v) by auto. auto.
Qed.

Lemma relabel_sim F F' f H H' h u e k : mz N F f -> mz N F' (cvf f) -> vz N H h -> vz N H' h -> inv f e h k -> (u < N)%nat ->
  exists G G' g, pr_relabel inf C F H u = Ok G /\ ipr_relabel t C F' H' u = Ok G' /\ vz N G g /\ vz N G' g.
Proof.
  intros HF HF' HH HH' I Hu. unfold pr_relabel, ipr_relabel. rewrite RC.
  assert (L : forall l, (forall v, In v l -> (v < N)%nat) -> forall G G' m g, vz N G g -> vz N G' g ->
    (m = inf /\ forall i, (i < N)%nat -> 0 <= g i <= 2 * Z.of_nat N) \/
    (0 <= m <= 2 * Z.of_nat N /\ forall i, (i < N)%nat -> 0 <= g i <= 2 * Z.of_nat N + 1) ->
    exists K K' m' g',
      mfor l (fun v '(height, min_height) =>
         r <- pr_residual C F u v ;;
         if (0 <? r)%Z then
           a <- at_v height v ;;
           let min_height := Z.min min_height a in
           height <- vec_setElement height u (min_height + 1)%Z ;;
           Ok (height, min_height)
         else Ok (height, min_height)) (G, m) = Ok (K, m') /\
      mfor l (fun v '(height, min_height) =>
         r <- ipr_residual t C F' u v ;;
         if (0 <? r)%Z then
           a <- at_v height v ;;
           let min_height := if (a <? min_height)%Z then a else min_height in
           y <- Plus t min_height 1%Z ;;
           height <- vec_setElement height u y ;;
           Ok (height, min_height)
         else Ok (height, min_height)) (G', m) = Ok (K', m') /\ vz N K g' /\ vz N K' g').
  { induction l as [|v l IH]; intros Hl G G' m g VG VG' B.
    - exists G, G', m, g. cbn [mfor]. split; [auto|split; [auto|split; auto]].
    - cbn [mfor]. assert (Hv : (v < N)%nat) by (apply Hl; left; auto).
      rewrite (residual_ok F f u v), (iresidual_ok F' f u v) by (auto; apply I; auto). cbn [bind].
      destruct (0 <? c u v - f u v); cbn [bind].
      2: { apply (IH ltac:(intros; apply Hl; right; auto) G G' m g); auto. }
      rewrite (at_v_ok N G g v), (at_v_ok N G' g v) by auto. cbn [bind]. cbv zeta.
      replace (if g v <? m then g v else m) with (Z.min m (g v)) by (destruct (Z.ltb_spec (g v) m); lia).
      set (m1 := Z.min m (g v)).
      assert (M : 0 <= m1 <= 2 * Z.of_nat N).
      { destruct B as [(-> & B)|(M & B)]; specialize (B v Hv); lia. }
      assert (P : Plus t m1 1 = Ok (m1 + 1)).
      { pose proof (tmax_big t Hty). rewrite <- (inty_id t Hty m1) at 1 by lia. rewrite <- (inty_id t Hty 1) at 1 by lia.
        rewrite (plus_cv t Hty) by (unfold fits; lia). rewrite (inty_id t Hty) by lia. auto. }
      rewrite P. cbn [bind].
      destruct (set_v_ok N G g u (m1 + 1) VG Hu) as (G1 & -> & V1). cbn [bind].
      destruct (set_v_ok N G' g u (m1 + 1) VG' Hu) as (G1' & -> & V1'). cbn [bind].
      apply (IH ltac:(intros; apply Hl; right; auto) G1 G1' m1 _ V1 V1').
      right. split; [auto|]. intros i Hi. destruct (Nat.eqb_spec i u); [lia|].
      destruct B as [(_ & B)|(_ & B)]; specialize (B i Hi); lia. }
  destruct (L (seq 0 N) ltac:(intros v Hv; apply in_seq in Hv; lia) H H' inf h HH HH') as (K & K' & m' & g' & E1 & E2 & V & V').
  { left. split; [auto|]. apply I. }
  exists K, K', g'. split; [|split; [|auto]].
  - etransitivity; [apply (f_equal (fun z => s <- z ;; Ok (fst s)) E1)|reflexivity].
  - etransitivity; [apply (f_equal (fun z => s <- z ;; Ok (fst s)) E2)|reflexivity].
Qed.

(** ** The relation between the two runs *)
Definition rel (x x' : pr_state) : Prop := forall f e h k, st x f e h k -> st x' (cvf f) e h k.
Lemma mz_uniq M f g : mz N M f -> mz N M g -> forall i j, (i < N)%nat -> (j < N)%nat -> f i j = g i j.
Proof. intros (_ & _ & _ & A) (_ & _ & _ & B) i j Hi Hj. rewrite <- A, <- B; auto. Qed.
Lemma vz_uniq w f g : vz N w f -> vz N w g -> forall i, (i < N)%nat -> f i = g i.
Proof. intros (_ & _ & A) (_ & _ & B) i Hi. rewrite <- A, <- B; auto. Qed.
Lemma rel_intro x x' f e h k : st x f e h k -> st x' (cvf f) e h k -> rel x x'.
Proof.
  intros (A1 & A2 & A3 & A4) (B1 & B2 & B3 & B4) f1 e1 h1 k1 (D1 & D2 & D3 & D4). split; [|split; [|split]].
  - eapply mz_ext; [exact B1|]. intros. unfold cvf. f_equal. eapply mz_uniq; eauto.
  - eapply vz_ext; [exact B2|]. exact (vz_uniq _ _ _ A2 D2).
  - eapply vz_ext; [exact B3|]. exact (vz_uniq _ _ _ A3 D3).
  - eapply vz_ext; [exact B4|]. exact (vz_uniq _ _ _ A4 D4).
Qed.

(** No excess is lost. *)
Definition tot (x : pr_state) : Prop := exists e, vz N (pr_excess x) e /\ zsum N e = inf /\ 0 <= e source.
Lemma tot_all x e : tot x -> vz N (pr_excess x) e -> zsum N e = inf /\ 0 <= e source.
Proof.
  intros (e1 & V & S & P) V'. split; [rewrite <- S; apply zsum_ext; exact (vz_uniq _ _ _ V' V)|].
  rewrite (vz_uniq _ _ _ V' V source Hs). auto.
Qed.

Lemma exc_bounds f e h k u v : inv f e h k -> zsum N e = inf -> 0 <= e source -> (u < N)%nat -> (v < N)%nat ->
  0 <= e u <= inf /\ 0 <= e v /\ (v <> u -> e u + e v <= inf).
Proof.
  intros I S P Hu Hv. assert (NN : forall i, (i < N)%nat -> 0 <= e i).
  { intros i Hi. destruct (Nat.eq_dec i source) as [->|]; auto. apply (i_pos _ _ _ _ _ _ _ _ I); auto. }
  split; [|split]; auto.
  - split; auto. rewrite <- S. apply zsum_ge_one; auto.
  - intro Nv. rewrite <- S, <- (push_e_sum N e u v (e u)) by auto.
    replace (e u + e v) with (push_e e u v (e u) v).
    + apply zsum_ge_one; auto. intros j Hj. pose proof (NN j Hj). pose proof (NN u Hu). unfold push_e. eqbs; simpl; try congruence; lia.
    + unfold push_e. rewrite Nat.eqb_refl, (proj2 (Nat.eqb_neq _ _) Nv). simpl. lia.
Qed.

Lemma step_sim u x x' f e h k : st x f e h k -> inv f e h k -> rel x x' -> tot x ->
  (u < N)%nat -> u <> source -> 0 < e u ->
  exists y y', pr_step inf C u x = Ok y /\ ipr_step t C u x' = Ok y' /\ rel y y' /\ tot y.
Proof.
  intros S I RL T Hu Ns Eu. pose proof S as (SF & SE & SH & SK). pose proof (RL f e h k S) as (SF' & SE' & SH' & SK').
  pose proof (tot_all x e T SE) as (TS & TP).
  unfold pr_step, ipr_step. rewrite (at_v_ok _ _ _ u SK), (at_v_ok _ _ _ u SK') by auto. cbn [bind]. rewrite RC.
  pose proof (i_seen _ _ _ _ _ _ _ _ I u Hu) as KR.
  assert (KC : convert (CInt false W64) (k u) = k u). { cbn [convert]. unfold wrapu. cbn [bits]. apply Z.mod_small. lia. }
  rewrite KC. pose proof (tmax_big t Hty) as TB.
  destruct (Z.ltb_spec (k u) (Z.of_nat N)) as [K|K].
  - set (v := Z.to_nat (k u)). assert (Hv : (v < N)%nat) by lia. cbv zeta.
    rewrite (residual_ok _ f u v), (iresidual_ok _ f u v) by (auto; apply I; auto). cbn [bind].
    rewrite (at_v_ok _ _ _ u SH), (at_v_ok _ _ _ v SH), (at_v_ok _ _ _ u SH'), (at_v_ok _ _ _ v SH') by auto. cbn [bind].
    assert (ADM : (if 0 <? c u v - f u v then Ok (h v <? h u) else Ok false) = Ok ((0 <? c u v - f u v) && (h v <? h u)) )
      by (destruct (0 <? _); auto).
    rewrite ADM. cbn [bind]. destruct ((0 <? c u v - f u v) && (h v <? h u)).
    + pose proof (exc_bounds f e h k u v I TS TP Hu Hv) as (B1 & B2 & B3).
      pose proof (HC N C WC RC CC) as HCC. change (capacity C) with c in HCC.
      destruct (push_ok N C c _ f e _ u v HCC SF SE Hu Hv) as (F1 & E1 & -> & HF1 & HE1). cbn [bind fst snd].
      destruct (ipush_ok _ f _ e u v SF' SE' Hu Hv) as (F1' & E1' & -> & HF1' & HE1'); auto; try (apply I; auto).
      cbn [bind fst snd]. set (d := Z.min (e u) (c u v - f u v)) in *.
      eexists. eexists. split; [reflexivity|]. split; [reflexivity|]. split.
      * apply (rel_intro _ _ (push_f f u v d) (push_e e u v d) h k); (split; [auto|split; [auto|split; auto]]).
      * exists (push_e e u v d). cbn [pr_excess]. split; [auto|]. split; [rewrite push_e_sum; auto|].
        assert (f u v <= c u v) by (apply I; auto). unfold push_e. eqbs; simpl; try congruence; lia.
    + assert (P : Plus t (k u) 1 = Ok (k u + 1)).
      { rewrite <- (inty_id t Hty (k u)) at 1 by lia. rewrite <- (inty_id t Hty 1) at 1 by lia.
        rewrite (plus_cv t Hty) by (unfold fits; lia). rewrite (inty_id t Hty) by lia. auto. }
      rewrite P. cbn [bind].
      destruct (set_v_ok _ _ _ u (k u + 1) SK Hu) as (K1 & -> & HK1). cbn [bind].
      destruct (set_v_ok _ _ _ u (k u + 1) SK' Hu) as (K1' & -> & HK1'). cbn [bind].
      eexists. eexists. split; [reflexivity|]. split; [reflexivity|]. split.
      * eapply rel_intro; (split; [eassumption|split; [eassumption|split; eassumption]]).
      * exists e. cbn [pr_excess]. auto.
  - destruct (relabel_sim _ _ f _ _ h u e k SF SF' SH SH' I Hu) as (G & G' & g & -> & -> & V & V'). cbn [bind].
    destruct (set_v_ok _ _ _ u 0 SK Hu) as (K1 & -> & HK1). cbn [bind].
    destruct (set_v_ok _ _ _ u 0 SK' Hu) as (K1' & -> & HK1'). cbn [bind].
    eexists. eexists. split; [reflexivity|]. split; [reflexivity|]. split.
    + eapply rel_intro; (split; [eassumption|split; [eassumption|split; eassumption]]).
    + exists e. cbn [pr_excess]. auto.
Qed.

Definition good (x : pr_state) : Prop := tot x /\ exists f e h k, st x f e h k /\ inv f e h k.

Lemma discharge_sim u : (u < N)%nat -> u <> source -> u <> sink -> forall n x x' y, good x -> rel x x' ->
  pr_discharge n inf C u x = Ok (Some y) ->
  exists y', ipr_discharge t n C u x' = Ok (Some y') /\ rel y y' /\ good y.
Proof.
  intros Hu Ns Nt. unfold pr_discharge, ipr_discharge.
  induction n as [|n IH]; intros x x' y (T & f & e & h & k & S & I) RL; [discriminate|].
  cbn [mwhileM]. pose proof S as (SF & SE & SH & SK). pose proof (RL f e h k S) as (SF' & SE' & SH' & SK').
  rewrite (at_v_ok _ _ _ u SE), (at_v_ok _ _ _ u SE') by auto. cbn [bind].
  destruct (Z.ltb_spec 0 (e u)) as [Eu|Eu].
  - destruct (step_sim u x x' f e h k S I RL T Hu Ns Eu) as (y1 & y1' & E1 & E2 & RL1 & T1).
    destruct (step_ok N C source sink inf WC RC CC Hs Ht Hst ltac:(lia) Hc u x f e h k f e h S I Hu Ns Nt Eu)
      as (y2 & f' & e' & h' & k' & E3 & S' & I' & _ & _).
    { constructor; auto; lia. }
    rewrite E1 in E3. injection E3 as <-. rewrite E1, E2. cbn [bind]. apply IH; auto. split; [auto|].
    exists f', e', h', k'. auto.
  - intro Q. injection Q as <-. exists x'. split; [auto|split; [auto|]]. split; [auto|]. exists f, e, h, k. auto.
Qed.

Lemma main_sim fuel : forall n L p x x' y, (forall v, In v L -> (v < N)%nat /\ v <> source /\ v <> sink) -> good x -> rel x x' ->
  pr_main n fuel inf C L p x = Ok (Some y) ->
  exists y', ipr_main t n fuel C L p x' = Ok (Some y') /\ rel y y' /\ good y.
Proof.
  induction n as [|n IH]; intros L p x x' y HL G RL; [discriminate|]. cbn [pr_main ipr_main].
  destruct (Z.of_nat p <? pr_last (nrows C)).
  2: { intro Q. injection Q as <-. exists x'. auto. }
  destruct (nth_error L p) as [u|] eqn:EU; [|discriminate].
  destruct (HL u (nth_error_In _ _ EU)) as (Hu & Ns & Nt).
  pose proof G as (T & f & e & h & k & S & I). pose proof S as (SF & SE & SH & SK).
  pose proof (RL f e h k S) as (SF' & SE' & SH' & SK').
  rewrite (at_v_ok _ _ _ u SH), (at_v_ok _ _ _ u SH') by auto. cbn [bind].
  destruct (pr_discharge fuel inf C u x) as [[z|]| |] eqn:ED; try discriminate. cbn [bind].
  destruct (discharge_sim u Hu Ns Nt fuel x x' z G RL ED) as (z' & -> & RL1 & G1). cbn [bind].
  pose proof G1 as (T1 & f1 & e1 & h1 & k1 & S1 & I1). pose proof S1 as (_ & _ & SH1 & _).
  pose proof (RL1 f1 e1 h1 k1 S1) as (_ & _ & SH1' & _).
  rewrite (at_v_ok _ _ _ u SH1), (at_v_ok _ _ _ u SH1') by auto. cbn [bind].
  destruct (h u <? h1 u); apply IH; auto.
  intros v [<-|Hv]; auto. apply HL. apply in_app_iff in Hv. destruct Hv as [Hv|Hv].
  - rewrite <- (firstn_skipn p L). apply in_app_iff. auto.
  - rewrite <- (firstn_skipn (p + 1) L). apply in_app_iff. auto.
Qed.

(** ** The first pushes *)
Notation f0 := (ProofPush.f0 C source).
Notation e0 := (ProofPush.e0 C source inf).

Lemma out_source : zsum N (fun v => c source v) <= inf.
Proof.
  etransitivity; [|apply (Hsum source Hs)]. apply zsum_le. intros j Hj. pose proof (Hc j source Hj Hs). lia.
Qed.
Lemma e0_source i : (i <= N)%nat -> 0 <= e0 i source <= inf.
Proof.
  intro Hi. unfold ProofPush.e0. rewrite Nat.eqb_refl.
  assert (P : forall j, (j < N)%nat -> 0 <= b1 (negb (j =? source)%nat) * capacity C source j <= c source j).
  { intros j Hj. pose proof (Hc source j Hs Hj). fold c. destruct (negb _); simpl; lia. }
  assert (Q : zsum i (fun j => b1 (negb (j =? source)%nat) * capacity C source j) <= zsum N (fun v => c source v)).
  { eapply Z.le_trans; [apply (zsum_prefix N C source sink)|]; auto.
    - intros j Hj. apply (P j Hj).
    - apply zsum_le. intros j Hj. apply (P j Hj). }
  assert (Q' : 0 <= zsum i (fun j => b1 (negb (j =? source)%nat) * capacity C source j)).
  { rewrite <- (zsum_zero i (fun _ => 0)) at 1 by auto. apply zsum_le. intros j Hj. apply P. lia. }
  pose proof out_source. lia.
Qed.
Lemma push0 i : (i < N)%nat -> let d := Z.min (e0 i source) (c source i - f0 i source i) in
  (forall x y, (x < N)%nat -> (y < N)%nat -> push_f (f0 i) source i d x y = f0 (S i) x y) /\
  (forall x, (x < N)%nat -> push_e (e0 i) source i d x = e0 (S i) x).
Proof.
  intros Hi d. destruct (Nat.eq_dec i source) as [->|Ni].
  - assert (LS : forall j, (j <? S source)%nat = ((j <? source)%nat || (j =? source)%nat)).
    { intro j. destruct (Nat.ltb_spec j (S source)), (Nat.ltb_spec j source), (Nat.eqb_spec j source); simpl; auto; lia. }
    split.
    + intros x y _ _. unfold push_f, ProofPush.f0.
      rewrite !LS. destruct (x =? source)%nat, (y =? source)%nat, (x <? source)%nat, (y <? source)%nat; simpl; lia.
    + intros x _. unfold push_e, ProofPush.e0.
      rewrite LS, zsum_S, Nat.eqb_refl. destruct (x =? source)%nat, (x <? source)%nat; simpl; lia.
  - assert (DE : d = c source i).
    { assert (FE : f0 i source i = 0).
      { unfold ProofPush.f0. rewrite Nat.eqb_refl, Nat.ltb_irrefl. simpl. rewrite andb_false_r. simpl. lia. }
      unfold d. rewrite FE, Z.sub_0_r. apply Z.min_r. pose proof (e0_source (S i) ltac:(lia)) as Q.
      unfold ProofPush.e0 in *. rewrite Nat.eqb_refl in *. rewrite zsum_S, (proj2 (Nat.eqb_neq _ _) Ni) in Q. cbn [negb b1] in Q.
      unfold c. lia. }
    assert (LS : forall j, (j <? S i)%nat = ((j <? i)%nat || (j =? i)%nat)).
    { intro j. destruct (Nat.ltb_spec j (S i)), (Nat.ltb_spec j i), (Nat.eqb_spec j i); simpl; auto; lia. }
    split.
    + intros x y _ _. unfold push_f, ProofPush.f0. fold c. rewrite DE, !LS.
      destruct (Nat.ltb_spec x i), (Nat.ltb_spec y i); eqbs; simpl; try congruence; lia.
    + intros x _. unfold push_e, ProofPush.e0. fold c.
      rewrite LS, zsum_S, DE, (proj2 (Nat.eqb_neq _ _) Ni). cbn [negb b1].
      destruct (Nat.ltb_spec x i); eqbs; simpl; try congruence; lia.
Qed.

Lemma iinit_ok F E : mz N F (fun _ _ => 0) -> vz N E (fun x => if (x =? source)%nat then inf else 0) ->
  exists s, mfor (seq 0 N) (fun i '(F, excess) => ipr_push t C F excess source i) (F, E) = Ok s /\
    mz N (fst s) (cvf (f0 N)) /\ vz N (snd s) (e0 N) /\ zsum N (e0 N) = inf.
Proof.
  intros HF HE.
  apply (mfor_seq_inv (fun i (s : lil Z * bvec Z) => mz N (fst s) (cvf (f0 i)) /\ vz N (snd s) (e0 i) /\ zsum N (e0 i) = inf)).
  - cbn [fst snd]. split; [|split].
    + eapply mz_ext; [exact HF|]. intros x y _ _. unfold cvf, ProofPush.f0. simpl. rewrite !andb_false_r. simpl.
      symmetry. apply (inty_id t Hty). pose proof (tmax_big t Hty). lia.
    + eapply vz_ext; [exact HE|]. intros x _. unfold ProofPush.e0. rewrite zsum_0. destruct (x =? source)%nat; simpl; lia.
    + rewrite (zsum_single N _ source Hs).
      * unfold ProofPush.e0. rewrite Nat.eqb_refl, zsum_0. lia.
      * intros j _ Nj. unfold ProofPush.e0. rewrite (proj2 (Nat.eqb_neq _ _) Nj). simpl. lia.
  - intros i (F1, E1) Hi (H1 & H2 & H3). cbn [fst snd] in *.
    destruct (push0 i Hi) as (P1 & P2). pose proof (e0_source i ltac:(lia)) as ES.
    destruct (ipush_ok F1 (f0 i) E1 (e0 i) source i H1 H2 Hs Hi) as (F' & E' & -> & H4 & H5); auto.
    + unfold ProofPush.f0. destruct (Nat.eqb_spec i source); rewrite ?Nat.eqb_refl; simpl; lia.
    + unfold ProofPush.f0. rewrite Nat.eqb_refl, Nat.ltb_irrefl. pose proof (Hc source i Hs Hi). rewrite !andb_false_r. simpl. 
      destruct ((i =? source)%nat && (source <? i)%nat && negb true); simpl; unfold c in *; pose proof (Hc source source Hs Hs); unfold c in *; lia.
    + unfold ProofPush.f0. rewrite Nat.eqb_refl, Nat.ltb_irrefl. pose proof (Hc i source Hi Hs). rewrite !andb_false_r. simpl.
      pose proof (Hc source source Hs Hs). unfold c in *. destruct (i =? source)%nat, (source <? i)%nat; simpl; lia.
    + destruct (Nat.eq_dec i source) as [->|Ni]; [lia|]. unfold ProofPush.e0.
      rewrite (proj2 (Nat.eqb_neq _ _) Ni), Nat.ltb_irrefl. simpl. lia.
    + intro Ni. unfold ProofPush.e0 at 2. rewrite (proj2 (Nat.eqb_neq _ _) Ni), Nat.ltb_irrefl. simpl. lia.
    + exists (F', E'). split; [auto|]. cbn [fst snd]. change (1 + i)%nat with (S i). split; [|split].
      * eapply mz_ext; [exact H4|]. intros x y Hx Hy. unfold cvf. f_equal. apply P1; auto.
      * eapply vz_ext; [exact H5|]. intros x Hx. apply P2; auto.
      * transitivity (zsum N (push_e (e0 i) source i (Z.min (e0 i source) (c source i - f0 i source i)))).
        -- apply zsum_ext. intros x Hx. symmetry. apply P2; auto.
        -- rewrite push_e_sum; auto.
Qed.

(** ** The sums of the rows *)
Lemma sum_fold (f : nat -> Z) (g : nat -> option Z) : forall l S acc,
  (forall j, In j l -> oz (g j) = cv (f j) /\ fits t (f j)) ->
  Z.abs S + fold_right Z.add 0 (map (fun j => Z.abs (f j)) l) <= inf ->
  (acc = None /\ S = 0) \/ acc = Some (Ok (cv S)) ->
  let r := fold_left (fun acc x => match acc, x with
                          | None, Some v => Some (Ok v : ival)
                          | Some a, Some v => Some (s <- a ;; Plus t s v)
                          | _, None => acc
                          end) (map g l) acc in
  let S' := S + fold_right Z.add 0 (map f l) in
  (r = None /\ S' = 0) \/ r = Some (Ok (cv S')).
Proof.
  induction l as [|j l IH]; intros S acc Hl B A; cbn [map fold_left fold_right] in *.
  - cbv zeta. rewrite Z.add_0_r. auto.
  - destruct (Hl j (or_introl eq_refl)) as (G & FJ).
    assert (POS : 0 <= fold_right Z.add 0 (map (fun j => Z.abs (f j)) l)).
    { clear. induction l; simpl; lia. }
    cbv zeta. replace (S + (f j + fold_right Z.add 0 (map f l))) with ((S + f j) + fold_right Z.add 0 (map f l)) by lia.
    apply IH; [intros; apply Hl; right; auto|lia|].
    assert (Hz : cv 0 = 0). { apply (inty_id t Hty). pose proof (tmax_big t Hty). lia. }
    destruct (g j) as [v|]; cbn [oz] in G.
    + right. destruct A as [(-> & ->)| ->].
      * rewrite G. auto.
      * cbn [bind]. rewrite G, (plus_cv t Hty); auto; unfold fits; lia.
    + assert (Z0 : f j = 0) by (apply (cv_zero t Hty); auto). rewrite Z0, Z.add_0_r.
      destruct A as [(-> & ->)| ->]; auto.
Qed.

Lemma flows_ok F f : mz N F (cvf f) -> (forall x y, (x < N)%nat -> (y < N)%nat -> f x y = - f y x /\ f x y <= c x y) ->
  exists w, ipr_flows t F = Ok w /\ wfv0 w /\ vsize w = N /\
    forall i, (i < N)%nat -> vget w i = Some (Ok (cv (zsum N (f i)))) \/ (vget w i = None /\ zsum N (f i) = 0).
Proof.
  intros (WF & RF & CF & GF) Hf. unfold ipr_flows. rewrite RF.
  destruct (vis_new (Ok 0 : ival) N ltac:(lia)) as (w0 & E0 & V0). rewrite E0. cbn [bind].
  destruct V0 as (W0 & S0 & G0).
  destruct (reduce_ok (fun x : Z => Ok x : ival) (fun x y => Plus t x y) (fun s x => s <- s ;; Plus t s x) btrue idc
              (NoAcc idc) vnomask MERGE w0 (Mat F)) as (w' & Ew & Ww & Sw & Gw); auto.
  { apply W0. }
  { exact Logic.I. }
  { split; [exact Logic.I|]. simpl. lia. }
  rewrite Ew. cbn [bind].
  assert (VW : forall i, (i < N)%nat -> vget w' i = Some (Ok (cv (zsum N (f i)))) \/ (vget w' i = None /\ zsum N (f i) = 0)).
  { intros i Hi. rewrite Gw by lia. cbn [vmask_allows spec_accum].
    unfold spec_write. cbn [vnomask vmask_allows]. unfold idc. rewrite ?option_map_id'. unfold ofold. simpl vcols. rewrite CF.
    destruct (sum_fold (f i) (fun j => sview (Mat F) i j) (seq 0 N) 0 None) as [(A & B)|A]; auto.
    - intros j Hj. apply in_seq in Hj. assert (Hj' : (j < N)%nat) by lia. split.
      + specialize (GF i j Hi Hj'). unfold capacity, cvf in GF. simpl. destruct (mget F i j); auto.
      + destruct (Hf i j Hi Hj') as (A & B). destruct (Hf j i Hj' Hi) as (_ & B'). pose proof (cap_pair i j Hi Hj').
        pose proof (Hc i j Hi Hj'). pose proof (Hc j i Hj' Hi). unfold fits. lia.
    - change (fold_right Z.add 0 (map (fun j => Z.abs (f i j)) (seq 0 N))) with (zsum N (fun j => Z.abs (f i j))).
      transitivity (zsum N (fun j => c i j + c j i)); [|apply Hsum; auto]. simpl Z.abs at 1. rewrite Z.add_0_l. apply zsum_le.
      intros j Hj. destruct (Hf i j Hi Hj) as (A & B). destruct (Hf j i Hj Hi) as (_ & B').
      pose proof (Hc i j Hi Hj). pose proof (Hc j i Hj Hi). lia. }
  exists w'. assert (W' : wfv0 w') by (apply Ww). split; [|split; [auto|split; [lia|auto]]].
  apply defined_v_ok; auto. intros i x Hx. destruct (Nat.lt_ge_cases i N) as [Hi|Hi].
  - destruct (VW i Hi) as [E|(E & _)]; rewrite E in Hx; [injection Hx as <-; eauto|discriminate].
  - rewrite vget_oob in Hx by (auto; lia). discriminate.
Qed.

Theorem ipush_relabel_ok n : (4 * (N + 1) * (N + 1) * (N + 1) <= n)%nat ->
  exists x, imaxflow_push_relabel t n C source sink = Ok (Some x) /\ is_max_flow N c source sink x.
Proof.
  intro Hn. unfold imaxflow_push_relabel. rewrite RC, CC.
  assert (N0 : N <> 0%nat) by lia.
  destruct (vis_new 0 N N0) as (w0 & EW & V0). rewrite EW. cbn [bind].
  apply vz_vis in V0. cbn [oz] in V0. rewrite (inty_id t Hty) by lia.
  destruct (set_v_ok N w0 _ source (Z.of_nat N) V0 Hs) as (H & -> & HH). cbn [bind].
  destruct (set_v_ok N w0 _ source inf V0 Hs) as (E & -> & HE). cbn [bind].
  assert (NEW : mz N (lil_new N N) (fun _ _ => 0)).
  { split; [apply lil_new_wf|split; [auto|split; [auto|]]]. intros. unfold capacity. rewrite mget_new. auto. }
  destruct (init_ok N C source sink inf WC RC CC Hs Ht Hst ltac:(lia) Hc HN out_source (lil_new N N) E NEW HE) as (s & _ & HF & HE').
  destruct (iinit_ok (lil_new N N) E NEW HE) as (s' & -> & HF2 & HE2 & TOT).
  cbn [bind].
  set (L := filter _ _).
  assert (IL : inner N source sink L).
  { split; [apply NoDup_filter, seq_NoDup|]. intro x. unfold L. rewrite filter_In, in_seq, andb_true_iff, !negb_true_iff, !Nat.eqb_neq.
    intuition lia. }
  assert (FOP : ForallOrdPairs (fun a b => ~ adm C (f0 N) (hh0 N source) b a) L).
  { assert (B : forall x, In x L -> (x < N)%nat) by (intros x Hx; apply IL; auto).
    clearbody L. clear IL. induction L as [|a L IH]; constructor.
    - apply Forall_forall. intros b Hb. apply (adm0 N C source sink); auto; apply B; simpl; auto.
    - apply IH. intros; apply B; simpl; auto. }
  pose proof (inv0 N C source sink inf RC CC Hs Ht Hst ltac:(lia) Hc HN out_source) as I0.
  set (x0 := mkPr (fst s) (snd s) H w0). set (x0' := mkPr (fst s') (snd s') H w0).
  assert (ST0 : st x0 (f0 N) (e0 N) (hh0 N source) (fun _ => 0)) by (split; [auto|split; [auto|split; auto]]).
  assert (ST0' : st x0' (cvf (f0 N)) (e0 N) (hh0 N source) (fun _ => 0)) by (split; [auto|split; [auto|split; auto]]).
  destruct (main_ok N C source sink inf WC RC CC Hs Ht Hst ltac:(lia) Hc HN n n ltac:(nia) L 0 x0 (f0 N) (e0 N) (hh0 N source) (fun _ => 0))
    as (x & f & e & h & k & EM & S & I & Z0); auto.
  - lia.
  - intros v [].
  - unfold omeas. assert (zsum N (fun v => 2 * Z.of_nat N - hh0 N source v) <= 2 * Z.of_nat N * Z.of_nat N).
    { transitivity (zsum N (fun _ => 2 * Z.of_nat N)).
      - apply zsum_le. intros i Hi. unfold hh0. destruct (_ =? _)%nat; lia.
      - clear. assert (forall m, zsum m (fun _ => 2 * Z.of_nat N) = 2 * Z.of_nat N * Z.of_nat m); [|rewrite H; lia].
        induction m; [rewrite zsum_0; lia|]. rewrite zsum_S. lia. }
    nia.
  - destruct (main_sim n n L 0 x0 x0' x) as (x' & -> & RL & G).
    { intros v Hv. apply IL. auto. }
    { split; [|exists (f0 N), (e0 N), (hh0 N source), (fun _ => 0); auto].
      exists (e0 N). split; [auto|]. split; [auto|]. apply (e0_source N); auto. }
    { apply (rel_intro _ _ _ _ _ _ ST0 ST0'). }
    { exact EM. }
    cbn [bind]. pose proof (RL f e h k S) as (SF' & _).
    destruct (flows_ok (pr_F x') f SF') as (w & -> & WW & SW & GW).
    { intros a b Ha Hb. split; apply I; auto. }
    cbn [bind]. destruct (final_max N C source sink RC CC Hs Ht Hst f e h k I Z0) as (FL & MX).
    assert (RNG : 0 <= zsum N (fun v => f source v) <= inf).
    { split.
      - destruct MX as (_ & MX). specialize (MX (fun _ _ => 0)). unfold flow_value in MX. rewrite zsum_zero in MX by auto. apply MX.
        split; [intros; lia|split; [intros; apply Hc; auto|]]. intros. apply zsum_zero. auto.
      - etransitivity; [|apply out_source]. apply zsum_le. intros j Hj. apply I; auto. }
    rewrite vec_hasElement_ok, vec_extractElement_ok by auto. rewrite SW, (proj2 (Nat.ltb_lt _ _) Hs). cbn [bind].
    destruct (GW source Hs) as [-> | (-> & ZZ)]; cbn [is_some bind].
    + rewrite (inty_id t Hty) by exact RNG. eauto.
    + exists 0. split; [auto|]. rewrite <- ZZ. exact MX.
Qed.
End Run.

(** A loop that comes back to the same state after four steps does not end. *)
Lemma cycle4 {X} (cond : X -> res bool) (step : X -> res X) (a b c d : X) :
  (cond a = Ok true /\ step a = Ok b) -> (cond b = Ok true /\ step b = Ok c) ->
  (cond c = Ok true /\ step c = Ok d) -> (cond d = Ok true /\ step d = Ok a) ->
  forall n, mwhileM n cond step a = Ok None.
Proof.
  intros (A1 & A2) (B1 & B2) (C1 & C2) (D1 & D2) n.
  assert (H : mwhileM n cond step a = Ok None /\ mwhileM n cond step b = Ok None /\
              mwhileM n cond step c = Ok None /\ mwhileM n cond step d = Ok None); [|tauto].
  induction n as [|n (I1 & I2 & I3 & I4)]; [auto|]. cbn [mwhileM]. rewrite A1, B1, C1, D1. cbn [bind].
  rewrite A2, B2, C2, D2. cbn [bind]. auto.
Qed.
