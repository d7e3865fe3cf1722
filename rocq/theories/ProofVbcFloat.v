(** [vertex_betweenness_centrality] over floating point numbers. *)
From Coq Require Import ZArith QArith Qabs Qcanon Lia Lqa Floats.SpecFloat.
From Verif Require Import Base ModelLil ModelVec ModelHelpers ModelViews ModelElem ModelMul ModelIndex ModelUtils ModelAlgoBase ModelInts ModelFloat ModelFsssp ModelConv ModelBc ModelBcTypes
  Spec SpecOps SpecRank SpecBc SpecFloats SpecFpaths SpecConv SpecNormalize SpecRankTypes
  ProofBase ProofLil ProofElem ProofReduce ProofGraph ProofVec ProofRank ProofVis ProofRc ProofFloat ProofRound ProofConv ProofDiv ProofError ProofNormalize ProofNormalizeRows ProofApprox ProofRankApprox
  ProofBcPaths ProofBcRow ProofBc ProofBcVert ProofBcTypes ProofBcApprox ProofBcFloat ProofBcBound.
Local Open Scope nat_scope.

(** Natural numbers up to 2^prec. *)
Definition fnat (t : ftype) (a : nat) : fval := of_int t (Z.of_nat a).
Lemma same_int t x z : number t x -> feq x (of_int t z) -> (Z.abs z <= 2 ^ prec t)%Z -> z <> 0%Z -> x = of_int t z.
Proof.
  intros Nx E Hz Z0. destruct (int_ok t z Hz) as (Nz & Fz & Ez). apply (feq_sv t) in E; auto.
  destruct (sv_inj t x (of_int t z) Nx Nz E) as [X|(s & s' & X & Y)]; [exact X|].
  exfalso. rewrite Y in Ez. cbn in Ez. pose proof (unit_pos t). nia.
Qed.
Lemma fnat_plus t a b : (Z.of_nat (a + b) <= 2 ^ prec t)%Z -> FPlus t (fnat t a) (fnat t b) = fnat t (a + b).
Proof.
  intro H. unfold fnat. rewrite Nat2Z.inj_add. destruct (Nat.eq_dec (a + b) 0) as [E|E].
  - assert (a = 0) by lia. assert (b = 0) by lia. subst. destruct t; reflexivity.
  - apply same_int; try lia.
    + destruct (int_exact t (Z.of_nat a) ltac:(lia)) as (Va & Fa & _). destruct (int_exact t (Z.of_nat b) ltac:(lia)) as (Vb & Fb & _).
      apply (plus_fin t _ _ Va Vb Fa Fb).
    + apply int_plus; lia.
Qed.
Lemma fnat_times t a : (Z.of_nat a <= 2 ^ prec t)%Z -> FTimes t (fnat t a) (fnat t 1) = fnat t a.
Proof.
  intro H. unfold fnat. destruct a as [|a]; [destruct t; reflexivity|].
  assert (H1 : (Z.abs (Z.of_nat 1) <= 2 ^ prec t)%Z) by (destruct t; cbn; lia).
  apply same_int; try lia.
  - destruct (int_exact t (Z.of_nat (S a)) ltac:(lia)) as (Va & Fa & _). destruct (int_exact t (Z.of_nat 1) H1) as (Vb & Fb & _).
    apply (times_rounds t _ _ Va Vb Fa Fb).
  - replace (Z.of_nat (S a)) with (Z.of_nat (S a) * Z.of_nat 1)%Z at 2 by lia. apply int_times; lia.
Qed.
Lemma fnat_true t a : (Z.of_nat a <= 2 ^ prec t)%Z -> ftrue (fnat t a) = negb (a =? 0).
Proof.
  intro H. unfold fnat. destruct (int_ok t (Z.of_nat a) ltac:(lia)) as (Nz & Fz & Ez).
  destruct a as [|a]; [destruct t; reflexivity|]. unfold ftrue. cbn [Nat.eqb negb].
  destruct (of_int t (Z.of_nat (S a))) as [s|s| |s m e]; try reflexivity.
  exfalso. cbn in Ez. pose proof (unit_pos t). nia.
Qed.

Section Vertex.
Context (t : ftype) (graph : lil fval) (N : nat).
Hypothesis WA : wfm graph.
Hypothesis RA : nrows graph = N.
Hypothesis CA : ncols graph = N.
Hypothesis HN : N <> 0.
Hypothesis Hone : forall u v x, mget graph u v = Some x -> x = fnat t 1.
Local Notation edge := (gedge graph).
Local Notation paths s v := (length (shortest_paths N edge s v)).
Hypothesis Hfit : forall s, s < N -> (Z.of_nat (nsum N (fun v => paths s v)) <= 2 ^ prec t)%Z.
Hypothesis HK : (2 * Z.of_nat (8 * N + N) <= 2 ^ prec t)%Z.
Local Notation Mx := (2 ^ prec t)%Z.
Local Notation ft := (FTimes t).
Local Notation fp := (FPlus t).
Local Notation fi := (FMultiplicativeInverse t).
Let ti (_ : fval) : Z := 1%Z.
Lemma prec_M : (2 <= Mx /\ Mx <= 9007199254740992)%Z.
Proof. clear. destruct t; cbn; lia. Qed.
Lemma Htone u v x : mget graph u v = Some x -> idc x = f1 t.
Proof. clear - Hone. intro E. rewrite (Hone u v x E). destruct t; reflexivity. Qed.

Section Source.
Context (s : nat) (Hs : s < N).
Lemma src_ok : Forall (fun v => v < N) [s].
Proof. clear - Hs. auto. Qed.
Lemma HK1 : (2 * Z.of_nat (8 * N + length [s]) <= Mx)%Z.
Proof. clear - HK HN. cbn [length]. lia. Qed.
Lemma count1 i v : i < length [s] -> v < N -> (Z.of_nat (length (shortest_paths N (ProofBc.edge graph) (nth i [s] 0%nat) v)) <= 9007199254740992)%Z.
Proof.
  clear - Hs Hfit. intros Hi Hv. cbn [length] in Hi. replace i with 0 by lia. cbn [nth].
  pose proof (fit1 graph N s Mx (Hfit s Hs) v Hv) as Q. pose proof prec_M. change (ProofBc.edge graph) with edge. lia.
Qed.
(** The numbers after the levels above [j], of [k - 1] in all. *)
Local Notation Q1 := (Qf t graph [s] N).
Definition one (u : nat -> option fval) (_ v : nat) : option fval := u v.

Lemma fvbc_body_ok k st : vinvM (fnat t) graph N s 0 k st -> exists st', vbc_body fp ft ftrue graph st = Ok st' /\ vinvM (fnat t) graph N s 0 (S k) st'.
Proof.
  destruct st as [[F P] Ss]. intro I. unfold vbc_body.
  apply (vstepM fp ft (fnat t) ftrue graph N s Mx WA RA CA Hs (fnat_plus t) (fnat_times t) (fnat_true t) Hone (proj1 prec_M) (Hfit s Hs)); auto.
Qed.

Lemma fvbc_back_ok k j P I Ss g W U w u : k <= N -> vmasks N edge s 1 k Ss -> vis N P (fn (fnat t) g) -> isP N edge s idn k g ->
  vis N I (fun v => option_map fi (fn (fnat t) g v)) -> S j < k -> vis N W w -> vis N U u -> Q1 (k - 1) (S j) (one u) ->
  exists W' U' w' u', vbc_back fp ft graph P I Ss (S j) (W, U) = Ok (W', U') /\ vis N W' w' /\ vis N U' u' /\ Q1 (k - 1) j (one u').
Proof.
  intros Hk (L & M) HP IP HI Hj HW HU HQ. unfold vbc_back.
  destruct (M (S j) Hj) as (Si & si & Ei & Vi & Ii & _). destruct (M j ltac:(lia)) as (Sp & sp & Ep & Vp & Ip & _).
  rewrite (sigma_at_ok _ _ _ Ei). cbn [bind].
  destruct (vis_mult N ft btrue (MVal Si) _ REPLACE W I U _ _ _ HW HI HU (vmis_val N btrue Si si Vi)) as (W1 & -> & V1). cbn [bind].
  replace (S j - 1) with j by lia. rewrite (sigma_at_ok _ _ _ Ep). cbn [bind].
  destruct (vis_mxv N fp ft ft btrue (MVal Sp) _ REPLACE W1 W1 graph _ _ _ V1 V1 (sqA graph N WA RA CA)
    (vmis_val N btrue Sp sp Vp)) as (W2 & -> & V2). cbn [bind].
  destruct (vis_mult_acc N ft fp idc btrue vnomask _ REPLACE U W2 P _ _ _ HU V2 HP (vmis_none _ _)) as (U' & -> & VU).
  cbn [bind]. eexists _, _, _, _. split; [reflexivity|]. split; [exact V2|]. split; [exact VU|].
  set (gz := fun (_ : nat) v => option_map Z.of_nat (g v)).
  set (S1 := fun (_ : nat) v => otrue btrue (si v)). set (S0 := fun (_ : nat) v => otrue btrue (sp v)).
  pose proof (back_approx t graph [s] N RA CA ltac:(discriminate) src_ok count1 HK1 (dv_inv ft fi (of_int t)) (oml ft idc false) k gz (one u) S0 S1 j
    (dv_inv_ok t [s] N HK1) (oml_ok t idc graph [s] N Htone HK1 false) ltac:(lia) ltac:(lia)) as BA.
  assert (EQ : forall i v, i < 1 -> v < N -> Bx fp ft (of_int t) graph N (oml ft idc false) (one u) (W1x (dv_inv ft fi (of_int t)) (one u) gz S1) gz S0 i v =
    wr true REPLACE (u v) (ounion fp idc idc (u v) (omap2 ft (wr (otrue btrue (sp v)) REPLACE (wr (otrue btrue (si v)) REPLACE (w v) (omap2 ft (option_map fi (fn (fnat t) g v)) (u v)))
      (osum fp (map (fun x => omap2 ft (mget graph v x) (wr (otrue btrue (si x)) REPLACE (w x) (omap2 ft (option_map fi (fn (fnat t) g x)) (u x)))) (seq 0 N)))) (fn (fnat t) g v)))).
  { intros i v Hi Hv. unfold Bx, wr, one. f_equal. unfold S0. destruct (otrue btrue (sp v)); [|reflexivity].
    match goal with |- omap2 _ (osum fp ?a) _ = omap2 _ (osum fp ?b) _ => assert (E : a = b) end.
    { apply map_ext. intro x. unfold W1x, S1, one. destruct (otrue btrue (si x)); [|destruct (mget graph v x); reflexivity].
      unfold gz, fn. destruct (g x), (u x), (mget graph v x); reflexivity. }
    rewrite E. match goal with |- omap2 _ ?a _ = _ => destruct a end; unfold gz, fn; destruct (g v); reflexivity. }
  intros i v Hi Hv. cbn [length] in Hi. destruct (BA) with (i := i) (v := v) as (x & Ex & Ax); auto.
  - intros i' Hi'. cbn [length] in Hi'. replace i' with 0 by lia. cbn [nth]. destruct IP as (A1 & c & A2 & A3). split.
    + intros v' Hv' Nv. unfold gz. rewrite A1 by auto. change (ProofBc.edge graph) with edge. destruct (dist N edge s v'); [|reflexivity]. destruct (_ <=? _); reflexivity.
    + exists c. split; [auto|]. unfold gz. rewrite A3. reflexivity.
  - intros i' Hi'. cbn [length] in Hi'. replace i' with 0 by lia. exact Ii.
  - intros i' Hi'. cbn [length] in Hi'. replace i' with 0 by lia. exact Ip.
  - exists x. split; [|exact Ax]. rewrite EQ in Ex by auto. exact Ex.
Qed.

Definition Ks : nat := 7 * N + (N - cum N edge s 1).
Lemma fvbc_source_ok n w f : N < n -> vis N w f -> exists w' u,
  vbc_source fp ft fi (fnat t) ftrue n graph s w = Ok (Some w') /\ vis N w' (fun v => ounion fp idc idc (f v) (Some (u v))) /\ forall v, v < N -> approx t Ks (this (val N edge s 0 v)) (u v).
Proof.
  intros Hn V. unfold vbc_source. rewrite RA. destruct (vis_new (fnat t 0) N HN) as (F0 & -> & V0). cbn [bind].
  destruct (vis_extract_row N btrue vnomask _ REPLACE F0 graph _ _ s V0 (sqA graph N WA RA CA) (vmis_none _ _) Hs) as (F & -> & VF).
  cbn [bind]. destruct (vis_set N F0 _ s (fnat t 1) V0 Hs) as (P & -> & VP & _). cbn [bind].
  destruct (vloopM (fnat t) graph N s Mx RA CA Hs (proj1 prec_M) (Hfit s Hs) 0 (vbc_body fp ft ftrue graph) fvbc_body_ok n 0 (F, P, []))
    as (F' & P' & Ss & k & g & E0 & Hk & M & HP & IP & _ & Hw & _); try lia.
  { destruct (vfirstM graph N s Hs) as (A1 & A2 & A3). split; [split; [auto|intros; lia]|]. exists (first graph s), (source s). split; [|split; [|auto]].
    - eapply vis_ext; [exact VF|]. intros v Hv. rewrite (first_fn (fnat t) graph s Hone v). reflexivity.
    - eapply vis_ext; [exact VP|]. intros v Hv. rewrite (source_fn (fnat t) s v). reflexivity. }
  unfold vbs in E0. rewrite E0. cbn [bind]. simpl in M.
  destruct (vis_apply N fi btrue vnomask _ MERGE F0 P' _ _ V0 HP (vmis_none _ _)) as (I & -> & VI). cbn [bind].
  destruct (vis_fill N btrue vnomask _ MERGE F0 _ (fnat t 1) V0 (vmis_none _ _)) as (U & -> & VU). cbn [bind].
  destruct (mdown_inv (fun j st => j <= length Ss - 1 /\ (exists w, vis N (fst st) w) /\ exists u, vis N (snd st) u /\ Q1 (k - 1) j (one u))
    (vbc_back fp ft graph P' I Ss)) with (k := length Ss - 1) (s := (F0, U)) as ([W' U'] & E & _ & _ & (u & J & Q)).
  - intros j [W0 U0] (Hj & (w0 & HW) & (u & HU & HQ)). simpl in HW, HU. destruct M as (L & M).
    destruct (fvbc_back_ok k j P' I Ss g W0 U0 w0 u Hk (conj L M) HP IP VI ltac:(lia) HW HU HQ) as (W' & U' & w' & u' & -> & HW' & HU' & HQ').
    exists (W', U'). split; [auto|]. split; [lia|]. split; [simpl; eauto|exists u'; auto].
  - split; [lia|]. split; [simpl; eauto|]. exists (fun _ => Some (f1 t)). split.
    + simpl. eapply vis_ext; [exact VU|]. intros v Hv. unfold wr. simpl. reflexivity.
    + intros i v Hi Hv. cbn [length] in Hi. replace i with 0 by lia. cbn [nth]. exists (f1 t). split; [reflexivity|].
      change (ProofBc.edge graph) with edge. destruct M as (L & M).
      rewrite (val_init N edge s Hs k (length Ss - 1) v Hv ltac:(lia) (fun j w0 Hw' Hj => Hw j w0 Hw' ltac:(lia))).
      apply (approx_le t 0); [lia|discriminate|]. apply f1_approx.
  - rewrite E. cbn [bind snd]. cbn [snd] in J.
    destruct (vis_add N fp idc idc btrue vnomask _ MERGE w w U' _ _ _ V V J (vmis_none _ _)) as (w' & -> & V'). cbn [bind].
    exists w', (fun v => match u v with Some x => x | None => f0 end). split; [reflexivity|]. split.
    + eapply vis_ext; [exact V'|]. intros v Hv. unfold wr. destruct (Q 0 v ltac:(cbn; lia) Hv) as (x & Ex & _). unfold one in Ex. rewrite Ex. reflexivity.
    + intros v Hv. destruct (Q 0 v ltac:(cbn; lia) Hv) as (x & Ex & Ax). unfold one in Ex. rewrite Ex. cbn [nth] in Ax. change (ProofBc.edge graph) with edge in Ax.
      apply (approx_le t (Kf graph [s] N (k - 1) 0 0)); [|destruct (val_range N edge s Hs 0 v Hv); lra|exact Ax].
      unfold Kf, Ks. cbn [nth]. change (ProofBc.edge graph) with edge. lia.
Qed.
End Source.

Lemma osum_next (b : nat -> nat -> fval) i v : ounion fp idc idc (osum fp (map (fun s => Some (b s v)) (seq 0 i))) (Some (b i v)) = osum fp (map (fun s => Some (b s v)) (seq 0 (S i))).
Proof. rewrite seq_S, map_app. cbn [map]. rewrite osum_snoc'. destruct (osum fp _); reflexivity. Qed.

Theorem fvertex_bc_ok n : N < n -> all_close t graph (seq 0 N) N (vertex_betweenness_centrality fp (FMinus t) ft fi (fnat t) ftrue n graph).
Proof.
  intro Hn. unfold vertex_betweenness_centrality. rewrite RA, CA, Nat.eqb_refl. cbn [negb].
  destruct (vis_new (fnat t 0) N HN) as (w0 & -> & V0). cbn [bind].
  match goal with |- context [mfor (seq 0 N) ?body ?s0] =>
    destruct (mfor_seq_inv (fun i o => exists w b, o = Some w /\ vis N w (fun v => osum fp (map (fun s => Some (b s v)) (seq 0 i))) /\
      forall s v, s < i -> v < N -> approx t (Ks s) (this (val N edge s 0 v)) (b s v)) body N s0) as (r & -> & (w & b & -> & V & HB)) end.
  - exists w0, (fun _ _ => f0). split; [reflexivity|]. split; [|lia]. exact V0.
  - intros i o Hi (w & b & -> & V & HB). destruct (fvbc_source_ok i Hi n w _ Hn V) as (w' & u & -> & V' & HU). exists (Some w'). split; [auto|].
    set (b' := fun s => if s =? i then u else b s). exists w', b'. split; [reflexivity|]. split.
    + eapply vis_ext; [exact V'|]. intros v Hv. cbv beta. change (1 + i) with (S i). rewrite <- osum_next.
      unfold b' at 2. rewrite Nat.eqb_refl. f_equal. f_equal. apply map_ext_in. intros s Hs. apply in_seq in Hs. unfold b'.
      destruct (Nat.eqb_spec s i); [lia|reflexivity].
    + intros s v Hs Hv. unfold b'. destruct (Nat.eqb_spec s i) as [->|Ns]; [auto|]. apply HB; auto. lia.
  - cbn [bind]. destruct (vis_fill N btrue vnomask _ MERGE w0 _ (fnat t N) V0 (vmis_none _ _)) as (bi & -> & Vb). cbn [bind].
    destruct (vis_add N (FMinus t) idc idc btrue vnomask _ REPLACE w w bi _ _ _ V V Vb (vmis_none _ _)) as (w' & -> & V'). cbn [bind].
    rewrite (to_vector_ok _ _ _ _ V'). cbn [bind].
    assert (HP : seq 0 N <> []) by (destruct N; [congruence|discriminate]).
    assert (HKN : (2 * Z.of_nat (8 * N + length (seq 0 N)) <= Mx)%Z) by (rewrite seq_length; exact HK).
    assert (HS : Forall (fun v => v < N) (seq 0 N)) by (apply Forall_forall; intros v Hv; apply in_seq in Hv; lia).
    match goal with |- all_close _ _ _ _ (Ok (Some ?l)) =>
      assert (EL : l = map (fun v => FMinus t (sumx fp (seq 0 N) b v) (fb_count t (length (seq 0 N)))) (seq 0 N)) end.
    { apply map_ext. intro v. pose proof (osum_sumx fp (seq 0 N) HP b v) as E. rewrite seq_length in E. unfold wr. cbv beta iota.
      rewrite E. cbn [ounion]. unfold fb_count. rewrite seq_length. reflexivity. }
    rewrite EL. apply (close_list t graph (seq 0 N) N). intros v Hv. apply (close_minus t graph (seq 0 N) N RA CA HP HS HKN b v Hv).
    exists N. split; [lia|]. intros i v' Hi Hv'. rewrite seq_length in Hi. rewrite seq_nth by auto. change (0 + i) with i.
    exists (b i v'). split; [reflexivity|]. change (ProofBc.edge graph) with edge.
    apply (approx_le t (Ks i)); [|destruct (val_range N edge i Hi 0 v' Hv'); lra|apply HB; auto].
    unfold Kf, Ks. rewrite seq_nth by auto. change (0 + i) with i. change (ProofBc.edge graph) with edge. lia.
Qed.
End Vertex.
