(** [edge_betweenness_centrality] in types which hold the natural numbers up to a bound. *)
From Coq Require Import Lia ZArith QArith Qcanon.
From Verif Require Import Base ModelLil ModelVec ModelHelpers ModelViews ModelMul ModelElem ModelIndex ModelUtils
  ModelAlgoBase ModelRank ModelBc ModelEbcTypes Spec SpecOps SpecRank SpecBc ProofBase ProofVec ProofElem ProofReduce ProofGraph ProofUtils ProofRank ProofVis
  ProofRc ProofBcPaths ProofBcRow ProofBc ProofBcVert ProofEbc ProofBcBound ProofInts.
Local Open Scope nat_scope.

(** ** The checks *)
Lemma stored_all {T} (p : T -> bool) (u : bvec T) N f : vis N u f -> (forall i x, i < N -> f i = Some x -> p x = true) ->
  forallb (fun e : bool * T => negb (fst e) || p (snd e)) (combine (vbits u) (vvals u)) = true.
Proof.
  intros (((L1 & L2) & _) & S & G) H. apply forallb_forall. intros (b, x) Hr. cbn [fst snd]. destruct b; auto. cbn [negb orb].
  apply In_nth with (d := (false, x)) in Hr. destruct Hr as (i & Hi & E).
  rewrite combine_length in Hi. apply Nat.min_glb_lt_iff in Hi. destruct Hi as [Hi1 Hi2]. rewrite combine_nth in E by (transitivity (vsize u); auto). injection E as E1 E2.
  apply (H i); [lia|]. rewrite <- G by lia. unfold vget.
  assert (F1 : nth_error (vbits u) i = Some true) by (rewrite <- E1; apply nth_error_nth'; exact Hi1).
  assert (F2 : nth_error (vvals u) i = Some x) by (rewrite <- E2; apply nth_error_nth'; exact Hi2).
  rewrite F1, F2. auto.
Qed.
Lemma def_v_ok {T} (def : T -> bool) u N f : vis N u f -> (forall i x, i < N -> f i = Some x -> def x = true) -> def_v def u = Ok u.
Proof. intros V H. unfold def_v. rewrite (stored_all def u N f V H). reflexivity. Qed.
Lemma conv_v_ok {T} (tbi : T -> res bool) u N f : vis N u f -> (forall i x, i < N -> f i = Some x -> exists b, tbi x = Ok b) -> conv_v tbi u = Ok tt.
Proof.
  intros V H. unfold conv_v. rewrite (stored_all (fun x => match tbi x with Ok _ => true | _ => false end) u N f V); [reflexivity|].
  intros i x Hi E. destruct (H i x Hi E) as (b & ->). reflexivity.
Qed.
Lemma def_m_ok {T} (def : T -> bool) M R K f : rc R K M f -> (forall i j x, i < R -> j < K -> f i j = Some x -> def x = true) -> def_m def M = Ok M.
Proof.
  intros (((L & F) & Z) & RR & CC & G) H. unfold def_m. replace (forallb _ _) with true; auto. symmetry. apply forallb_forall. intros r Hr.
  rewrite Forall_forall in F. pose proof (F r Hr) as Wr.
  apply forallb_forall. intros (j, x) Hx. simpl. apply In_nth with (d := []) in Hr. destruct Hr as (i & Hi & E).
  assert (Hj : j < K).
  { clear - Wr Hx CC. subst K. revert Wr Hx. generalize 0. induction r as [|(k, y) r IH]; simpl; [tauto|]. intros lo [B W] [E|Hx]; [inversion E; subst; lia|]. apply (IH (S k)); auto. }
  apply (H i j); [lia|auto|]. rewrite <- G by (auto; lia). unfold mget. rewrite E. apply (rget_In r 0 (ncols M)); auto.
Qed.

(** ** Shortest paths through a vertex *)
Section Through.
Context (N : nat) (edge : nat -> nat -> bool) (s : nat).
Hypothesis Hs : s < N.
Definition total : nat := nsum N (fun t => length (shortest_paths N edge s t)).
Lemma nsum_le n f g : (forall i, i < n -> f i <= g i) -> nsum n f <= nsum n g.
Proof. clear. induction n as [|n IH]; intro H; simpl; [lia|]. pose proof (H n ltac:(lia)). specialize (IH (fun i Hi => H i (Nat.lt_lt_succ_r _ _ Hi))). lia. Qed.
Lemma through l v : v < N -> W N edge l s v * paths N edge s l v <= total.
Proof.
  intro Hv. unfold paths, total. rewrite <- nsum_scale. apply nsum_le. intros t Ht. unfold onward. rewrite shortest_dist.
  destruct (dist N edge s t) as [n|]; [|simpl; lia]. destruct (Nat.leb_spec l n) as [L|L]; [|simpl; lia].
  change (length (walks_to N edge n s t)) with (W N edge n s t). replace n with (l + (n - l)) at 2 by lia. rewrite W_add by auto.
  apply (nsum_ge N (fun v => W N edge l s v * W N edge (n - l) v t) v Hv).
Qed.
End Through.

Section Edge.
Context {T : Type} (def : T -> bool) (add mul div : T -> T -> T) (ofn : nat -> T) (tb : T -> bool) (tbi : T -> res bool) (graph : lil T) (N : nat) (Mx Mi : Z).
Hypothesis WA : wfm graph.
Hypothesis RA : nrows graph = N.
Hypothesis CA : ncols graph = N.
Local Notation edge := (gedge graph).
Local Notation small a := (Z.of_nat a <= Mx)%Z.
Hypothesis Hadd : forall a b, small (a + b) -> add (ofn a) (ofn b) = ofn (a + b).
Hypothesis Hmul : forall a b, a <> 0 -> b <> 0 -> small a -> small b -> small (a * b) -> mul (ofn a) (ofn b) = ofn (a * b).
Hypothesis Hmul1 : forall a, small a -> mul (ofn a) (ofn 1) = ofn a.
Hypothesis Hdiv : forall a b, a <> 0 -> b <> 0 -> small b -> small (b * a) -> div (ofn (b * a)) (ofn b) = ofn a.
Hypothesis Htb : forall a, small a -> tb (ofn a) = negb (a =? 0).
Hypothesis Htbi : forall a, (Z.of_nat a <= Mi)%Z -> tbi (ofn a) = Ok (negb (a =? 0)).
Hypothesis Hdef : forall a, small a -> def (ofn a) = true.
Hypothesis Hone : forall u v x, mget graph u v = Some x -> x = ofn 1.
Hypothesis Hloop : forall v, v < N -> edge v v = false.
Hypothesis HM2 : (2 <= Mx)%Z.
Hypothesis Hfit : forall s, s < N -> small (total N edge s).
Hypothesis Hint : forall s v, s < N -> v < N -> (Z.of_nat (length (shortest_paths N edge s v)) <= Mi)%Z.
Hypothesis Huse : forall u v, u < N -> v < N -> small (edge_uses N edge u v).

Lemma Htbi' a : (Z.of_nat a <= Mi)%Z -> tbi' tbi (ofn a) = negb (a =? 0).
Proof. clear - Htbi. intro H. unfold tbi'. rewrite Htbi by auto. reflexivity. Qed.

Local Notation ocnt := (ocnt ofn).
Lemma ocnt_def c x : small c -> ocnt c = Some x -> def x = true.
Proof. clear - Hdef. unfold ProofEbc.ocnt. intro H. destruct (c =? 0); [discriminate|]. intros [= <-]. auto. Qed.
Lemma ocnt_add' a b : small (a + b) -> ounion add idc idc (ocnt a) (ocnt b) = ocnt (a + b).
Proof.
  clear - Hadd. intro H. unfold ProofEbc.ocnt. destruct (Nat.eqb_spec a 0) as [->|Ha], (Nat.eqb_spec b 0) as [->|Hb]; cbn [ounion]; unfold idc; auto.
  - rewrite (proj2 (Nat.eqb_neq _ 0)); auto.
  - rewrite (proj2 (Nat.eqb_neq (a + 0) 0)) by lia. rewrite Nat.add_0_r. auto.
  - rewrite (proj2 (Nat.eqb_neq _ 0)) by lia. rewrite Hadd by auto. auto.
Qed.

Section Source.
Context (s : nat).
Hypothesis Hs : s < N.
Local Notation lev := (lev N edge s).
Local Notation levb := (levb N edge s).
Local Notation W' := (W N edge).
Local Notation paths' := (paths N edge s).
Local Notation succs' := (succs N edge s).
Local Notation isP := (isP N edge s idn).
Local Notation isF := (isF N edge s idn).

Lemma fitW l v : v < N -> small (W' l s v * paths' l v).
Proof. clear - Hfit Hs. intro Hv. pose proof (through N edge s Hs l v Hv). specialize (Hfit s Hs). lia. Qed.
Lemma W_pos' l v : levb l v = true -> W' l s v <> 0.
Proof. clear. intro L. apply levb_spec in L. apply L. Qed.
Lemma paths_pos' l v : v < N -> levb l v = true -> paths' l v <> 0.
Proof. clear - Hs. intros Hv L. apply levb_spec in L. rewrite (paths_rec N edge s Hs l v Hv L). lia. Qed.
Lemma fit_paths l v : v < N -> levb l v = true -> small (paths' l v).
Proof. clear - Hfit Hs. intros Hv L. pose proof (fitW l v Hv). pose proof (W_pos' l v L). nia. Qed.
Lemma fit_W l v : v < N -> levb l v = true -> small (W' l s v).
Proof. clear - Hfit Hs. intros Hv L. pose proof (fitW l v Hv). pose proof (paths_pos' l v Hv L). nia. Qed.
Lemma fit_succs l v : v < N -> levb l v = true -> small (W' l s v * succs' l v).
Proof.
  clear - Hfit Hs. intros Hv L. pose proof (fitW l v Hv) as F. apply levb_spec in L. rewrite (paths_rec N edge s Hs l v Hv L) in F. lia.
Qed.

Lemma xe_body_ok k st : vinvM ofn graph N s 1 k st -> exists st', xe_body def add mul tb tbi graph st = Ok st' /\ vinvM ofn graph N s 1 (S k) st'.
Proof.
  destruct st as [[F P] Ss]. intros (M & f & g & HF & HP & IF & IP & HS). unfold xe_body. rewrite RA.
  pose proof (Hfit s Hs) as HfitS. unfold total in HfitS.
  destruct (vis_new false N ltac:(lia)) as (S0 & -> & V0). cbn [bind].
  assert (FB : forall v a, v < N -> f v = Some a -> small a).
  { intros v a Hv Ea. pose proof (F_le graph N s Hs (S k) f g v a Hv IF HS Ea). pose proof (fit1 graph N s Mx HfitS v Hv). lia. }
  assert (FI : forall v a, v < N -> f v = Some a -> (Z.of_nat a <= Mi)%Z).
  { intros v a Hv Ea. pose proof (F_le graph N s Hs (S k) f g v a Hv IF HS Ea). pose proof (Hint s v Hs Hv). lia. }
  rewrite (conv_v_ok tbi F N _ HF).
  2: { intros v x Hv E. unfold fn in E. destruct (f v) as [a|] eqn:Ea; [|discriminate]. injection E as <-. rewrite Htbi by (apply (FI v); auto). eauto. }
  cbn [bind].
  destruct (vis_apply N (tbi' tbi) btrue vnomask _ MERGE S0 F _ _ V0 HF (vmis_none _ _)) as (Sg & -> & VS). cbn [bind].
  destruct (vis_add N add idc idc btrue vnomask _ REPLACE P P F _ _ _ HP HP HF (vmis_none _ _)) as (P' & -> & VP). cbn [bind].
  set (g' := fun v => ounion Nat.add idc idc (g v) (f v)). set (f' := fun v => if negb (otrue pos (g' v)) then osum Nat.add (map (fun k => omap2 keep (f k) (mget graph k v)) (seq 0 N)) else None).
  assert (IP' : isP (S k) g').
  { apply (step_P N edge s Hs idn Nat.add (fun _ _ => eq_refl) k f g _ IF IP). auto. }
  assert (HS' : self_ok graph s f' g').
  { destruct HS as (HS & (c & Ec & Bc) & NL). unfold self_ok.
    assert (Eg : exists c, g' s = Some c /\ 1 <= c <= 2).
    { unfold g'. destruct HS as [HS|(HS & HG)]; rewrite HS; [rewrite Ec; exists c; auto|rewrite HG; exists 2; split; [reflexivity|lia]]. }
    assert (Ef : f' s = None).
    { unfold f'. destruct Eg as (c' & -> & Hc'). unfold otrue, pos. destruct (Nat.eqb_spec c' 0); [lia|reflexivity]. }
    split; [auto|]. split; [exact Eg|]. intro N0. split; [exact Ef|]. destruct (NL N0) as (E1 & E2). unfold g'. rewrite E1, E2. reflexivity. }
  assert (GB : forall v a, v < N -> g' v = Some a -> small a).
  { intros v a Hv Ea. apply (P_le graph N s Mx Hs HM2 HfitS (S k) f' g' v); auto. }
  assert (VP' : vis N P' (fn ofn g')).
  { eapply vis_ext; [exact VP|]. intros v Hv. unfold wr. apply (union_ok add ofn graph N s Mx Hs Hadd HM2 k); auto. }
  rewrite (def_v_ok def P' N _ VP').
  2: { intros v x Hv E. unfold fn in E. destruct (g' v) as [a|] eqn:Ea; [|discriminate]. injection E as <-. apply Hdef, (GB v); auto. }
  cbn [bind].
  assert (PO : forall v, v < N -> osum add (map (fun k => omap2 mul (fn ofn f k) (mget graph k v)) (seq 0 N)) =
    option_map ofn (osum Nat.add (map (fun k => omap2 keep (f k) (mget graph k v)) (seq 0 N)))).
  { intros v Hv. apply (product_ok add mul ofn graph N s Mx) with (d := S k) (g := g); auto. }
  destruct (vis_vxm N add mul btrue vnomask _ REPLACE F F graph _ _ _ HF HF (sqA graph N WA RA CA) (vmis_none _ _)) as (X & -> & VX). cbn [bind].
  rewrite (def_v_ok def X N _ VX).
  2: { intros v x Hv E. unfold wr in E. rewrite PO in E by auto. destruct (osum Nat.add _) as [c|] eqn:EC; [|discriminate]. injection E as <-. apply Hdef.
    pose proof (osum_bounded add ofn Mx Hadd (fun k => omap2 keep (f k) (mget graph k v)) (fun v => length (shortest_paths N edge s v)) N) as (_ & OB); [|exact HfitS|].
    - intros k0 a Hk E. destruct (f k0) as [c0|] eqn:Ef; [|discriminate]. destruct (mget graph k0 v); [|discriminate]. injection E as <-. apply (F_le graph N s Hs (S k) f g k0); auto.
    - specialize (OB c EC). lia. }
  cbn [bind].
  destruct (vis_vxm N add mul tb (MComp P') _ REPLACE F F graph _ _ _ HF HF (sqA graph N WA RA CA) (vmis_comp N tb P' _ VP')) as (F' & -> & VF).
  cbn [bind]. eexists. split; [reflexivity|].
  split.
  - replace (1 + S k) with (S (1 + k)) by lia. apply (vmasks_snoc _ _ _ _ _ _ _ _ M VS); cbv beta;
      replace (1 - 1 + (1 + k)) with (S k) by lia.
    + pose proof (step_S N edge s Hs idn pos (fun _ => eq_refl) (S k) f ltac:(lia) IF) as (Q & Q').
      assert (TR : forall v, v < N -> otrue btrue (wr true MERGE None (option_map (tbi' tbi) (fn ofn f v))) = otrue pos (f v)).
      { intros v Hv. rewrite <- (true_ok ofn (tbi' tbi) Mi Htbi' f v (fun a Ea => FI v a Hv Ea)). unfold wr. destruct (fn ofn f v); reflexivity. }
      split; [intros v Hv Nv; rewrite <- Q by auto; apply TR; auto|].
      intro H2. rewrite <- (Q' H2). apply TR. auto.
    + intros NL v Hv. unfold wr. destruct (Nat.eq_dec v s) as [->|Nv].
      * unfold fn. rewrite (proj1 (proj2 (proj2 HS) NL)). rewrite levb_source by auto. auto.
      * unfold fn. rewrite (proj1 IF) by auto. destruct (levb (S k) v) eqn:L; auto. cbn [option_map]. unfold idn.
        rewrite Htbi' by (apply (FI v); auto; rewrite (proj1 IF), L by auto; reflexivity). rewrite (proj2 (Nat.eqb_neq _ 0) (W_pos' _ _ L)). auto.
  - exists f', g'. split; [|split; [exact VP'|split; [|split; [exact IP'|exact HS']]]].
    + eapply vis_ext; [exact VF|]. intros v Hv. unfold wr. cbv beta.
      rewrite (true_ok ofn tb Mx Htb g' v (fun a Ea => GB v a Hv Ea)). unfold fn at 2, f'. destruct (negb (otrue pos (g' v))); [|reflexivity].
      apply PO. auto.
    + apply (step_F N edge s Hs idn Nat.add keep pos (mget graph) (fun _ _ => eq_refl) (fun _ => eq_refl) (gedge_some graph N) (gkeep graph N) (S k) f g' f' IF IP'). auto.
Qed.

(** What [flow] is at level [j]. *)
Definition isflow' (j : nat) (fl : nat -> option T) : Prop :=
  forall v, v < N -> fl v = if levb j v then ocnt (W' j s v * succs' j v) else None.

Lemma nsp_at' k g v l : isP k g -> g s = Some 1 -> v < N -> levb l v = true -> l <= k -> fn ofn g v = Some (ofn (W' l s v)).
Proof.
  clear - Hs. intros (A & _) G Hv L Hl. apply levb_spec in L. unfold fn. destruct (Nat.eq_dec v s) as [->|Nv].
  - pose proof (lev_unique N edge s l 0 s L (lev_source N edge s)). subst l. rewrite W_0, Nat.eqb_refl, G. auto.
  - rewrite A by auto. rewrite (proj2 (dist_lev N edge s Hs v l Hv) L). destruct (Nat.leb_spec l k); auto. lia.
Qed.

Lemma xe_back_ok k j P Ss g sc up fl fs fu ff : vmasks N edge s 0 (1 + k) Ss -> vis N P (fn ofn g) -> isP k g ->
  g s = Some 1 -> j < k -> (forall u v, u < N -> v < N -> small (fs u v + used N edge s u v)) ->
  rc N N sc (fun u v => ocnt (fs u v + contrib N edge s (S j) u v)) -> rc N N up fu -> vis N fl ff ->
  isflow' (S j) ff ->
  exists sc' up' fl' fu' ff', xe_back def add mul div ofn graph P Ss (S j) (sc, up, fl) = Ok (sc', up', fl') /\
    rc N N sc' (fun u v => ocnt (fs u v + contrib N edge s j u v)) /\ rc N N up' fu' /\ vis N fl' ff' /\ isflow' j ff'.
Proof.
  intros (L & M) HP IP GS Hj HFS HS HU HF IF. unfold xe_back. rewrite RA.
  destruct (M (S j) ltac:(lia)) as (Sd & sd & Ed & Vd & _ & Xd). destruct (M j ltac:(lia)) as (Sp & sp & Ep & Vp & _ & Xp).
  specialize (Xd (Hloop s Hs)). specialize (Xp (Hloop s Hs)). cbn [Nat.add] in Xd, Xp.
  destruct (vis_new (ofn 0) N ltac:(lia)) as (w0 & -> & V0). cbn [bind]. rewrite (sigma_at_ok _ _ _ Ed). cbn [bind].
  assert (DV : forall v, v < N -> omap2 div (ff v) (fn ofn g v) = if levb (S j) v then ocnt (succs' (S j) v) else None).
  { intros v Hv. rewrite (IF v Hv). destruct (levb (S j) v) eqn:E; [|destruct (fn ofn g v); auto].
    rewrite (nsp_at' k g v (S j) IP GS Hv E ltac:(lia)). unfold ProofEbc.ocnt. pose proof (W_pos' (S j) v E).
    destruct (Nat.eqb_spec (W' (S j) s v * succs' (S j) v) 0) as [Q|Q].
    - apply Nat.eq_mul_0 in Q. destruct Q as [Q|Q]; [contradiction|]. rewrite Q. auto.
    - simpl omap2. rewrite Hdiv by (auto using fit_W, fit_succs; intro Z0; rewrite Z0 in Q; lia). destruct (Nat.eqb_spec (succs' (S j) v) 0); [lia|auto]. }
  assert (SS : forall v, v < N -> levb (S j) v = true -> small (succs' (S j) v)).
  { intros v Hv E. pose proof (fit_succs (S j) v Hv E). pose proof (W_pos' _ _ E). nia. }
  destruct (vis_mult N div btrue vnomask _ MERGE w0 fl P _ _ _ V0 HF HP (vmis_none _ _)) as (t0 & -> & Vt). cbn [bind].
  rewrite (def_v_ok def t0 N _ Vt).
  2: { intros v x Hv E. unfold wr in E. rewrite DV in E by auto. destruct (levb (S j) v) eqn:EL; [|discriminate]. apply (ocnt_def (succs' (S j) v) x); auto. }
  cbn [bind].
  destruct (vis_mult N div btrue (MVal Sd) _ MERGE w0 fl P _ _ _ V0 HF HP (vmis_val N btrue Sd sd Vd)) as (w1 & -> & V1). cbn [bind].
  destruct (vis_add N (fun x (b : bool) => add x (ofn (if b then 1 else 0))) idc (fun b : bool => ofn (if b then 1 else 0)) btrue
    vnomask _ MERGE w1 w1 Sd _ _ _ V1 V1 Vd (vmis_none _ _)) as (w2 & -> & V2). cbn [bind].
  assert (V2' : vis N w2 (fun v => if levb (S j) v then Some (ofn (paths' (S j) v)) else None)).
  { eapply vis_ext; [exact V2|]. intros v Hv. unfold wr. cbv beta iota. rewrite (Xd v Hv). destruct (levb (S j) v) eqn:E; [|auto].
    change (otrue btrue (Some true)) with true. cbv iota. rewrite DV, E by auto.
    pose proof E as E'. apply levb_spec in E'. pose proof (paths_rec N edge s Hs (S j) v Hv E') as PR. pose proof (fit_paths (S j) v Hv E) as FP. rewrite PR in *. unfold ProofEbc.ocnt.
    destruct (Nat.eqb_spec (succs' (S j) v) 0) as [Q|Q]; [rewrite Q; auto|]. cbn [ounion]. rewrite Hadd by lia. f_equal. f_equal. lia. }
  rewrite (def_v_ok def w2 N _ V2').
  2: { intros v x Hv E. destruct (levb (S j) v) eqn:EL; [|discriminate]. injection E as <-. apply Hdef, fit_paths; auto. }
  cbn [bind].
  destruct (ebc_diag_ok graph N RA w2 _ V2') as (D & -> & VD). cbn [bind].
  assert (rcA : rc N N graph (mget graph)) by (split; [auto|split; [auto|split; auto]]).
  destruct (rc_mxm N N N add mul mul idc idc btrue mnomask _ MERGE up graph D _ _ _ HU rcA VD (mrc_none _ _ _)) as (u1 & -> & VU). cbn [bind].
  assert (VU' : rc N N u1 (fun u v => if edge u v && levb (S j) v then Some (ofn (paths' (S j) v)) else None)).
  { eapply rc_ext; [exact VU|]. intros u v Hu Hv. unfold wr. cbv beta iota. rewrite (osum_single graph N RA CA add N _ v Hv).
    - rewrite Nat.eqb_refl. change (edge u v) with (is_some (mget graph u v)). destruct (mget graph u v) as [x|] eqn:E; simpl is_some; [|auto]. cbn [andb].
      destruct (levb (S j) v) eqn:EL; [|auto]. cbn [omap2]. rewrite (Hone u v x E), Hmul, Nat.mul_1_l; auto using paths_pos'; try lia; rewrite ?Nat.mul_1_l; apply fit_paths; auto.
    - intros i Hi Ni. rewrite (proj2 (Nat.eqb_neq i v) Ni). destruct (mget graph u i); auto. }
  rewrite (def_m_ok def u1 N N _ VU').
  2: { intros u v x Hu Hv E. destruct (levb (S j) v) eqn:EL; [|rewrite andb_false_r in E; discriminate]. destruct (edge u v); [|discriminate]. injection E as <-. apply Hdef, fit_paths; auto. }
  cbn [bind].
  rewrite (sigma_at_ok Ss (S j - 1) Sp) by (replace (S j - 1) with j by lia; auto). cbn [bind].
  destruct (vis_apply N idc btrue (MVal Sp) _ REPLACE w2 P _ _ V2 HP (vmis_val N btrue Sp sp Vp)) as (w3 & -> & V3). cbn [bind].
  assert (V3' : vis N w3 (fun v => if levb j v then Some (ofn (W' j s v)) else None)).
  { eapply vis_ext; [exact V3|]. intros v Hv. unfold wr. cbv beta iota. rewrite (Xp v Hv). destruct (levb j v) eqn:E; [|auto].
    change (otrue btrue (Some true)) with true. cbv iota. rewrite (nsp_at' k g v j IP GS Hv E ltac:(lia)). auto. }
  destruct (ebc_diag_ok graph N RA w3 _ V3') as (D3 & -> & VD3). cbn [bind].
  destruct (rc_mxm N N N add mul mul idc idc btrue mnomask _ MERGE u1 D3 u1 _ _ _ VU' VD3 VU' (mrc_none _ _ _)) as (u2 & -> & VU2). cbn [bind].
  set (c2 := fun u v => if layer N edge s (S j) u v then W' j s u * paths' (S j) v else 0).
  assert (C2 : forall u v, u < N -> v < N -> small (c2 u v)).
  { intros u v Hu Hv. pose proof (contrib_next N edge s Hs j u v Hv) as CN. fold (c2 u v) in CN. specialize (HFS u v Hu Hv).
    assert (LE : contrib N edge s j u v <= used N edge s u v).
    { rewrite <- (contrib_all N edge s Hs u v Hu Hv). unfold contrib. destruct (dist N edge s v) as [l|]; [|lia].
      destruct (Nat.ltb_spec j l), (Nat.ltb_spec 0 l); cbn [andb]; try lia. }
    lia. }
  assert (VU2' : rc N N u2 (fun u v => ocnt (c2 u v))).
  { eapply rc_ext; [exact VU2|]. intros u v Hu Hv. unfold wr. cbv beta iota. rewrite (osum_single graph N RA CA add N _ u Hu).
    - rewrite Nat.eqb_refl. specialize (C2 u v Hu Hv). unfold c2, layer in *. replace (S j - 1) with j in * by lia. destruct (levb j u) eqn:E1; [|auto]. cbn [andb] in *.
      destruct (edge u v && levb (S j) v) eqn:E2; [|auto]. apply andb_true_iff in E2. destruct E2 as (_ & E2).
      simpl omap2. rewrite Hmul by (auto using fit_W, fit_paths, W_pos', paths_pos'). unfold ProofEbc.ocnt. rewrite (proj2 (Nat.eqb_neq _ 0)); auto.
      apply Nat.neq_mul_0. split; [apply W_pos'; auto|apply paths_pos'; auto].
    - intros i Hi Ni. rewrite (proj2 (Nat.eqb_neq u i)) by auto. auto. }
  rewrite (def_m_ok def u2 N N _ VU2').
  2: { intros u v x Hu Hv E. apply (ocnt_def (c2 u v) x); auto. }
  cbn [bind].
  destruct (rc_add N N add idc idc add idc idc btrue mnomask _ MERGE sc sc u2 _ _ _ HS HS VU2' (mrc_none _ _ _)) as (sc' & -> & VS). cbn [bind].
  assert (SB : forall u v, u < N -> v < N -> small (fs u v + contrib N edge s j u v)).
  { intros u v Hu Hv. specialize (HFS u v Hu Hv).
    assert (LE : contrib N edge s j u v <= used N edge s u v).
    { rewrite <- (contrib_all N edge s Hs u v Hu Hv). unfold contrib. destruct (dist N edge s v) as [l|]; [|lia].
      destruct (Nat.ltb_spec j l), (Nat.ltb_spec 0 l); cbn [andb]; try lia. }
    lia. }
  assert (VS' : rc N N sc' (fun u v => ocnt (fs u v + contrib N edge s j u v))).
  { eapply rc_ext; [exact VS|]. intros u v Hu Hv. unfold wr. cbv beta iota. specialize (SB u v Hu Hv). rewrite (contrib_next N edge s Hs j u v Hv) in *.
    fold (c2 u v) in *. rewrite ocnt_add' by lia. f_equal. lia. }
  rewrite (def_m_ok def sc' N N _ VS').
  2: { intros u v x Hu Hv E. eapply ocnt_def; [|exact E]. auto. }
  cbn [bind].
  destruct (vis_reduce N N add MERGE fl _ u2 _ HF VU2') as (fl' & -> & VF). cbn [bind].
  assert (VF' : vis N fl' (fun v => if levb j v then ocnt (W' j s v * succs' j v) else None)).
  { eapply vis_ext; [exact VF|]. intros v Hv. cbv beta. destruct (levb j v) eqn:E.
    - set (h := fun w => if edge v w && levb (S j) w then Some (W' j s v * paths' (S j) w) else None).
      assert (EM : map (fun w => ocnt (c2 v w)) (seq 0 N) = map (fun w => option_map ofn (h w)) (seq 0 N)).
      { apply map_ext_in. intros w Hw. apply in_seq in Hw. unfold c2, h, layer. replace (S j - 1) with j by lia. rewrite E. cbn [andb].
        destruct (edge v w && levb (S j) w) eqn:E2; [|auto]. apply andb_true_iff in E2. destruct E2 as (_ & E2). unfold ProofEbc.ocnt.
        rewrite (proj2 (Nat.eqb_neq _ 0)); auto. apply Nat.neq_mul_0. split; [apply W_pos'; auto|apply paths_pos'; auto; lia]. }
      rewrite EM. set (bnd := fun w => if edge v w && levb (S j) w then W' j s v * paths' (S j) w else 0).
      assert (NS : nsum N bnd = W' j s v * succs' j v).
      { unfold succs, bnd. rewrite <- nsum_scale. apply nsum_ext. intros w Hw. destruct (_ && _); lia. }
      pose proof (osum_bounded add ofn Mx Hadd h bnd N) as (-> & _).
      { intros w a Hw Ea. unfold h, bnd in *. destruct (_ && _); [|discriminate]. injection Ea as <-. lia. }
      { rewrite NS. apply fit_succs; auto. }
      unfold h. rewrite (osum_nat N (fun w => edge v w && levb (S j) w) (fun w => W' j s v * paths' (S j) w)).
      + cbv zeta. fold bnd. change (nsum N (fun k0 => if edge v k0 && levb (S j) k0 then W' j s v * paths' (S j) k0 else 0)) with (nsum N bnd).
        rewrite NS. unfold ProofEbc.ocnt. destruct (_ =? 0); auto.
      + intros w Hw E2. apply andb_true_iff in E2. destruct E2 as (_ & E2).
        apply Nat.neq_mul_0. split; [apply W_pos'; auto|apply paths_pos'; auto].
    - apply osum_none_iff. intros x Hx. apply in_map_iff in Hx. destruct Hx as (w & <- & _). unfold c2, layer. replace (S j - 1) with j by lia. rewrite E. reflexivity. }
  rewrite (def_v_ok def fl' N _ VF').
  2: { intros v x Hv E. destruct (levb j v) eqn:EL; [|discriminate]. eapply ocnt_def; [|exact E]. apply fit_succs; auto. }
  cbn [bind]. eexists _, _, _, _, _. split; [reflexivity|]. split; [exact VS'|]. split; [exact VU2'|]. split; [exact VF'|]. intros v Hv. reflexivity.
Qed.

Lemma xe_source_ok n sc fs : N < n -> (forall u v, u < N -> v < N -> small (fs u v + used N edge s u v)) -> rc N N sc (fun u v => ocnt (fs u v)) -> exists sc',
  xe_source def add mul div ofn tb tbi n graph s sc = Ok (Some sc') /\ rc N N sc' (fun u v => ocnt (fs u v + used N edge s u v)).
Proof.
  intros Hn HFS V. unfold xe_source. rewrite RA. destruct (vis_new (ofn 0) N ltac:(lia)) as (F0 & -> & V0). cbn [bind].
  destruct (vis_extract_row N btrue vnomask _ MERGE F0 graph _ _ s V0 (sqA graph N WA RA CA) (vmis_none _ _) Hs) as (F & -> & VF).
  cbn [bind]. destruct (vis_set N F0 _ s (ofn 1) V0 Hs) as (P & -> & VP & _). cbn [bind].
  destruct (vis_new false N ltac:(lia)) as (S0 & -> & VS0). cbn [bind].
  destruct (vis_set N S0 _ s true VS0 Hs) as (S1 & -> & VS1 & _). cbn [bind].
  destruct (vloopM ofn graph N s Mx RA CA Hs HM2 (Hfit s Hs) 1 (xe_body def add mul tb tbi graph) xe_body_ok n 0 (F, P, [S1]))
    as (F' & P' & Ss & k & g & E0 & Hk & M & HP & IP & _ & Hw & GS); try lia.
  { destruct (vfirstM graph N s Hs) as (A1 & A2 & A3). split.
    - split; [auto|]. intros j Hj. assert (j = 0) by lia. subst j. exists S1. eexists. split; [reflexivity|]. split; [exact VS1|].
      assert (Q : forall v, (if v =? s then Some true else None) = if levb 0 v then Some true else None).
      { intro v. rewrite levb_0, Nat.eqb_sym. auto. }
      cbn [Nat.sub Nat.add]. split; [|intros _ v Hv; apply Q]. split; [|lia]. intros v Hv Nv. rewrite Q. destruct (levb 0 v); auto.
    - exists (first graph s), (source s). split; [|split; [|auto]].
      + eapply vis_ext; [exact VF|]. intros v Hv. rewrite (first_fn ofn graph s Hone v). reflexivity.
      + eapply vis_ext; [exact VP|]. intros v Hv. rewrite (source_fn ofn s v). reflexivity. }
  unfold vbs in E0. rewrite E0. cbn [bind]. specialize (GS (Hloop s Hs)).
  destruct (mdown_inv (fun j st => j <= k /\ rc N N (fst (fst st)) (fun u v => ocnt (fs u v + contrib N edge s j u v)) /\
    (exists fu, rc N N (snd (fst st)) fu) /\ exists ff, vis N (snd st) ff /\ isflow' j ff)
    (xe_back def add mul div ofn graph P' Ss)) with (k := length Ss - 1) (s := (sc, lil_new N N : lil T, F0)) as ([[sc' u'] f'] & E & _ & J & _).
  - intros j [[sc1 u1] f1] (Hj & HS & (fu & HU) & ff & HF & IF). simpl in HS, HU, HF.
    destruct (xe_back_ok k j P' Ss g sc1 u1 f1 fs fu ff M HP IP GS ltac:(lia) HFS HS HU HF IF)
      as (sc' & u' & f' & fu' & ff' & -> & A & B & C & D). eexists. split; [reflexivity|]. split; [lia|]. split; [auto|].
    split; [exists fu'; auto|]. exists ff'. auto.
  - destruct M as (L & _). rewrite L. replace (1 + k - 1) with k by lia. split; [lia|]. split; [|split].
    + simpl. eapply rc_ext; [exact V|]. intros u v Hu Hv. simpl. rewrite contrib_last by auto. f_equal. lia.
    + eexists. apply rc_new.
    + eexists. split; [exact V0|]. intros v Hv. destruct (levb k v); [|reflexivity]. unfold succs. rewrite nsum_zero; [rewrite Nat.mul_0_r; auto|].
      intros w Hw'. rewrite (levb_false N edge s (S k) w), andb_false_r; auto.
  - rewrite E. cbn [bind fst]. eexists. split; [reflexivity|]. eapply rc_ext; [exact J|]. intros u v Hu Hv. simpl.
    rewrite contrib_all by auto. auto.
Qed.
End Source.

Theorem xedge_ok n : N < n -> exists M, xedge_betweenness def add mul div ofn tb tbi n graph = Ok (Some M) /\
  rc N N M (fun u v => ocnt (edge_uses N edge u v)).
Proof.
  intro Hn. unfold xedge_betweenness. rewrite RA, CA, Nat.eqb_refl. cbn [negb].
  match goal with |- context [mfor (seq 0 N) ?body ?s0] =>
    destruct (mfor_seq_inv (fun i o => exists M, o = Some M /\ rc N N M (fun u v => ocnt (nsum i (fun s => used N edge s u v)))) body N s0)
      as (r & -> & (M & -> & V)) end.
  - eexists. split; [reflexivity|]. apply rc_new.
  - intros i o Hi (M & -> & V). destruct (xe_source_ok i Hi n M (fun u v => nsum i (fun s => used N edge s u v)) Hn) as (M' & E & V'); [|exact V|].
    + intros u v Hu Hv. pose proof (Huse u v Hu Hv) as U. rewrite edge_uses_sum in U.
      assert (LE : nsum (S i) (fun s => used N edge s u v) <= nsum N (fun s => used N edge s u v)).
      { clear - Hi. revert Hi. generalize (fun s => used N edge s u v). intros f Hi. induction N as [|m IH]; [lia|]. destruct (Nat.eq_dec i m) as [->|]; [lia|].
        specialize (IH ltac:(lia)). simpl in *. lia. }
      cbn [nsum] in LE. cbv beta. lia.
    + exists (Some M'). split; [auto|]. exists M'. split; [auto|]. exact V'.
  - exists M. split; [auto|]. eapply rc_ext; [exact V|]. intros u v Hu Hv. cbv beta. rewrite edge_uses_sum. auto.
Qed.
End Edge.
