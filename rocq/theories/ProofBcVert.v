(** [vertex_betweenness_centrality] with rational numbers. *)
From Coq Require Import Lia QArith Qcanon.
From Verif Require Import Base ModelLil ModelVec ModelHelpers ModelViews ModelMul ModelElem ModelIndex ModelUtils
  ModelAlgoBase ModelRank ModelBc Spec SpecOps SpecRank SpecBc ProofBase ProofElem ProofReduce ProofGraph ProofRank ProofVis
  ProofRc ProofBcPaths ProofBcRow ProofBc.
Local Open Scope nat_scope.

(** The masks of the levels found, the first of level [b]. *)
Definition vmasks (N : nat) (edge : nat -> nat -> bool) (s b k : nat) (Ss : list (bvec bool)) : Prop :=
  length Ss = k /\ forall j, j < k -> exists Sg sg, nth_error Ss j = Some Sg /\ vis N Sg sg /\
    isS N edge s (b + j) (fun v => otrue btrue (sg v)) /\
    (edge s s = false -> forall v, v < N -> sg v = if levb N edge s (b + j) v then Some true else None).
Lemma vmasks_snoc N edge s b k Ss Sg sg : vmasks N edge s b k Ss -> vis N Sg sg ->
  isS N edge s (b + k) (fun v => otrue btrue (sg v)) ->
  (edge s s = false -> forall v, v < N -> sg v = if levb N edge s (b + k) v then Some true else None) ->
  vmasks N edge s b (S k) (Ss ++ [Sg]).
Proof.
  intros (L & M) V H H'. split; [rewrite app_length; simpl; lia|]. intros j Hj. destruct (Nat.eq_dec j k) as [->|Nj].
  - exists Sg, sg. rewrite nth_error_app2 by lia. rewrite L, Nat.sub_diag. auto.
  - destruct (M j ltac:(lia)) as (S' & s' & E & R). exists S', s'. rewrite nth_error_app1 by lia. auto.
Qed.

Section Search.
(** One search from [s]; the numbers are embedded by [inj]. *)
Context {T : Type} (add mul : T -> T -> T) (ofn : nat -> T) (tb : T -> bool) (graph : lil T) (N s : nat).
Hypothesis WA : wfm graph.
Hypothesis RA : nrows graph = N.
Hypothesis CA : ncols graph = N.
Hypothesis Hs : s < N.
Definition gedge (u v : nat) : bool := is_some (mget graph u v).
Hypothesis Hadd : forall a b, add (ofn a) (ofn b) = ofn (a + b).
Hypothesis Hmul1 : forall a, mul a (ofn 1) = a.
Hypothesis Htb : forall a, tb (ofn a) = negb (a =? 0).
Hypothesis Hone : forall u v x, mget graph u v = Some x -> x = ofn 1.

Lemma sqA : sq N graph (mget graph).
Proof. split; [auto|split; [auto|split; auto]]. Qed.
Lemma gedge_some u v : u < N -> v < N -> gedge u v = is_some (mget graph u v).
Proof. auto. Qed.
Lemma gmul u v x a : u < N -> v < N -> mget graph u v = Some x -> mul (ofn a) x = ofn a.
Proof. intros _ _ E. rewrite (Hone u v x E). auto. Qed.

Local Notation more := (fun s0 : vbs => has_vals (vnvals (fst (fst s0)))).
(** [b] levels were known at first, the search has made [k] steps. *)
Definition vinv (b : nat) (k : nat) (st : vbs) : Prop :=
  let '(F, P, Ss) := st in
  vmasks N gedge s (1 - b) (b + k) Ss /\ exists f g, vis N F f /\ vis N P g /\
    isF N gedge s ofn (S k) f /\ isP N gedge s ofn k g /\
    (gedge s s = false -> f s = None /\ g s = Some (ofn 1)).

Lemma vstep b outp k F P Ss : b <= 1 -> vinv b k (F, P, Ss) -> exists st',
  (Sg <- vec_new false (nrows graph) ;;
   Sg <- apply_v tb btrue idc (NoAcc idc) vnomask MERGE Sg F ;;
   nsp <- eWiseAdd_v add idc idc btrue idc (NoAcc idc) vnomask outp P P F ;;
   frontier <- vxm add mul tb idc (NoAcc idc) (MComp nsp) REPLACE F F (Mat graph) ;;
   Ok (frontier, nsp, Ss ++ [Sg])) = Ok st' /\ vinv b (S k) st'.
Proof.
  intros Hb (M & f & g & HF & HP & IF & IP & IL). rewrite RA.
  destruct (vis_new false N ltac:(lia)) as (S0 & -> & V0). cbn [bind].
  destruct (vis_apply N tb btrue vnomask _ MERGE S0 F _ _ V0 HF (vmis_none _ _)) as (Sg & -> & VS). cbn [bind].
  destruct (vis_add N add idc idc btrue vnomask _ outp P P F _ _ _ HP HP HF (vmis_none _ _)) as (P' & -> & VP). cbn [bind].
  destruct (vis_vxm N add mul tb (MComp P') _ REPLACE F F graph _ _ _ HF HF sqA (vmis_comp N tb P' _ VP)) as (F' & -> & VF).
  cbn [bind]. eexists. split; [reflexivity|].
  assert (IP' : isP N gedge s ofn (S k) (fun v => ounion add idc idc (g v) (f v))).
  { apply (step_P N gedge s Hs ofn add Hadd k f g _ IF IP). auto. }
  split.
  - replace (b + S k) with (S (b + k)) by lia. apply (vmasks_snoc _ _ _ _ _ _ _ _ M VS); cbv beta;
      replace (1 - b + (b + k)) with (S k) by lia.
    + pose proof (step_S N gedge s Hs ofn tb Htb (S k) f ltac:(lia) IF) as (Q & Q').
      split; [intros v Hv Nv; rewrite <- Q by auto; unfold wr; destruct (f v); auto|].
      intro H2. rewrite <- (Q' H2). unfold wr. destruct (f s); auto.
    + intros NL v Hv. unfold wr. destruct (Nat.eq_dec v s) as [->|Nv].
      * rewrite (proj1 (IL NL)). rewrite levb_source by auto. auto.
      * rewrite (proj1 IF) by auto. destruct (levb N gedge s (S k) v) eqn:L; auto. simpl. rewrite Htb.
        apply levb_spec in L. rewrite (proj2 (Nat.eqb_neq _ 0) (proj1 L)). auto.
  - do 2 eexists. split; [exact VF|]. split; [exact VP|]. split; [|split; [exact IP'|]].
    + apply (step_F N gedge s Hs ofn add mul tb (mget graph) Hadd Htb gedge_some gmul (S k) f _ _ IF IP'). intros v Hv. unfold wr. auto.
    + intro NL. destruct (IL NL) as (E1 & E2). unfold wr. cbv beta. rewrite E1, E2. simpl. unfold idc. rewrite Htb. auto.
Qed.

Lemma vloop b body : (forall k st, vinv b k st -> exists st', body st = Ok st' /\ vinv b (S k) st') -> forall m k st,
  vinv b k st -> k <= N -> N - k < m ->
  exists F P Ss k' g, mwhile m more body st = Ok (Some (F, P, Ss)) /\
    vmasks N gedge s (1 - b) (b + k') Ss /\ vis N P g /\ isP N gedge s ofn k' g /\
    (forall l v, v < N -> S k' <= l -> ~ lev N gedge s l v) /\ (gedge s s = false -> g s = Some (ofn 1)).
Proof.
  intro HB. induction m as [|m IH]; intros k [[F P] Ss] I Hk Hm; [lia|]. simpl.
  destruct I as (M & f & g & HF & HP & IF & IP & IL). destruct (has_vals (vnvals F)) eqn:E.
  - destruct (HB k (F, P, Ss)) as (st' & -> & I'). { split; [auto|]. exists f, g. auto 6. } cbn [bind].
    destruct (vis_vals N F f HF E) as (v & Hv & Q).
    destruct (F_some N gedge s Hs ofn _ _ v IF Hv Q) as [L|(L & _)]; apply (IH (S k)); auto; lia.
  - exists F, P, Ss, k, g. split; [auto|]. split; [auto|]. split; [auto|]. split; [auto|].
    split; [|intro NL; apply (IL NL)]. intros l v Hv L. apply (F_none N gedge s Hs ofn (S k) f IF); auto; [lia|].
    intros u Hu. apply (vis_no_vals N F f HF E u Hu).
Qed.
Lemma vfirst : isF N gedge s ofn 1 (mget graph s).
Proof.
  apply (first_F N gedge s Hs ofn (mget graph) gedge_some). intros v Hv. destruct (mget graph s v) eqn:E; auto. simpl.
  rewrite (Hone _ _ _ E). auto.
Qed.
Lemma vsource : isP N gedge s ofn 0 (fun v => if v =? s then Some (ofn 1) else None).
Proof. apply (source_P N gedge s Hs ofn). intros v Hv. rewrite Nat.eqb_sym. auto. Qed.
End Search.

Section Vertex.
Context (graph : lil Qc) (N : nat).
Hypothesis WA : wfm graph.
Hypothesis RA : nrows graph = N.
Hypothesis CA : ncols graph = N.
Hypothesis HN : N <> 0.
Hypothesis Hone : forall u v x, mget graph u v = Some x -> x = 1%Qc.
Local Notation edge := (gedge graph).

Lemma qHone u v x : mget graph u v = Some x -> x = qn 1.
Proof. intro E. rewrite (Hone u v x E). reflexivity. Qed.
Lemma qHadd a b : (qn a + qn b)%Qc = qn (a + b).
Proof. rewrite !qn_nat_q, nat_q_add. auto. Qed.
Lemma qHmul (a : Qc) : (a * qn 1)%Qc = a.
Proof. change (qn 1) with 1%Qc. ring. Qed.
Lemma qHtb a : qtrue (qn a) = negb (a =? 0).
Proof.
  unfold qtrue. rewrite qn_nat_q. destruct (Nat.eqb_spec a 0) as [->|H].
  - change (nat_q 0) with 0%Qc. destruct (Qc_eq_dec 0 0); [auto|contradiction].
  - pose proof (nat_q_neq a H). destruct (Qc_eq_dec (nat_q a) 0); [contradiction|auto].
Qed.

Section Source.
Context (s : nat).
Hypothesis Hs : s < N.
Local Notation vinv' := (vinv qn graph N s 0).
Local Notation val' := (val N edge s).

Lemma vbc_body_ok k st : vinv' k st -> exists st', vbc_body Qcplus Qcmult qtrue graph st = Ok st' /\ vinv' (S k) st'.
Proof.
  destruct st as [[F P] Ss]. intro I.
  apply (vstep Qcplus Qcmult qn qtrue graph N s WA RA CA Hs qHadd qHmul qHtb qHone 0 MERGE k F P Ss ltac:(lia) I).
Qed.
Lemma qcq a : idc (qn a) = nat_q a.
Proof. apply qn_nat_q. Qed.
Lemma qmul1 u v x a : u < N -> v < N -> mget graph u v = Some x -> (fun a x => (x * a)%Qc) a x = a.
Proof. intros _ _ E. simpl. rewrite (Hone u v x E). ring. Qed.

Lemma vbc_back_ok k j P I Ss g W U w : vmasks N edge s 1 k Ss -> vis N P g -> isP N edge s qn k g ->
  vis N I (fun v => option_map Qcinv (g v)) -> S j < k -> vis N W w -> vis N U (fun v => Some (val' (S j) v)) ->
  exists W' U' w', vbc_back Qcplus Qcmult graph P I Ss (S j) (W, U) = Ok (W', U') /\ vis N W' w' /\ vis N U' (fun v => Some (val' j v)).
Proof.
  intros (L & M) HP IP HI Hj HW HU. unfold vbc_back.
  destruct (M (S j) Hj) as (Si & si & Ei & Vi & Ii & _). destruct (M j ltac:(lia)) as (Sp & sp & Ep & Vp & Ip & _).
  rewrite (sigma_at_ok _ _ _ Ei). cbn [bind].
  destruct (vis_mult N Qcmult btrue (MVal Si) _ REPLACE W I U _ _ _ HW HI HU (vmis_val N btrue Si si Vi)) as (W1 & -> & V1). cbn [bind].
  replace (S j - 1) with j by lia. rewrite (sigma_at_ok _ _ _ Ep). cbn [bind].
  destruct (vis_mxv N Qcplus Qcmult Qcmult btrue (MVal Sp) _ REPLACE W1 W1 graph _ _ _ V1 V1 (sqA graph N WA RA CA)
    (vmis_val N btrue Sp sp Vp)) as (W2 & -> & V2). cbn [bind].
  destruct (vis_mult_acc N Qcmult Qcplus idc btrue vnomask _ REPLACE U W2 P _ _ _ HU V2 HP (vmis_none _ _)) as (U' & -> & VU).
  cbn [bind]. eexists _, _, _. split; [reflexivity|]. split; [exact V2|]. eapply vis_ext; [exact VU|]. intros v Hv.
  match type of VU with vis _ _ ?h => enough (Q : h v = Some (val' (S j - 1) v)) by (replace (S j - 1) with j in Q by lia; exact Q);
    refine (back_B N edge s Hs qn idc (fun a x => (x * a)%Qc) (mget graph) qcq (gedge_some graph N) qmul1 k (S j) g
      (fun v => Some (val' (S j) v)) (fun v => otrue btrue (sp v))
      (fun x => if otrue btrue (si x) then omap2 (fun x y => (x / idc y)%Qc) (Some (val' (S j) x)) (g x) else None) h
      ltac:(lia) ltac:(lia) IP (fun _ _ => eq_refl) Ip _ _ v Hv) end.
  - apply (back_W N edge s Hs qn idc qcq k (S j) g (fun v => Some (val' (S j) v)) (fun v => otrue btrue (si v))); auto; lia.
  - intros u Hu. unfold wr. f_equal. destruct (otrue btrue (sp u)); auto. f_equal. f_equal. apply map_ext. intro x.
    rewrite (omap2_flip Qcmult (fun a x => (x * a)%Qc)) by (intros; ring). f_equal. destruct (otrue btrue (si x)); auto.
    destruct (g x); simpl; auto. f_equal. unfold Qcdiv, idc. ring.
Qed.

Lemma vbc_source_ok n w f : N < n -> vis N w f -> exists w',
  vbc_source Qcplus Qcmult Qcinv qn qtrue n graph s w = Ok (Some w') /\
  vis N w' (fun v => ounion Qcplus idc idc (f v) (Some (1 + dependency N edge s v)%Qc)).
Proof.
  intros Hn V. unfold vbc_source. rewrite RA. destruct (vis_new (qn 0) N HN) as (F0 & -> & V0). cbn [bind].
  destruct (vis_extract_row N btrue vnomask _ REPLACE F0 graph _ _ s V0 (sqA graph N WA RA CA) (vmis_none _ _) Hs) as (F & -> & VF).
  cbn [bind]. destruct (vis_set N F0 _ s (qn 1) V0 Hs) as (P & -> & VP & _). cbn [bind].
  destruct (vloop qn graph N s RA CA Hs 0 (vbc_body Qcplus Qcmult qtrue graph) vbc_body_ok n 0 (F, P, []))
    as (F' & P' & Ss & k & g & E0 & M & HP & IP & Hw & _); try lia.
  { split; [split; [auto|intros; lia]|]. do 2 eexists. split; [exact VF|]. split; [exact VP|]. split.
    - apply (vfirst qn graph N s Hs qHone).
    - split; [apply (vsource qn graph N s Hs)|]. intro NL. rewrite Nat.eqb_refl. split; [|auto].
      unfold wr, gedge in *. destruct (mget graph s s); [discriminate|auto]. }
  unfold vbs in E0. rewrite E0. cbn [bind]. simpl in M.
  destruct (vis_apply N Qcinv btrue vnomask _ MERGE F0 P' _ _ V0 HP (vmis_none _ _)) as (I & -> & VI). cbn [bind].
  destruct (vis_fill N btrue vnomask _ MERGE F0 _ (qn 1) V0 (vmis_none _ _)) as (U & -> & VU). cbn [bind].
  destruct (mdown_inv (fun j st => j <= length Ss - 1 /\ (exists w, vis N (fst st) w) /\ vis N (snd st) (fun v => Some (val' j v)))
    (vbc_back Qcplus Qcmult graph P' I Ss)) with (k := length Ss - 1) (s := (F0, U)) as ([W' U'] & E & _ & _ & J).
  - intros j [W0 U0] (Hj & (w0 & HW) & HU). simpl in HW, HU. destruct M as (L & M).
    destruct (vbc_back_ok k j P' I Ss g W0 U0 w0 (conj L M) HP IP VI ltac:(lia) HW HU) as (W' & U' & w' & -> & HW' & HU').
    exists (W', U'). split; [auto|]. split; [lia|]. split; [simpl; eauto|auto].
  - split; [lia|]. split; [simpl; eauto|]. simpl. eapply vis_ext; [exact VU|]. intros v Hv. unfold wr. simpl. f_equal.
    rewrite (val_init N edge s Hs k); auto. destruct M. lia.
  - rewrite E. cbn [bind snd].
    destruct (vis_add N Qcplus idc idc btrue vnomask _ MERGE w w U' _ _ _ V V J (vmis_none _ _)) as (w' & -> & V'). cbn [bind].
    eexists. split; [reflexivity|]. eapply vis_ext; [exact V'|]. intros v Hv. unfold wr. simpl snd.
    rewrite (val_final N edge s Hs v Hv). auto.
Qed.
End Source.

Theorem vertex_bc_ok n : N < n ->
  vertex_betweenness_centrality Qcplus Qcminus Qcmult Qcinv qn qtrue n graph =
    Ok (Some (map (betweenness N edge (seq 0 N)) (seq 0 N))).
Proof.
  intro Hn. unfold vertex_betweenness_centrality. rewrite RA, CA, Nat.eqb_refl. cbn [negb].
  destruct (vis_new (qn 0) N HN) as (w0 & -> & V0). cbn [bind].
  match goal with |- context [mfor (seq 0 N) ?body ?s0] =>
    destruct (mfor_seq_inv (fun i o => exists w, o = Some w /\ vis N w (fun v => if i =? 0 then None
      else Some (qsum i (fun s => 1 + dependency N edge s v)%Qc))) body N s0) as (r & -> & (w & -> & V)) end.
  - exists w0. auto.
  - intros i o Hi (w & -> & V). destruct (vbc_source_ok i Hi n w _ Hn V) as (w' & -> & V'). exists (Some w'). split; [auto|].
    exists w'. split; [auto|]. eapply vis_ext; [exact V'|]. intros v Hv. cbv beta. change (1 + i =? 0) with false. cbv iota.
    change (1 + i) with (S i). cbn [qsum]. destruct i; cbn [Nat.eqb ounion]; unfold idc; f_equal. cbn [qsum]. ring.
  - cbn [bind]. destruct (vis_fill N btrue vnomask _ MERGE w0 _ (qn N) V0 (vmis_none _ _)) as (b & -> & Vb). cbn [bind].
    destruct (vis_add N Qcminus idc idc btrue vnomask _ REPLACE w w b _ _ _ V V Vb (vmis_none _ _)) as (w' & -> & V'). cbn [bind].
    rewrite (to_vector_ok _ _ _ _ V'). cbn [bind]. f_equal. f_equal. apply map_ext. intro v. unfold wr. cbv iota beta.
    destruct (Nat.eqb_spec N 0); [contradiction|]. cbn [ounion]. unfold betweenness. rewrite fold_qsum, seq_length.
    rewrite qsum_add, qsum_const, <- qn_nat_q.
    rewrite (qsum_ext N (fun i => dependency N edge (nth i (seq 0 N) 0) v) (fun s => dependency N edge s v)); [ring|].
    intros i Hi. rewrite seq_nth by auto. auto.
Qed.
End Vertex.
