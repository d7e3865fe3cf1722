(** Louvain clustering over any type of numbers. *)
From Coq Require Import Lia QArith Qcanon.
From Verif Require Import ProofMul ProofClusterIds ProofParents.
From Verif Require Import Base ModelLil ModelVec ModelHelpers ModelViews ModelMul ModelElem ModelIndex ModelUtils
  ModelAlgoBase ModelRank ModelMis ModelCluster ModelLouvain ModelLouvainTypes Spec SpecOps SpecRank SpecIndex SpecLouvain ProofBase ProofIndex
  ProofLil ProofVec ProofElem ProofReduce ProofUtils ProofAlgebra ProofContainers ProofGraph ProofMis ProofRank ProofVis ProofRc ProofAppBc
  ProofCluster ProofModularity ProofLouvain.
Local Open Scope nat_scope.

Section Louvain.
Context {R : Type} (zero : R) (plus times div : R -> R -> R) (neg : R -> R) (rmax : R -> R -> R) (reqb : R -> R -> bool)
  (of_bool : bool -> R) (two small : R).
Context {T : Type} (tr : T -> R) (tb : T -> bool) (tplus : T -> T -> T) (draw : nat -> nat -> R) (fuel : nat) (N : nat).
Hypothesis N0 : N <> 0.

(** ** The greatest elements of a vector *)
Definition geqs (kappa : R) (f : nat -> option R) (d : nat) : option bool :=
  match f d with Some y => if reqb y kappa then Some true else None | None => None end.
Definition ggreatest (f : nat -> option R) : R := match osum rmax (map f (seq 0 N)) with Some x => x | None => zero end.
(** [d] has an element that equals the greatest one. *)
Definition gtop (f : nat -> option R) : nat -> option bool := geqs (ggreatest f) f.
Lemma gtop_true f d : gtop f d = None \/ gtop f d = Some true.
Proof. unfold gtop, geqs. destruct (f d); auto. destruct (reqb _ _); auto. Qed.
Lemma rt_max_ok q f : vis N q f -> rt_lv_max zero rmax q = Ok (ggreatest f).
Proof.
  intros (W & S & G). unfold rt_lv_max.
  rewrite (reduce_vs_ok zero idc rmax rmax idc (NoAcc idc) zero q (fun _ _ => eq_refl) (wfv_wfvn _ W)).
  rewrite (ofold_osum idc rmax rmax) by reflexivity. rewrite map_map, S. unfold ggreatest.
  rewrite (map_ext_in _ f); [reflexivity|]. intros j Hj. apply in_seq in Hj. unfold idc. rewrite option_map_id'. apply G. lia.
Qed.
Lemma rt_equal_ok kappa t ft q f : vis N t ft -> vis N q f ->
  exists t', rt_lv_equal reqb kappa t q = Ok t' /\ vis N t' (geqs kappa f).
Proof.
  intros Ht Hq. unfold rt_lv_equal.
  destruct (vis_apply N (fun x => reqb x kappa) btrue vnomask (fun _ => true) MERGE t q _ _ Ht Hq (vmis_none _ _)) as (t1 & -> & H1).
  cbn [bind].
  destruct (vis_apply N idc btrue (MVal t1) _ REPLACE t1 t1 _ _ H1 H1 (vmis_val _ _ _ _ H1)) as (t2 & -> & H2).
  exists t2. split; [auto|]. eapply vis_ext; [exact H2|]. intros d Hd. cbv beta. unfold wr, geqs, otrue, btrue.
  destruct (f d) as [y|]; cbn [option_map]; auto. destruct (reqb y kappa); auto.
Qed.

Definition gdrawn (r : nat) (f : nat -> option bool) (d : nat) : option R :=
  option_map (fun b => plus (times (of_bool b) (draw r d)) small) (f d).

Lemma glv_tie_ok t f r : vis N t f ->
  exists t', rt_lv_tie zero plus times rmax reqb of_bool small draw N (t, r) = Ok (t', S r) /\ vis N t' (gtop (gdrawn r f)).
Proof.
  intro H. unfold rt_lv_tie. destruct (vis_new zero N N0) as (p0 & -> & P0). cbn [bind].
  destruct (vis_apply N of_bool btrue vnomask (fun _ => true) MERGE p0 t _ _ P0 H (vmis_none _ _)) as (p1 & -> & P1). cbn [bind].
  set (p := number_values _ p1).
  assert (P : vis N p (gdrawn r f)).
  { destruct P1 as (W & S0 & G). destruct (number_values_ok (lil_new 0 0 : lil bool) 0 eq_refl eq_refl (fun j x => plus (times x (draw r j)) small) p1 W) as (W' & S' & G').
    split; [exact W'|]. split; [unfold p; rewrite S'; exact S0|]. intros i Hi. unfold p. rewrite G', G by auto. cbv beta. unfold wr, gdrawn.
    destruct (f i); reflexivity. }
  rewrite (rt_max_ok p _ P). cbn [bind].
  destruct (rt_equal_ok (ggreatest (gdrawn r f)) t f p (gdrawn r f) H P) as (t' & -> & H'). cbn [bind].
  exists t'. split; auto.
Qed.

Lemma glv_break_ok : forall n t f r, vis N t f -> trues N f ->
  exists o, mwhile n (fun '(t, _) => negb (vnvals t =? 1)%Z) (rt_lv_tie zero plus times rmax reqb of_bool small draw N) (t, r) = Ok o /\
    match o with
    | None => True
    | Some (t', r') => exists d, d < N /\ f d = Some true /\ vis N t' (only d)
    end.
Proof.
  induction n as [|n IH]; intros t f r H HT; [exists None; auto|]. cbn [mwhile].
  destruct (Z.eqb_spec (vnvals t) 1) as [E|NE]; cbn [negb].
  - exists (Some (t, r)). split; [auto|]. rewrite (vis_nvals _ _ _ H) in E.
    destruct (vcount_one N f) as (d & Hd & Fd & U); [lia|]. exists d. split; [auto|].
    destruct (HT d Hd) as [X|X]; [congruence|]. split; [auto|]. eapply vis_ext; [exact H|]. intros e He. unfold only.
    destruct (Nat.eqb_spec e d); [subst; auto|auto].
  - destruct (glv_tie_ok t f r H) as (t' & -> & H'). cbn [bind].
    destruct (IH t' _ (S r) H') as (o & E & Ho).
    { intros d _. apply gtop_true. }
    exists o. split; [exact E|]. destruct o as [[t2 r2]|]; auto. destruct Ho as (d & Hd & Fd & V). exists d. split; [auto|]. split; [|auto].
    assert (X : f d <> None).
    { unfold gtop, geqs in Fd. unfold gdrawn in Fd at 1. destruct (f d); [congruence|discriminate]. }
    destruct (HT d Hd); [congruence|auto].
Qed.

(** ** The gbody *)
(** Row [v] of the matrix has one element, in column [c v]. *)
Definition glv_ok (c : nat -> nat) (s : @rt_lv_state R) : Prop :=
  (forall v, v < N -> c v < N) /\ sq N (rlvS s) (in_cluster c) /\
  (exists f, vis N (rlvRow s) f) /\ (exists f, vis N (rlvV s) f) /\ (exists f, vis N (rlvM s) f) /\
  (exists f, vis N (rlvQ s) f) /\ (exists f, vis N (rlvT s) f).

Lemma glv_subtract_ok i k fk ki m v fv : i < N -> vis N k fk -> vis N v fv -> fk i = Some ki ->
  exists v', rt_lv_subtract plus times div neg i k m v = Ok v' /\
    vis N v' (fun j => ounion plus idc idc (fv j) (option_map (fun x => times x (div (neg ki) m)) (fk j))).
Proof.
  intros Hi Hk Hv E. unfold rt_lv_subtract. rewrite (vis_extract N k fk i ki Hk Hi E). cbn [bind].
  refine (vis_apply_acc N _ plus idc btrue vnomask (fun _ => true) MERGE v k fv fk Hv Hk (vmis_none _ _)).
Qed.

(** The loop that breaks ties between the greatest elements does not end with [fuel] tests. *)
Definition ends_not (fq : nat -> option R) : Prop :=
  exists t r, vis N t (gtop fq) /\ rt_lv_break zero plus times rmax reqb of_bool small draw fuel N t r = Ok None.
Lemma glv_finish_ok i S_row Sm q t s v q_mask c fq : i < N -> (forall u, u < N -> c u < N) ->
  vis N S_row (only (c i)) -> sq N Sm (fun v d => if v =? i then None else only (c v) d) -> vis N q fq ->
  (exists f, vis N t f) -> (exists f, vis N v f) -> (exists f, vis N q_mask f) ->
  exists o, rt_lv_finish zero plus times rmax reqb of_bool small draw fuel N i S_row Sm q t s v q_mask = Ok o /\
    match o with
    | None => ends_not fq
    | Some s' => exists d, d < N /\ gtop fq d = Some true /\ glv_ok (move c i d) s' /\
        rlvCh s' = (rlvCh s || negb (d =? c i))
    end.
Proof.
  intros Hi HC Hr HS Hq (ft & Ht) Hv Hm. unfold rt_lv_finish. rewrite (rt_max_ok q fq Hq). cbn [bind].
  destruct (rt_equal_ok (ggreatest fq) t ft q fq Ht Hq) as (t1 & -> & H1). cbn [bind].
  unfold rt_lv_break. destruct (glv_break_ok fuel t1 _ (rlvR s) H1) as (o & E & Ho). { intros d _. apply gtop_true. }
  destruct o as [[t2 r]|]; setoid_rewrite E; cbn [bind].
  2:{ exists None. split; [auto|]. exists t1, (rlvR s). split; [exact H1|]. exact E. }
  destruct Ho as (d & Hd & Fd & V).
  destruct (sq_assign_row false N Sm t2 _ _ i HS V Hi) as (S' & -> & HS'). cbn [bind].
  destruct (vec_eqb_extensional Bool.eqb t2 S_row Bool.eqb_true_iff (proj1 V) (proj1 Hr)) as (b & -> & Hb). cbn [bind].
  eexists. split; [reflexivity|]. exists d. split; [auto|]. split; [exact Fd|].
  assert (Eb : b = (d =? c i)).
  { destruct (Nat.eqb_spec d (c i)) as [->|NE].
    - apply Hb. destruct V as (Wv & Sv & Gv), Hr as (Wr & Sr & Gr). split; [congruence|]. intros j Hj.
      apply extract_eq_vget; [apply Wv|apply Wr|lia|lia|]. rewrite Gv, Gr by lia. reflexivity.
    - destruct b; auto. exfalso. destruct Hb as (Hb & _). destruct (Hb eq_refl) as (_ & Hb'). clear Hb.
      destruct V as (Wv & Sv & Gv), Hr as (Wr & Sr & Gr). specialize (Hb' d ltac:(lia)).
      apply extract_eq_vget in Hb'; [|apply Wv|apply Wr|lia|lia]. rewrite Gv, Gr in Hb' by lia. unfold only in Hb'.
      rewrite Nat.eqb_refl in Hb'. destruct (Nat.eqb_spec d (c i)); [contradiction|discriminate]. }
  split.
  - split. { intros u Hu. unfold move. destruct (u =? i); auto. }
    cbn. split.
    + eapply rc_ext; [exact HS'|]. intros v' e Hv' He. cbv beta. unfold in_cluster, move. destruct (v' =? i) eqn:Ei; auto.
    + split; [eauto|]. split; [auto|]. split; [auto|]. split; eauto.
  - cbn. rewrite Eb. reflexivity.
Qed.

(** What the bodies compute from the graph. *)
Context (G : lil T).
Hypothesis (WG : wfm G) (RG : nrows G = N) (CG : ncols G = N).
Definition gsums (i j : nat) : option T := ounion tplus idc idc (mget G i j) (mget G j i).
Definition gdegs (i : nat) : option R := osum plus (map (fun j => option_map tr (mget G i j)) (seq 0 N)).
Definition ghalf : R := div (match osum plus (map gdegs (seq 0 N)) with Some x => x | None => zero end) two.
Definition gpull (row : nat -> option T) (ki : R) (j : nat) : option R :=
  ounion plus idc idc (option_map tr (row j)) (option_map (fun x => times x (div (neg ki) ghalf)) (gdegs j)).
Definition gothers (c : nat -> nat) (i v d : nat) : option bool := if v =? i then None else only (c v) d.
Definition gattract (row : nat -> option T) (ki : R) (c : nat -> nat) (i d : nat) : option R :=
  osum plus (map (fun j => omap2 (fun x b => times x (of_bool b)) (gpull row ki j) (gothers c i j d)) (seq 0 N)).
Definition gnear (c : nat -> nat) (i d : nat) : option bool :=
  osum orb (map (fun j => omap2 andb (option_map tb (gsums i j)) (gothers c i j d)) (seq 0 N)).
Definition gattract_near (ki : R) (c : nat -> nat) (i d : nat) : option R :=
  if otrue btrue (gnear c i d) then gattract (gsums i) ki c i d else None.

Lemma ghalf_ok k m : vis N k gdegs -> reduce_vs zero idc plus plus idc (NoAcc idc) zero k = Ok m -> div m two = ghalf.
Proof.
  intros (W & S0 & Gk). rewrite (reduce_vs_ok zero idc plus plus idc (NoAcc idc) zero k (fun _ _ => eq_refl) (wfv_wfvn _ W)).
  rewrite (ofold_osum idc plus plus) by reflexivity. rewrite map_map, S0. intro E. unfold ghalf.
  assert (X : map (fun x => option_map idc (vget k x)) (seq 0 N) = map gdegs (seq 0 N)).
  { apply map_ext_in. intros j Hj. apply in_seq in Hj. unfold idc. rewrite option_map_id'. apply Gk. lia. }
  rewrite X in E. destruct (osum plus (map gdegs (seq 0 N))) as [y|]; cbv zeta beta iota in E; unfold idc in E; cbn [oq]; inversion E; reflexivity.
Qed.

Definition gfqs (masked : bool) (c : nat -> nat) (i : nat) (ki : R) : nat -> option R :=
  if masked then gattract_near ki c i else gattract (fun j => gsums j i) ki c i.
Definition gbody (masked : bool) := if masked then rt_lv_body_masked zero plus times div neg rmax reqb of_bool small tr tb draw fuel
  else rt_lv_body zero plus times div neg rmax reqb of_bool small tr draw fuel.

Lemma glv_body_ok masked AA k mask i s c : i < N -> sq N AA gsums -> vis N k gdegs -> vis N mask (fun _ => Some true) -> glv_ok c s ->
  exists o, gbody masked N AA k ghalf mask i s = Ok o /\
    match o with
    | None => exists ki, gdegs i = Some ki /\ ends_not (gfqs masked c i ki)
    | Some s' => exists c', glv_ok c' s' /\
        match gdegs i with
        | None => s' = s /\ c' = c
        | Some ki => exists d, d < N /\ gtop (gfqs masked c i ki) d = Some true /\ c' = move c i d /\
            rlvCh s' = (rlvCh s || negb (d =? c i))
        end
    end.
Proof.
  intros Hi HA Hk Hm (HC & HS & (fr & Hr) & (fv & Hv) & (fm & Hqm) & (fq & Hq) & (ft & Ht)).
  assert (X : forall s', (exists d, d < N /\ gtop (gfqs masked c i (match gdegs i with Some x => x | None => zero end)) d = Some true /\ glv_ok (move c i d) s' /\
        rlvCh s' = (rlvCh s || negb (d =? c i))) -> forall ki, gdegs i = Some ki -> exists c', glv_ok c' s' /\
      exists d, d < N /\ gtop (gfqs masked c i ki) d = Some true /\ c' = move c i d /\ rlvCh s' = (rlvCh s || negb (d =? c i))).
  { intros s' (d & Hd & B & O & C) ki Eki. rewrite Eki in B. exists (move c i d). split; [auto|]. exists d. auto. }
  destruct masked; unfold gbody, rt_lv_body, rt_lv_body_masked; rewrite (vis_has N k gdegs i Hk Hi); cbn [bind].
  all: destruct (gdegs i) as [ki|] eqn:Eki; cbn [is_some negb].
  2,4: exists (Some s); split; [auto|]; exists c; split; [|auto]; repeat split; eauto; try apply HS.
  all: destruct (lv_clear_ok N i mask (rlvRow s) (rlvS s) c fr Hi Hm Hr HS) as (r & Sm & -> & HR & HSm); cbn [bind].
  - destruct (vis_extract_row_cast N tr btrue vnomask (fun _ => true) MERGE (rlvV s) AA _ _ i Hv HA (vmis_none _ _) Hi) as (v & -> & V).
    cbn [bind].
    destruct (glv_subtract_ok i k gdegs ki ghalf v _ Hi Hk V Eki) as (v' & -> & V'). cbn [bind].
    destruct (vis_extract_row_cast N tb btrue vnomask (fun _ => true) MERGE (rlvM s) AA _ _ i Hqm HA (vmis_none _ _) Hi) as (qm & -> & Qm).
    cbn [bind].
    destruct (vis_vxm N orb andb btrue vnomask (fun _ => true) MERGE qm qm Sm _ _ _ Qm Qm HSm (vmis_none _ _)) as (qm' & -> & Qm').
    cbn [bind].
    destruct (vis_vxm N plus (fun (x : R) (b : bool) => times x (of_bool b)) btrue (MVal qm') _ REPLACE (rlvQ s) v' Sm _ _ _ Hq V' HSm
      (vmis_val _ _ _ _ Qm')) as (q' & -> & Q'). cbn [bind].
    destruct (glv_finish_ok i r Sm q' (rlvT s) s v' qm' c (gattract_near ki c i) Hi HC HR HSm) as (o & -> & Ho); eauto.
    exists o. split; [auto|]. destruct o as [s'|]; auto. exists ki. auto.
  - destruct (vis_new zero N N0) as (v0 & -> & V0). cbn [bind].
    destruct (extract_col_cast N tr v0 AA _ _ i V0 HA Hi) as (v & -> & V). cbn [bind].
    destruct (glv_subtract_ok i k gdegs ki ghalf v _ Hi Hk V Eki) as (v' & -> & V'). cbn [bind].
    destruct (vis_vxm N plus (fun (x : R) (b : bool) => times x (of_bool b)) btrue vnomask (fun _ => true) MERGE v0 v' Sm _ _ _ V0 V' HSm
      (vmis_none _ _)) as (q' & -> & Q'). cbn [bind].
    destruct (vis_new false N N0) as (t0 & -> & T0). cbn [bind].
    destruct (glv_finish_ok i r Sm q' t0 s (rlvV s) (rlvM s) c (gattract (fun j => gsums j i) ki c i) Hi HC HR HSm) as (o & -> & Ho); eauto.
    exists o. split; [auto|]. destruct o as [s'|]; auto. exists ki. auto.
Qed.

Lemma glv_ok_ext c c' s : (forall v, c v = c' v) -> glv_ok c s -> glv_ok c' s.
Proof.
  intros E (HC & HS & Rs). split; [intros; rewrite <- E; auto|]. split; [|auto].
  eapply rc_ext; [exact HS|]. intros v d _ _. unfold in_cluster. rewrite E. reflexivity.
Qed.

(** ** The sweeps *)
Section Sweeps.
Context (masked : bool) (Inv : (nat -> nat) -> Prop).
Hypothesis Inv_move : forall c i ki d, (forall v, v < N -> c v < N) -> i < N -> gdegs i = Some ki -> d < N ->
  gtop (gfqs masked c i ki) d = Some true -> Inv c -> Inv (move c i d).
Definition gsettled (c : nat -> nat) (n : nat) : Prop :=
  forall i ki, i < n -> gdegs i = Some ki -> gtop (gfqs masked c i ki) (c i) = Some true.
(** A vertex for which the loop that breaks ties has not ended. *)
Definition gstuck : Prop := exists c i ki, (forall v, v < N -> c v < N) /\ i < N /\ gdegs i = Some ki /\
  ends_not (gfqs masked c i ki).
Context (AA : lil T) (k : bvec R) (mask : bvec bool).
Hypothesis (HA : sq N AA gsums) (Hk : vis N k gdegs) (Hm : vis N mask (fun _ => Some true)).
Notation bd := (gbody masked N AA k ghalf mask).

Lemma gsweep_ok s c : glv_ok c s -> Inv c -> rlvCh s = false ->
  exists o, ofor (seq 0 N) bd s = Ok o /\
    match o with
    | None => gstuck
    | Some s' => exists c', glv_ok c' s' /\ Inv c' /\ (rlvCh s' = false -> gsettled c' N)
    end.
Proof.
  intros H0 I0 C0.
  apply (ofor_seq_inv (fun i s' => exists c', glv_ok c' s' /\ Inv c' /\ (rlvCh s' = false -> gsettled c' i)) gstuck).
  - exists c. split; [auto|]. split; [auto|]. intros _ i ki Hi. lia.
  - intros i s1 Hi (c1 & O1 & I1 & S1). destruct (glv_body_ok masked AA k mask i s1 c1 Hi HA Hk Hm O1) as (o & -> & Ho).
    exists o. split; [auto|]. destruct o as [s2|].
    + destruct Ho as (c2 & O2 & D). destruct (gdegs i) as [ki|] eqn:Eki.
      * destruct D as (d & Hd & B & -> & Ch). destruct (Nat.eqb_spec d (c1 i)) as [Ed|NE].
        -- exists c1. split.
           { eapply glv_ok_ext; [|exact O2]. intro v. unfold move. destruct (Nat.eqb_spec v i); [subst; auto|auto]. }
           split; [auto|]. cbn [negb] in Ch. rewrite orb_false_r in Ch. rewrite Ch. intros C1 j kj Hj Ej.
           destruct (Nat.eq_dec j i) as [->|Nj]; [|apply S1; auto; lia]. rewrite <- Ed. congruence.
        -- exists (move c1 i d). split; [auto|]. split; [eapply Inv_move; eauto; apply O1|].
           cbn [negb] in Ch. rewrite orb_true_r in Ch. congruence.
      * destruct D as (-> & ->). exists c1. split; [auto|]. split; [auto|]. intros C1 j kj Hj Ej.
        destruct (Nat.eq_dec j i) as [->|Nj]; [congruence|apply S1; auto; lia].
    + destruct Ho as (ki & Eki & Z). exists c1, i, ki. split; [apply O1|]. auto.
Qed.

Lemma gloop_ok : forall left iters s c, glv_ok c s -> Inv c ->
  exists o, rt_lv_loop left iters N bd s = Ok o /\
    match o with
    | None => gstuck
    | Some (inl M) => exists c', (forall v, v < N -> c' v < N) /\ sq N M (in_cluster c') /\ Inv c' /\ gsettled c' N
    | Some (inr n) => n = iters + 1 + left
    end.
Proof.
  induction left as [|left IH]; intros iters s c O0 I0; cbn [rt_lv_loop].
  all: match goal with |- context [ofor _ _ ?s0] => destruct (gsweep_ok s0 c O0 I0 eq_refl) as (o & E & Ho) end.
  all: setoid_rewrite E; cbn [bind].
  all: destruct o as [s'|]; [|exists None; auto].
  all: destruct Ho as (c' & O' & I' & S').
  all: destruct (rlvCh s') eqn:Ch; [|eexists; split; [reflexivity|]; exists c'; destruct O' as (HC & HS & _); auto].
  - eexists. split; [reflexivity|]. cbv beta iota. lia.
  - destruct (IH (iters + 1) s' c' O' I') as (o & -> & Ho). exists o. split; [auto|].
    destruct o as [[M|n]|]; auto. lia.
Qed.
End Sweeps.

Definition grun (masked : bool) :=
  if masked then rt_louvain_masked zero plus times div neg rmax reqb of_bool two small tr tb tplus draw fuel G
  else rt_louvain zero plus times div neg rmax reqb of_bool two small tr tplus draw fuel G.
Lemma grun_ok masked (Inv : (nat -> nat) -> Prop) max_iters :
  (forall c i ki d, (forall v, v < N -> c v < N) -> i < N -> gdegs i = Some ki -> d < N ->
    gtop (gfqs masked c i ki) d = Some true -> Inv c -> Inv (move c i d)) ->
  Inv (fun v => v) ->
  exists o, grun masked max_iters = Ok o /\
    match o with
    | None => gstuck masked
    | Some (inl M) => exists c, assigns N M c /\ Inv c /\ gsettled masked c N
    | Some (inr n) => n = Nat.max 1 max_iters
    end.
Proof.
  intros Im I0.
  assert (X : exists o, rt_lv_run zero plus div two tr tplus (gbody masked) G max_iters = Ok o /\
    match o with
    | None => gstuck masked
    | Some (inl M) => exists c, assigns N M c /\ Inv c /\ gsettled masked c N
    | Some (inr n) => n = Nat.max 1 max_iters
    end).
  { unfold rt_lv_run. rewrite RG, CG, Nat.eqb_refl. cbn [negb].
    assert (HG : sq N G (mget G)) by (split; [auto|split; [auto|split; auto]]).
    destruct (sq_accum N btrue mnomask (fun _ _ => true) MERGE G (mget G) (fun i j => mget G j i) tplus idc _ HG (mmis_none _ _)
      (transpose_ok btrue idc (Acc tplus idc idc) mnomask MERGE G (Mat G) WG WG Logic.I
        ltac:(split; [exact Logic.I|split; simpl; congruence]))) as (AA & E & HA).
    setoid_rewrite E. cbn [bind]. clear E.
    destruct (vis_new zero N N0) as (v0 & Ev0 & V0). rewrite !Ev0. cbn [bind].
    destruct (vis_written N btrue vnomask (fun _ => true) MERGE v0 _ _ _ V0 (vmis_none _ _)
      (reduce_ok tr (fun x y => plus (tr x) (tr y)) (fun x y => plus x (tr y)) btrue idc (NoAcc idc) vnomask MERGE v0 (Mat G)
        (fun _ _ => eq_refl) (proj1 (proj1 V0)) WG Logic.I
        ltac:(destruct V0 as (_ & ? & _); split; [exact Logic.I|simpl; congruence]))) as (k & E & Hk0).
    setoid_rewrite E. cbn [bind]. clear E.
    assert (Hk : vis N k gdegs).
    { eapply vis_ext; [exact Hk0|]. intros i Hi. cbv beta. unfold wr. cbn [sview vcols]. rewrite CG.
      rewrite (ofold_osum tr (fun x y => plus x (tr y)) plus) by reflexivity. rewrite map_map. reflexivity. }
    destruct (reduce_vs zero idc plus plus idc (NoAcc idc) zero k) as [m| |] eqn:Em.
    2,3: rewrite (reduce_vs_ok zero idc plus plus idc (NoAcc idc) zero k (fun _ _ => eq_refl) (wfv_wfvn _ (proj1 Hk))) in Em; discriminate.
    cbn [bind]. rewrite (ghalf_ok k m Hk Em).
    destruct (scaled_identity_ok N true) as (S0 & -> & WS & RS & CS & GS). cbn [bind].
    destruct (vis_new false N N0) as (b0 & Eb0 & B0). rewrite !Eb0. cbn [bind].
    destruct (vis_fill N btrue vnomask (fun _ => true) MERGE b0 _ true B0 (vmis_none _ _)) as (mask & -> & Hm). cbn [bind].
    destruct (gloop_ok masked Inv Im AA k mask HA Hk Hm (max_iters - 1) 0 (mkRLv S0 b0 true 0 v0 b0 v0 b0) (fun v => v)) as (o & -> & Ho); auto.
    - split; [auto|]. cbn. split; [|repeat split; eauto].
      split; [auto|]. split; [auto|]. split; [auto|]. intros i j Hi Hj. rewrite GS. unfold in_cluster, only.
      rewrite (proj2 (Nat.ltb_lt i N) Hi), andb_true_r, Nat.eqb_sym. reflexivity.
    - exists o. split; [auto|]. destruct o as [[M|n]|]; auto; [|lia].
      destruct Ho as (c & HC & (WM & RM & CM & GM) & I & S1). exists c. split; [|auto].
      split; [auto|]. split; [auto|]. split; [auto|]. intros v Hv. split; [auto|]. intro d.
      destruct (Nat.lt_ge_cases d N) as [Hd|Hd].
      + rewrite GM by auto. reflexivity.
      + rewrite mget_oob by (auto; lia). specialize (HC v Hv). destruct (Nat.eqb_spec d (c v)); [lia|auto]. }
  destruct masked; exact X.
Qed.

End Louvain.
