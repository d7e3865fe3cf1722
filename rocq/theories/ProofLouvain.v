(** Louvain clustering. *)
From Coq Require Import Lia QArith Qcanon.
From Verif Require Import ProofMul ProofClusterIds ProofParents.
From Verif Require Import Base ModelLil ModelVec ModelHelpers ModelViews ModelMul ModelElem ModelIndex ModelUtils
  ModelAlgoBase ModelRank ModelMis ModelCluster ModelLouvain Spec SpecOps SpecRank SpecIndex SpecLouvain ProofBase ProofIndex ProofLil ProofVec ProofElem
  ProofReduce ProofUtils ProofAlgebra ProofContainers ProofGraph ProofMis ProofRank ProofVis ProofRc ProofAppBc ProofCluster
  ProofModularity SpecLouvain.
Local Open Scope nat_scope.

(** ** The greatest elements of a vector *)
Definition only (d e : nat) : option bool := if e =? d then Some true else None.
Definition best_at (N : nat) (f : nat -> option Qc) (d : nat) : Prop :=
  exists y, f d = Some y /\ forall e z, e < N -> f e = Some z -> (z <= y)%Qc.
Definition eqs (kappa : Qc) (f : nat -> option Qc) (d : nat) : option bool :=
  match f d with Some y => if qeqb y kappa then Some true else None | None => None end.
Definition greatest_q (N : nat) (f : nat -> option Qc) : Qc :=
  match osum qmax (map f (seq 0 N)) with Some x => x | None => 0%Qc end.
Definition top (N : nat) (f : nat -> option Qc) : nat -> option bool := eqs (greatest_q N f) f.

Lemma top_best N f d : top N f d <> None -> best_at N f d.
Proof.
  unfold top, eqs, greatest_q. destruct (f d) as [y|] eqn:E; [|congruence].
  destruct (qeqb y _) eqn:Q; [|congruence]. intros _. apply qeqb_true in Q.
  exists y. split; [auto|]. intros e z He Ez.
  pose proof (osum_qmax (map f (seq 0 N))) as M.
  assert (I : In (Some z) (map f (seq 0 N))) by (rewrite <- Ez; apply in_map, in_seq; lia).
  destruct (osum qmax (map f (seq 0 N))) as [x|].
  - subst y. apply M. auto.
  - specialize (M _ I). discriminate.
Qed.
Lemma top_true N f d : top N f d = None \/ top N f d = Some true.
Proof. unfold top, eqs. destruct (f d); auto. destruct (qeqb _ _); auto. Qed.
Lemma top_exists N f e : e < N -> f e <> None -> exists d, d < N /\ top N f d = Some true.
Proof.
  intros He Fe. pose proof (osum_qmax (map f (seq 0 N))) as M. unfold top, eqs, greatest_q.
  destruct (osum qmax (map f (seq 0 N))) as [x|].
  - destruct M as (I & _). apply in_map_iff in I. destruct I as (d & Ed & Hd). apply in_seq in Hd.
    exists d. split; [lia|]. rewrite Ed. rewrite (proj2 (qeqb_true x x)); auto.
  - exfalso. apply Fe. apply M. apply in_map, in_seq. lia.
Qed.

Lemma lv_max_ok N q f : vis N q f -> lv_max q = Ok (greatest_q N f).
Proof.
  intros (W & S & G). unfold lv_max.
  rewrite (reduce_vs_ok 0%Qc idc qmax qmax idc (NoAcc idc) 0%Qc q (fun _ _ => eq_refl) (wfv_wfvn _ W)).
  rewrite (ofold_osum idc qmax qmax) by reflexivity. rewrite map_map, S. unfold greatest_q.
  rewrite (map_ext_in _ f); [reflexivity|]. intros j Hj. apply in_seq in Hj. unfold idc. rewrite option_map_id'. apply G. lia.
Qed.
Lemma lv_equal_ok N kappa t ft q f : vis N t ft -> vis N q f ->
  exists t', lv_equal kappa t q = Ok t' /\ vis N t' (eqs kappa f).
Proof.
  intros Ht Hq. unfold lv_equal.
  destruct (vis_apply N (fun x => qeqb x kappa) btrue vnomask (fun _ => true) MERGE t q _ _ Ht Hq (vmis_none _ _)) as (t1 & -> & H1).
  cbn [bind].
  destruct (vis_apply N idc btrue (MVal t1) _ REPLACE t1 t1 _ _ H1 H1 (vmis_val _ _ _ _ H1)) as (t2 & -> & H2).
  exists t2. split; [auto|]. eapply vis_ext; [exact H2|]. intros d Hd. cbv beta. unfold wr, eqs, otrue, btrue.
  destruct (f d) as [y|]; cbn [option_map]; auto. destruct (qeqb y kappa); auto.
Qed.

(** ** Vectors with one element *)
Lemma vcount_one {T} N (f : nat -> option T) : vcount N f = 1 ->
  exists d, d < N /\ f d <> None /\ forall e, e < N -> e <> d -> f e = None.
Proof.
  induction N as [|N IH]; [discriminate|]. unfold vcount in *. rewrite seq_S, filter_app, app_length. cbn [filter Nat.add].
  destruct (f N) as [x|] eqn:E; cbn [is_some length]; intro H.
  - exists N. split; [lia|]. split; [congruence|]. intros e He Ne.
    destruct (f e) as [y|] eqn:Ee; auto. exfalso.
    assert (I : In e (filter (fun i => is_some (f i)) (seq 0 N))).
    { apply filter_In. split; [apply in_seq; lia|rewrite Ee; auto]. }
    destruct (filter (fun i => is_some (f i)) (seq 0 N)); [destruct I|simpl in H; lia].
  - destruct IH as (d & Hd & Fd & U); [lia|]. exists d. split; [lia|]. split; [auto|]. intros e He Ne.
    destruct (Nat.eq_dec e N) as [->|]; auto. apply U; auto. lia.
Qed.
Lemma vcount_only N (f : nat -> option bool) d : d < N -> (forall e, e < N -> f e = only d e) -> vcount N f = 1.
Proof.
  intros Hd H. rewrite (vcount_ext N f (only d)) by (intros e He; rewrite H; auto). unfold vcount. clear H.
  induction N as [|N IH]; [lia|]. rewrite seq_S, filter_app, app_length. cbn [filter Nat.add]. unfold only at 2.
  destruct (Nat.eqb_spec N d) as [E|NE]; cbn [is_some length].
  - rewrite (filter_ext_in' _ (fun _ => false)).
    + clear. induction (seq 0 N); auto.
    + intros e He. apply in_seq in He. unfold only. destruct (Nat.eqb_spec e d); [lia|auto].
  - rewrite IH by lia. reflexivity.
Qed.

Lemma extract_col_cast {TA TW} N (tz : TA -> TW) (w : bvec TW) (A : lil TA) f fA u :
  vis N w f -> sq N A fA -> u < N ->
  exists w', extract_col btrue idc (NoAcc tz) vnomask MERGE w (Mat A) AllIdx u = Ok w' /\
    vis N w' (fun j => option_map tz (fA j u)).
Proof.
  intros (Ww & Sw & Gw) (WA & RA & CA & GA) Hu.
  destruct (extract_col_ok btrue idc (NoAcc tz) vnomask MERGE w (Mat A) AllIdx u (proj1 Ww) WA Logic.I) as (w' & E & W' & S' & G').
  { split; [exact Logic.I|]. split; [exact Logic.I|]. split; [simpl; lia|exact Logic.I]. }
  exists w'. split; [auto|]. split; [auto|]. split; [congruence|]. intros i Hi. rewrite G' by lia.
  simpl. unfold scextract. simpl. rewrite GA by auto. unfold spec_write, idc. simpl. rewrite option_map_id'. reflexivity.
Qed.

(** ** Loops *)
Lemma ofor_inv {I S} (P : list I -> S -> Prop) (Bad : Prop) (body : I -> S -> res (option S)) l s :
  P [] s -> (forall l1 i l2 s, l = l1 ++ i :: l2 -> P l1 s ->
    exists o, body i s = Ok o /\ match o with Some s' => P (l1 ++ [i]) s' | None => Bad end) ->
  exists o, ofor l body s = Ok o /\ match o with Some s' => P l s' | None => Bad end.
Proof.
  intros H0 Hs.
  assert (K : forall l2 l1 s, l = l1 ++ l2 -> P l1 s ->
    exists o, ofor l2 body s = Ok o /\ match o with Some s' => P l s' | None => Bad end).
  { induction l2 as [|i l2 IH]; intros l1 s1 E H1.
    - exists (Some s1). split; [auto|]. rewrite app_nil_r in E. subst. auto.
    - cbn [ofor]. destruct (Hs l1 i l2 s1 E H1) as (o & -> & H2). cbn [bind]. destruct o as [s2|]; [|exists None; auto].
      apply (IH (l1 ++ [i])); [rewrite <- app_assoc; auto|auto]. }
  apply (K l [] s); auto.
Qed.
Lemma ofor_seq_inv {S} (P : nat -> S -> Prop) (Bad : Prop) (body : nat -> S -> res (option S)) n s :
  P 0 s -> (forall i s, i < n -> P i s -> exists o, body i s = Ok o /\ match o with Some s' => P (1 + i) s' | None => Bad end) ->
  exists o, ofor (seq 0 n) body s = Ok o /\ match o with Some s' => P n s' | None => Bad end.
Proof.
  intros H0 Hs.
  destruct (ofor_inv (fun l1 s => P (length l1) s) Bad body (seq 0 n) s H0) as (o & E & H).
  - intros l1 i l2 s1 E H1.
    assert (Li : i = length l1).
    { assert (X : nth_error (seq 0 n) (length l1) = Some i) by (rewrite E, nth_error_app2, Nat.sub_diag; auto).
      assert (L : length l1 < n) by (pose proof (f_equal (@length _) E) as Y; rewrite seq_length, app_length in Y; simpl in Y; lia).
      rewrite (nth_error_nth' _ 0), seq_nth in X; [injection X; lia|auto|rewrite seq_length; auto]. }
    assert (L : length l1 < n) by (pose proof (f_equal (@length _) E) as Y; rewrite seq_length, app_length in Y; simpl in Y; lia).
    destruct (Hs i s1) as (o & Eo & Ho); [lia|subst; auto|]. exists o. split; [auto|]. destruct o; auto.
    rewrite app_length. simpl. replace (length l1 + 1) with (1 + i) by lia. auto.
  - exists o. split; [auto|]. destruct o; auto. rewrite seq_length in H. auto.
Qed.

Section Louvain.
Context {T : Type} (tq : T -> Qc) (tb : T -> bool) (tplus : T -> T -> T) (draw : nat -> nat -> Qc) (fuel : nat) (N : nat).
Hypothesis N0 : N <> 0.

Definition trues (f : nat -> option bool) : Prop := forall d, d < N -> f d = None \/ f d = Some true.
Definition drawn (r : nat) (f : nat -> option bool) (d : nat) : option Qc :=
  option_map (fun b => (bq b * draw r d + Q2Qc (1 # 10000))%Qc) (f d).

Lemma lv_tie_ok t f r : vis N t f ->
  exists t', lv_tie draw N (t, r) = Ok (t', S r) /\ vis N t' (top N (drawn r f)).
Proof.
  intro H. unfold lv_tie. destruct (vis_new 0%Qc N N0) as (p0 & -> & P0). cbn [bind].
  destruct (vis_apply N bq btrue vnomask (fun _ => true) MERGE p0 t _ _ P0 H (vmis_none _ _)) as (p1 & -> & P1). cbn [bind].
  set (p := number_values _ p1).
  assert (P : vis N p (drawn r f)).
  { destruct P1 as (W & S0 & G). destruct (number_values_ok (lil_new 0 0 : lil bool) 0 eq_refl eq_refl (fun j x => (x * draw r j + Q2Qc (1 # 10000))%Qc) p1 W) as (W' & S' & G').
    split; [exact W'|]. split; [unfold p; rewrite S'; exact S0|]. intros i Hi. unfold p. rewrite G', G by auto. cbv beta. unfold wr, drawn.
    destruct (f i); reflexivity. }
  rewrite (lv_max_ok N p _ P). cbn [bind].
  destruct (lv_equal_ok N (greatest_q N (drawn r f)) t f p (drawn r f) H P) as (t' & -> & H'). cbn [bind].
  exists t'. split; auto.
Qed.

Lemma lv_break_ok : forall n t f r, vis N t f -> trues f ->
  exists o, mwhile n (fun '(t, _) => negb (vnvals t =? 1)%Z) (lv_tie draw N) (t, r) = Ok o /\
    match o with
    | None => True
    | Some (t', r') => exists d, d < N /\ f d = Some true /\ vis N t' (only d)
    end.
Proof.
  induction n as [|n IH]; intros t f r H HT; [exists None; auto|]. cbn [mwhile].
  destruct (Z.eqb_spec (vnvals t) 1) as [E|NE]; cbn [negb].
  - exists (Some (t, r)). split; [auto|]. rewrite (vis_nvals _ _ _ H) in E.
    destruct (vcount_one N f) as (d & Hd & Fd & U); [lia|]. exists d. split; [auto|].
    destruct (HT d Hd) as [X|X]; [congruence|]. split; [auto|]. eapply vis_ext; [exact H|]. intros e He. unfold only.
    destruct (Nat.eqb_spec e d); [subst; auto|auto].
  - destruct (lv_tie_ok t f r H) as (t' & -> & H'). cbn [bind].
    destruct (IH t' _ (S r) H') as (o & E & Ho).
    { intros d _. apply top_true. }
    exists o. split; [exact E|]. destruct o as [[t2 r2]|]; auto. destruct Ho as (d & Hd & Fd & V). exists d. split; [auto|]. split; [|auto].
    assert (X : f d <> None).
    { assert (Y : top N (drawn r f) d <> None) by congruence. apply top_best in Y. destruct Y as (y & Ey & _).
      unfold drawn in Ey. destruct (f d); [congruence|discriminate]. }
    destruct (HT d Hd); [congruence|auto].
Qed.

(** Draws that differ break all ties in one round. *)
Definition decisive : Prop := 2 <= fuel /\ forall r j k, j < N -> k < N -> draw r j = draw r k -> j = k.
Lemma lv_break_ends n t f r e : vis N t f -> trues f -> e < N -> f e <> None ->
  (forall j k, j < N -> k < N -> draw r j = draw r k -> j = k) -> 2 <= n ->
  exists t' r', mwhile n (fun '(t, _) => negb (vnvals t =? 1)%Z) (lv_tie draw N) (t, r) = Ok (Some (t', r')) /\ r' <= S r.
Proof.
  intros H HT He Fe Inj Hn. destruct n as [|[|n]]; [lia|lia|]. cbn [mwhile].
  destruct (Z.eqb_spec (vnvals t) 1) as [E|NE]; cbn [negb]; [exists t, r; split; auto|].
  destruct (lv_tie_ok t f r H) as (t' & -> & H'). cbn [bind].
  assert (X : vnvals t' = 1%Z).
  { rewrite (vis_nvals _ _ _ H').
    destruct (top_exists N (drawn r f) e He) as (d & Hd & Td).
    { unfold drawn. destruct (f e); [discriminate|congruence]. }
    rewrite (vcount_only N _ d Hd); [reflexivity|]. intros k Hk. unfold only.
    destruct (Nat.eqb_spec k d) as [->|Nk]; auto.
    destruct (top_true N (drawn r f) k) as [|Tk]; auto. exfalso. apply Nk.
    assert (Bd : best_at N (drawn r f) d) by (apply top_best; congruence).
    assert (Bk : best_at N (drawn r f) k) by (apply top_best; congruence).
    destruct Bd as (y & Ey & My), Bk as (z & Ez & Mz).
    specialize (My k z Hk Ez). specialize (Mz d y Hd Ey).
    assert (Eyz : y = z) by qlra. subst z. unfold drawn in Ey, Ez.
    destruct (HT d Hd) as [Fd|Fd]; rewrite Fd in Ey; [discriminate|].
    destruct (HT k Hk) as [Fk|Fk]; rewrite Fk in Ez; [discriminate|]. cbn [option_map bq] in Ey, Ez.
    apply Inj; auto.
    assert (Q : (1 * draw r d + Q2Qc (1 # 10000) = 1 * draw r k + Q2Qc (1 # 10000))%Qc) by congruence.
    clear - Q. generalize dependent (Q2Qc (1 # 10000)). intros c Q.
    replace (draw r k) with ((1 * draw r k + c) - c)%Qc by ring. rewrite <- Q. ring. }
  rewrite X. cbn [negb Z.eqb]. change (1 =? 1)%Z with true. cbn [negb]. exists t', (S r). auto.
Qed.

(** ** The body *)
(** Row [v] of the matrix has one element, in column [c v]. *)
Definition in_cluster (c : nat -> nat) (v : nat) : nat -> option bool := only (c v).
Definition lv_ok (c : nat -> nat) (s : lv_state) : Prop :=
  (forall v, v < N -> c v < N) /\ sq N (lvS s) (in_cluster c) /\
  (exists f, vis N (lvRow s) f) /\ (exists f, vis N (lvV s) f) /\ (exists f, vis N (lvM s) f) /\
  (exists f, vis N (lvQ s) f) /\ (exists f, vis N (lvT s) f).

Lemma lv_clear_ok i mask S_row Sm c f : i < N ->
  vis N mask (fun _ => Some true) -> vis N S_row f -> sq N Sm (in_cluster c) ->
  exists S_row' Sm', lv_clear N i mask S_row Sm = Ok (S_row', Sm') /\ vis N S_row' (only (c i)) /\
    sq N Sm' (fun v d => if v =? i then None else only (c v) d).
Proof.
  intros Hi Hm Hr HS. unfold lv_clear.
  destruct (vis_extract_row_cast N idc btrue vnomask (fun _ => true) MERGE S_row Sm _ _ i Hr HS (vmis_none _ _) Hi) as (r & -> & R).
  cbn [bind].
  destruct (sq_assign_row false N (lil_new N N) mask _ _ i (sq_new N) Hm Hi) as (M & -> & HM). cbn [bind].
  destruct (sq_apply N idc btrue (MComp M) _ REPLACE Sm Sm _ _ HS HS (mmis_comp _ _ _ _ HM)) as (S' & -> & HS'). cbn [bind].
  exists r, S'. split; [auto|]. split.
  - eapply vis_ext; [exact R|]. intros d Hd. cbv beta. unfold wr, in_cluster, idc. destruct (only (c i) d); auto.
  - eapply rc_ext; [exact HS'|]. intros v d Hv Hd. cbv beta. unfold wr, in_cluster, otrue, btrue, idc.
    destruct (v =? i); cbn [negb]; auto. destruct (only (c v) d); auto.
Qed.
Lemma lv_subtract_ok i k fk ki m v fv : i < N -> vis N k fk -> vis N v fv -> fk i = Some ki ->
  exists v', lv_subtract i k m v = Ok v' /\
    vis N v' (fun j => ounion Qcplus idc idc (fv j) (option_map (fun x => (x * (- ki / m))%Qc) (fk j))).
Proof.
  intros Hi Hk Hv E. unfold lv_subtract. rewrite (vis_extract N k fk i ki Hk Hi E). cbn [bind].
  refine (vis_apply_acc N _ Qcplus idc btrue vnomask (fun _ => true) MERGE v k fv fk Hv Hk (vmis_none _ _)).
Qed.

Lemma lv_finish_ok i S_row Sm q t s v q_mask c fq : i < N -> (forall u, u < N -> c u < N) ->
  vis N S_row (only (c i)) -> sq N Sm (fun v d => if v =? i then None else only (c v) d) -> vis N q fq ->
  (exists f, vis N t f) -> (exists f, vis N v f) -> (exists f, vis N q_mask f) ->
  exists o, lv_finish draw fuel N i S_row Sm q t s v q_mask = Ok o /\
    match o with
    | None => decisive -> forall e, e < N -> fq e = None
    | Some s' => exists d, d < N /\ best_at N fq d /\ lv_ok (move c i d) s' /\
        lvCh s' = (lvCh s || negb (d =? c i))
    end.
Proof.
  intros Hi HC Hr HS Hq (ft & Ht) Hv Hm. unfold lv_finish. rewrite (lv_max_ok N q fq Hq). cbn [bind].
  destruct (lv_equal_ok N (greatest_q N fq) t ft q fq Ht Hq) as (t1 & -> & H1). cbn [bind].
  unfold lv_break. destruct (lv_break_ok fuel t1 _ (lvR s) H1) as (o & E & Ho). { intros d _. apply top_true. }
  destruct o as [[t2 r]|]; setoid_rewrite E; cbn [bind].
  2:{ exists None. split; [auto|]. intros (Fl & Inj) e He. destruct (fq e) eqn:Fe; auto. exfalso.
      destruct (top_exists N fq e He) as (d & Hd & Td); [congruence|].
      destruct (lv_break_ends fuel t1 _ (lvR s) d H1) as (t' & r' & E' & _); auto.
      - intros x _. apply top_true.
      - unfold top in Td. congruence.
      - exact (Inj (lvR s)).
      - setoid_rewrite E in E'. discriminate. }
  destruct Ho as (d & Hd & Fd & V).
  destruct (sq_assign_row false N Sm t2 _ _ i HS V Hi) as (S' & -> & HS'). cbn [bind].
  destruct (vec_eqb_extensional Bool.eqb t2 S_row Bool.eqb_true_iff (proj1 V) (proj1 Hr)) as (b & -> & Hb). cbn [bind].
  eexists. split; [reflexivity|]. exists d. split; [auto|]. split; [apply top_best; unfold top; congruence|].
  assert (Eb : b = (d =? c i)).
  { destruct (Nat.eqb_spec d (c i)) as [->|NE].
    - apply Hb. destruct V as (Wv & Sv & Gv), Hr as (Wr & Sr & Gr). split; [congruence|]. intros j Hj.
      apply extract_eq_vget; [apply Wv|apply Wr|lia|lia|]. rewrite Gv, Gr by lia. reflexivity.
    - destruct b; auto. exfalso. destruct Hb as (Hb & _). destruct (Hb eq_refl) as (_ & Hb'). clear Hb.
      destruct V as (Wv & Sv & Gv), Hr as (Wr & Sr & Gr). specialize (Hb' d ltac:(lia)).
      apply extract_eq_vget in Hb'; [|apply Wv|apply Wr|lia|lia]. rewrite Gv, Gr in Hb' by lia. unfold only in Hb'.
      rewrite Nat.eqb_refl in Hb'. destruct (Nat.eqb_spec d (c i)); [contradiction|discriminate]. }
  split.
  - split. { intros u Hu. unfold move. destruct (u =? i); auto. }
    cbn. split.
    + eapply rc_ext; [exact HS'|]. intros v' e Hv' He. cbv beta. unfold in_cluster, move. destruct (v' =? i) eqn:Ei; auto.
    + split; [eauto|]. split; [auto|]. split; [auto|]. split; eauto.
  - cbn. rewrite Eb. reflexivity.
Qed.

(** What the bodies compute from the graph. *)
Context (G : lil T).
Hypothesis (WG : wfm G) (RG : nrows G = N) (CG : ncols G = N).
Definition sums (i j : nat) : option T := ounion tplus idc idc (mget G i j) (mget G j i).
Definition degs (i : nat) : option Qc := osum Qcplus (map (fun j => option_map tq (mget G i j)) (seq 0 N)).
Definition half : Qc := (oq (osum Qcplus (map degs (seq 0 N))) / Q2Qc 2)%Qc.
Definition pull (row : nat -> option T) (ki : Qc) (j : nat) : option Qc :=
  ounion Qcplus idc idc (option_map tq (row j)) (option_map (fun x => (x * (- ki / half))%Qc) (degs j)).
Definition others (c : nat -> nat) (i v d : nat) : option bool := if v =? i then None else only (c v) d.
Definition attract (row : nat -> option T) (ki : Qc) (c : nat -> nat) (i d : nat) : option Qc :=
  osum Qcplus (map (fun j => omap2 (fun x b => (x * bq b)%Qc) (pull row ki j) (others c i j d)) (seq 0 N)).
Definition near (c : nat -> nat) (i d : nat) : option bool :=
  osum orb (map (fun j => omap2 andb (option_map tb (sums i j)) (others c i j d)) (seq 0 N)).
Definition attract_near (ki : Qc) (c : nat -> nat) (i d : nat) : option Qc :=
  if otrue btrue (near c i d) then attract (sums i) ki c i d else None.

Lemma half_ok k m : vis N k degs -> reduce_vs 0%Qc idc Qcplus Qcplus idc (NoAcc idc) 0%Qc k = Ok m -> (m / Q2Qc 2)%Qc = half.
Proof.
  intros (W & S0 & Gk). rewrite (reduce_vs_ok 0%Qc idc Qcplus Qcplus idc (NoAcc idc) 0%Qc k (fun _ _ => eq_refl) (wfv_wfvn _ W)).
  rewrite (ofold_osum idc Qcplus Qcplus) by reflexivity. rewrite map_map, S0. intro E. unfold half.
  assert (X : map (fun x => option_map idc (vget k x)) (seq 0 N) = map degs (seq 0 N)).
  { apply map_ext_in. intros j Hj. apply in_seq in Hj. unfold idc. rewrite option_map_id'. apply Gk. lia. }
  rewrite X in E. destruct (osum Qcplus (map degs (seq 0 N))) as [y|]; cbv zeta beta iota in E; unfold idc in E; cbn [oq]; inversion E; reflexivity.
Qed.

Definition fqs (masked : bool) (c : nat -> nat) (i : nat) (ki : Qc) : nat -> option Qc :=
  if masked then attract_near ki c i else attract (fun j => sums j i) ki c i.
Definition body (masked : bool) := if masked then lv_body_masked tq tb draw fuel else lv_body tq draw fuel.

Lemma lv_body_ok masked AA k mask i s c : i < N -> sq N AA sums -> vis N k degs -> vis N mask (fun _ => Some true) -> lv_ok c s ->
  exists o, body masked N AA k half mask i s = Ok o /\
    match o with
    | None => decisive -> exists ki, degs i = Some ki /\ forall e, e < N -> fqs masked c i ki e = None
    | Some s' => exists c', lv_ok c' s' /\
        match degs i with
        | None => s' = s /\ c' = c
        | Some ki => exists d, d < N /\ best_at N (fqs masked c i ki) d /\ c' = move c i d /\
            lvCh s' = (lvCh s || negb (d =? c i))
        end
    end.
Proof.
  intros Hi HA Hk Hm (HC & HS & (fr & Hr) & (fv & Hv) & (fm & Hqm) & (fq & Hq) & (ft & Ht)).
  assert (X : forall s', (exists d, d < N /\ best_at N (fqs masked c i (oq (degs i))) d /\ lv_ok (move c i d) s' /\
        lvCh s' = (lvCh s || negb (d =? c i))) -> forall ki, degs i = Some ki -> exists c', lv_ok c' s' /\
      exists d, d < N /\ best_at N (fqs masked c i ki) d /\ c' = move c i d /\ lvCh s' = (lvCh s || negb (d =? c i))).
  { intros s' (d & Hd & B & O & C) ki Eki. rewrite Eki in B. exists (move c i d). split; [auto|]. exists d. auto. }
  destruct masked; unfold body, lv_body, lv_body_masked; rewrite (vis_has N k degs i Hk Hi); cbn [bind].
  all: destruct (degs i) as [ki|] eqn:Eki; cbn [is_some negb].
  2,4: exists (Some s); split; [auto|]; exists c; split; [|auto]; repeat split; eauto; try apply HS.
  all: destruct (lv_clear_ok i mask (lvRow s) (lvS s) c fr Hi Hm Hr HS) as (r & Sm & -> & HR & HSm); cbn [bind].
  - destruct (vis_extract_row_cast N tq btrue vnomask (fun _ => true) MERGE (lvV s) AA _ _ i Hv HA (vmis_none _ _) Hi) as (v & -> & V).
    cbn [bind].
    destruct (lv_subtract_ok i k degs ki half v _ Hi Hk V Eki) as (v' & -> & V'). cbn [bind].
    destruct (vis_extract_row_cast N tb btrue vnomask (fun _ => true) MERGE (lvM s) AA _ _ i Hqm HA (vmis_none _ _) Hi) as (qm & -> & Qm).
    cbn [bind].
    destruct (vis_vxm N orb andb btrue vnomask (fun _ => true) MERGE qm qm Sm _ _ _ Qm Qm HSm (vmis_none _ _)) as (qm' & -> & Qm').
    cbn [bind].
    destruct (vis_vxm N Qcplus (fun (x : Qc) (b : bool) => (x * bq b)%Qc) btrue (MVal qm') _ REPLACE (lvQ s) v' Sm _ _ _ Hq V' HSm
      (vmis_val _ _ _ _ Qm')) as (q' & -> & Q'). cbn [bind].
    destruct (lv_finish_ok i r Sm q' (lvT s) s v' qm' c (attract_near ki c i) Hi HC HR HSm) as (o & -> & Ho); eauto.
    exists o. split; [auto|]. destruct o as [s'|]; auto. intro De. exists ki. split; [auto|]. apply Ho; auto.
  - destruct (vis_new 0%Qc N N0) as (v0 & -> & V0). cbn [bind].
    destruct (extract_col_cast N tq v0 AA _ _ i V0 HA Hi) as (v & -> & V). cbn [bind].
    destruct (lv_subtract_ok i k degs ki half v _ Hi Hk V Eki) as (v' & -> & V'). cbn [bind].
    destruct (vis_vxm N Qcplus (fun (x : Qc) (b : bool) => (x * bq b)%Qc) btrue vnomask (fun _ => true) MERGE v0 v' Sm _ _ _ V0 V' HSm
      (vmis_none _ _)) as (q' & -> & Q'). cbn [bind].
    destruct (vis_new false N N0) as (t0 & -> & T0). cbn [bind].
    destruct (lv_finish_ok i r Sm q' t0 s (lvV s) (lvM s) c (attract (fun j => sums j i) ki c i) Hi HC HR HSm) as (o & -> & Ho); eauto.
    exists o. split; [auto|]. destruct o as [s'|]; auto. intro De. exists ki. split; [auto|]. apply Ho; auto.
Qed.

Lemma lv_ok_ext c c' s : (forall v, c v = c' v) -> lv_ok c s -> lv_ok c' s.
Proof.
  intros E (HC & HS & R). split; [intros; rewrite <- E; auto|]. split; [|auto].
  eapply rc_ext; [exact HS|]. intros v d _ _. unfold in_cluster. rewrite E. reflexivity.
Qed.

(** ** The sweeps *)
Section Sweeps.
Context (masked : bool) (Inv : (nat -> nat) -> Prop).
Hypothesis Inv_move : forall c i ki d, (forall v, v < N -> c v < N) -> i < N -> degs i = Some ki -> d < N ->
  best_at N (fqs masked c i ki) d -> Inv c -> Inv (move c i d).
Definition settled (c : nat -> nat) (n : nat) : Prop :=
  forall i ki, i < n -> degs i = Some ki -> best_at N (fqs masked c i ki) (c i).
(** A vertex for which no cluster has been computed. *)
Definition stuck : Prop := decisive -> exists c i ki, (forall v, v < N -> c v < N) /\ i < N /\ degs i = Some ki /\
  forall e, e < N -> fqs masked c i ki e = None.
Context (AA : lil T) (k : bvec Qc) (mask : bvec bool).
Hypothesis (HA : sq N AA sums) (Hk : vis N k degs) (Hm : vis N mask (fun _ => Some true)).
Notation bd := (body masked N AA k half mask).

Lemma sweep_ok s c : lv_ok c s -> Inv c -> lvCh s = false ->
  exists o, ofor (seq 0 N) bd s = Ok o /\
    match o with
    | None => stuck
    | Some s' => exists c', lv_ok c' s' /\ Inv c' /\ (lvCh s' = false -> settled c' N)
    end.
Proof.
  intros H0 I0 C0.
  apply (ofor_seq_inv (fun i s' => exists c', lv_ok c' s' /\ Inv c' /\ (lvCh s' = false -> settled c' i)) stuck).
  - exists c. split; [auto|]. split; [auto|]. intros _ i ki Hi. lia.
  - intros i s1 Hi (c1 & O1 & I1 & S1). destruct (lv_body_ok masked AA k mask i s1 c1 Hi HA Hk Hm O1) as (o & -> & Ho).
    exists o. split; [auto|]. destruct o as [s2|].
    + destruct Ho as (c2 & O2 & D). destruct (degs i) as [ki|] eqn:Eki.
      * destruct D as (d & Hd & B & -> & Ch). destruct (Nat.eqb_spec d (c1 i)) as [Ed|NE].
        -- exists c1. split.
           { eapply lv_ok_ext; [|exact O2]. intro v. unfold move. destruct (Nat.eqb_spec v i); [subst; auto|auto]. }
           split; [auto|]. cbn [negb] in Ch. rewrite orb_false_r in Ch. rewrite Ch. intros C1 j kj Hj Ej.
           destruct (Nat.eq_dec j i) as [->|Nj]; [|apply S1; auto; lia]. rewrite <- Ed. congruence.
        -- exists (move c1 i d). split; [auto|]. split; [eapply Inv_move; eauto; apply O1|].
           cbn [negb] in Ch. rewrite orb_true_r in Ch. congruence.
      * destruct D as (-> & ->). exists c1. split; [auto|]. split; [auto|]. intros C1 j kj Hj Ej.
        destruct (Nat.eq_dec j i) as [->|Nj]; [congruence|apply S1; auto; lia].
    + intro De. destruct (Ho De) as (ki & Eki & Z). exists c1, i, ki. split; [apply O1|]. auto.
Qed.

Lemma loop_ok : forall left iters s c, lv_ok c s -> Inv c ->
  exists o, lv_loop left iters N bd s = Ok o /\
    match o with
    | None => stuck
    | Some (inl M) => exists c', (forall v, v < N -> c' v < N) /\ sq N M (in_cluster c') /\ Inv c' /\ settled c' N
    | Some (inr n) => n = iters + 1 + left
    end.
Proof.
  induction left as [|left IH]; intros iters s c O0 I0; cbn [lv_loop].
  all: match goal with |- context [ofor _ _ ?s0] => destruct (sweep_ok s0 c O0 I0 eq_refl) as (o & E & Ho) end.
  all: setoid_rewrite E; cbn [bind].
  all: destruct o as [s'|]; [|exists None; auto].
  all: destruct Ho as (c' & O' & I' & S').
  all: destruct (lvCh s') eqn:Ch; [|eexists; split; [reflexivity|]; exists c'; destruct O' as (HC & HS & _); auto].
  - eexists. split; [reflexivity|]. cbv beta iota. lia.
  - destruct (IH (iters + 1) s' c' O' I') as (o & -> & Ho). exists o. split; [auto|].
    destruct o as [[M|n]|]; auto. lia.
Qed.
End Sweeps.

Definition run (masked : bool) :=
  if masked then louvain_cluster_masked tq tb tplus draw fuel G else louvain_cluster tq tplus draw fuel G.
Lemma run_ok masked (Inv : (nat -> nat) -> Prop) max_iters :
  (forall c i ki d, (forall v, v < N -> c v < N) -> i < N -> degs i = Some ki -> d < N ->
    best_at N (fqs masked c i ki) d -> Inv c -> Inv (move c i d)) ->
  Inv (fun v => v) ->
  exists o, run masked max_iters = Ok o /\
    match o with
    | None => stuck masked
    | Some (inl M) => exists c, assigns N M c /\ Inv c /\ settled masked c N
    | Some (inr n) => n = Nat.max 1 max_iters
    end.
Proof.
  intros Im I0.
  assert (X : exists o, lv_run tq tplus (body masked) G max_iters = Ok o /\
    match o with
    | None => stuck masked
    | Some (inl M) => exists c, assigns N M c /\ Inv c /\ settled masked c N
    | Some (inr n) => n = Nat.max 1 max_iters
    end).
  { unfold lv_run. rewrite RG, CG, Nat.eqb_refl. cbn [negb].
    assert (HG : sq N G (mget G)) by (split; [auto|split; [auto|split; auto]]).
    destruct (sq_accum N btrue mnomask (fun _ _ => true) MERGE G (mget G) (fun i j => mget G j i) tplus idc _ HG (mmis_none _ _)
      (transpose_ok btrue idc (Acc tplus idc idc) mnomask MERGE G (Mat G) WG WG Logic.I
        ltac:(split; [exact Logic.I|split; simpl; congruence]))) as (AA & E & HA).
    setoid_rewrite E. cbn [bind]. clear E.
    destruct (vis_new 0%Qc N N0) as (v0 & Ev0 & V0). rewrite !Ev0. cbn [bind].
    destruct (vis_written N btrue vnomask (fun _ => true) MERGE v0 _ _ _ V0 (vmis_none _ _)
      (reduce_ok tq (fun x y => (tq x + tq y)%Qc) (fun x y => (x + tq y)%Qc) btrue idc (NoAcc idc) vnomask MERGE v0 (Mat G)
        (fun _ _ => eq_refl) (proj1 (proj1 V0)) WG Logic.I
        ltac:(destruct V0 as (_ & ? & _); split; [exact Logic.I|simpl; congruence]))) as (k & E & Hk0).
    setoid_rewrite E. cbn [bind]. clear E.
    assert (Hk : vis N k degs).
    { eapply vis_ext; [exact Hk0|]. intros i Hi. cbv beta. unfold wr. cbn [sview vcols]. rewrite CG.
      rewrite (ofold_osum tq (fun x y => (x + tq y)%Qc) Qcplus) by reflexivity. rewrite map_map. reflexivity. }
    destruct (reduce_vs 0%Qc idc Qcplus Qcplus idc (NoAcc idc) 0%Qc k) as [m| |] eqn:Em.
    2,3: rewrite (reduce_vs_ok 0%Qc idc Qcplus Qcplus idc (NoAcc idc) 0%Qc k (fun _ _ => eq_refl) (wfv_wfvn _ (proj1 Hk))) in Em; discriminate.
    cbn [bind]. rewrite (half_ok k m Hk Em).
    destruct (scaled_identity_ok N true) as (S0 & -> & WS & RS & CS & GS). cbn [bind].
    destruct (vis_new false N N0) as (b0 & Eb0 & B0). rewrite !Eb0. cbn [bind].
    destruct (vis_fill N btrue vnomask (fun _ => true) MERGE b0 _ true B0 (vmis_none _ _)) as (mask & -> & Hm). cbn [bind].
    destruct (loop_ok masked Inv Im AA k mask HA Hk Hm (max_iters - 1) 0 (mkLv S0 b0 true 0 v0 b0 v0 b0) (fun v => v)) as (o & -> & Ho); auto.
    - split; [auto|]. cbn. split; [|repeat split; eauto].
      split; [auto|]. split; [auto|]. split; [auto|]. intros i j Hi Hj. rewrite GS. unfold in_cluster, only.
      rewrite (proj2 (Nat.ltb_lt i N) Hi), andb_true_r, Nat.eqb_sym. reflexivity.
    - exists o. split; [auto|]. destruct o as [[M|n]|]; auto; [|lia].
      destruct Ho as (c & HC & (WM & RM & CM & GM) & I & S1). exists c. split; [|auto].
      split; [auto|]. split; [auto|]. split; [auto|]. intros v Hv. split; [auto|]. intro d.
      destruct (Nat.lt_ge_cases d N) as [Hd|Hd].
      + rewrite GM by auto. reflexivity.
      + rewrite mget_oob by (auto; lia). specialize (HC v Hv). destruct (Nat.eqb_spec d (c v)); [lia|auto]. }
  destruct masked; exact X.
Qed.

(** ** Undirected graphs without loops *)
Section Undirected.
Hypothesis symG : forall u v, mget G u v = mget G v u.
Hypothesis loopG : forall v, mget G v v = None.
Hypothesis posG : forall u v x, mget G u v = Some x -> (0 < tq x)%Qc.
Hypothesis plusG : forall x y, tq (tplus x y) = (tq x + tq y)%Qc.
Notation A := (weight tq G).

Lemma A_sym u v : A u v = A v u.
Proof. unfold weight. rewrite symG. reflexivity. Qed.
Lemma A_loop v : A v v = 0%Qc.
Proof. unfold weight. rewrite loopG. reflexivity. Qed.
Lemma A_pos u v : (0 <= A u v)%Qc.
Proof. unfold weight. destruct (mget G u v) as [x|] eqn:E; [apply Qclt_le_weak, (posG u v); auto|apply Qcle_refl]. Qed.
Lemma A_lt u v x : mget G u v = Some x -> (0 < A u v)%Qc.
Proof. intro E. unfold weight. rewrite E. eapply posG; eauto. Qed.
Lemma A_none u v : mget G u v = None -> A u v = 0%Qc.
Proof. intro E. unfold weight. rewrite E. reflexivity. Qed.

Lemma degs_oq i : oq (degs i) = degree N A i.
Proof.
  unfold degs. rewrite osum_q. apply qsum_ext. intros j _. unfold weight. destruct (mget G i j); reflexivity.
Qed.
Lemma degs_some i ki : i < N -> degs i = Some ki -> ki = degree N A i /\ (0 < ki)%Qc.
Proof.
  intros Hi E. pose proof (degs_oq i) as Q. rewrite E in Q. cbn [oq] in Q. split; [auto|]. rewrite Q.
  destruct (osum_none_iff Qcplus (map (fun j => option_map tq (mget G i j)) (seq 0 N))) as (_ & X).
  destruct (Qclt_le_dec 0 (degree N A i)) as [|L]; auto. exfalso.
  assert (Z : degs i = None).
  { apply X. intros o Ho. apply in_map_iff in Ho. destruct Ho as (j & <- & Hj). apply in_seq in Hj.
    destruct (mget G i j) as [x|] eqn:Ex; auto. exfalso. revert L. apply Qclt_not_le. apply (qsum_pos N (A i) j); [|lia|].
    - intros. apply A_pos.
    - eapply A_lt; eauto. }
  congruence.
Qed.
Lemma degs_none i j : j < N -> degs i = None -> mget G i j = None.
Proof.
  intros Hj E. unfold degs in E. rewrite osum_none_iff in E.
  assert (I : In (option_map tq (mget G i j)) (map (fun j => option_map tq (mget G i j)) (seq 0 N))).
  { apply in_map_iff. exists j. split; [auto|apply in_seq; lia]. }
  specialize (E _ I). destruct (mget G i j); [discriminate|auto].
Qed.
Lemma half_total : half = (total_weight N A / Q2Qc 2)%Qc.
Proof. unfold half. f_equal. rewrite osum_q. apply qsum_ext. intros. apply degs_oq. Qed.

Definition rowlike (row : nat -> option T) (i : nat) : Prop :=
  forall j, j < N -> match mget G i j with Some x => row j = Some (tplus x x) | None => row j = None end.
Lemma rowlike_row i : rowlike (sums i) i.
Proof. intros j _. unfold sums. rewrite (symG j i). destruct (mget G i j); reflexivity. Qed.
Lemma rowlike_col i : rowlike (fun j => sums j i) i.
Proof. intros j _. unfold sums. rewrite (symG j i). destruct (mget G i j); reflexivity. Qed.

Lemma pull_ok row i ki j : i < N -> j < N -> rowlike row i -> degs i = Some ki ->
  oq (pull row ki j) = (excess N A i j + excess N A i j)%Qc /\ (mget G i j <> None -> pull row ki j <> None).
Proof.
  intros Hi Hj HR Ei. destruct (degs_some i ki Hi Ei) as (-> & P). specialize (HR j Hj).
  pose proof (total_pos N A A_pos i Hi P) as TP.
  assert (Q : forall x : Qc, (x * (- degree N A i / half) = - (degree N A i * x / total_weight N A + degree N A i * x / total_weight N A))%Qc).
  { intro x. rewrite half_total. replace (Q2Qc 2) with (1 + 1)%Qc by (apply Qc_is_canon; reflexivity).
    field. split; [apply Qc_pos_neq; auto|discriminate]. }
  unfold pull, excess. destruct (mget G i j) as [x|] eqn:Ex.
  - rewrite HR. cbn [option_map]. assert (Aij : A i j = tq x) by (unfold weight; rewrite Ex; auto). rewrite Aij.
    destruct (degs j) as [kj|] eqn:Ej.
    + destruct (degs_some j kj Hj Ej) as (-> & _). cbn [option_map ounion oq]. split; [|discriminate].
      rewrite Q, plusG. ring.
    + exfalso. rewrite symG in Ex. rewrite (degs_none j i Hi Ej) in Ex. discriminate.
  - rewrite HR. split; [|congruence]. rewrite (A_none _ _ Ex). cbn [option_map]. rewrite <- (degs_oq j).
    destruct (degs j) as [kj|] eqn:Ej; cbn [option_map ounion oq]; unfold idc; [rewrite Q; ring|].
    unfold Qcdiv. ring.
Qed.
Lemma attract_gain row i ki c d : i < N -> rowlike row i -> degs i = Some ki ->
  oq (attract row ki c i d) = gain N A c i d.
Proof.
  intros Hi HR Ei. unfold attract. rewrite osum_q. apply qsum_ext. intros j Hj.
  destruct (pull_ok row i ki j Hi Hj HR Ei) as (P & _). unfold others, only. rewrite (Nat.eqb_sym (c j) d).
  destruct (j =? i); cbn [negb andb]; [destruct (pull row ki j); reflexivity|].
  destruct (d =? c j); cbn [andb]; [|destruct (pull row ki j); reflexivity].
  rewrite <- P. destruct (pull row ki j); cbn [omap2 oq bq]; [ring|reflexivity].
Qed.

Hypothesis boolG : forall x, (0 < tq x)%Qc -> tb x = true.
Lemma near_ok c i d : i < N -> otrue btrue (near c i d) = false -> (gain N A c i d <= 0)%Qc.
Proof.
  intros Hi E. apply gain_far; [apply A_pos|auto|]. intros j Hj Nj Cj.
  destruct (mget G i j) as [x|] eqn:Ex; [|apply A_none; auto]. exfalso.
  assert (K : forall l, In (Some true) l -> osum orb l = Some true).
  { induction l as [|o l IH] using rev_ind; [intros []|]. intro I. rewrite osum_snoc'. apply in_app_or in I. destruct I as [I|[->|[]]].
    - rewrite IH by auto. destruct o; reflexivity.
    - destruct (osum orb l) as [b|]; cbn [oadd]; [rewrite orb_true_r|]; reflexivity. }
  unfold near in E. rewrite K in E; [discriminate|]. apply in_map_iff. exists j. split; [|apply in_seq; lia].
  pose proof (rowlike_row i j Hj) as R. rewrite Ex in R. rewrite R. unfold others, only.
  destruct (Nat.eqb_spec j i); [contradiction|]. subst d. rewrite Nat.eqb_refl. cbn [option_map omap2]. rewrite boolG; [reflexivity|].
  rewrite plusG. pose proof (posG _ _ _ Ex). generalize dependent (tq x). intros. qlra.
Qed.
Lemma fqs_gain masked c i ki d : i < N -> degs i = Some ki ->
  match fqs masked c i ki d with Some y => y = gain N A c i d | None => (gain N A c i d <= 0)%Qc end.
Proof.
  intros Hi Ei. destruct masked; unfold fqs, attract_near.
  - destruct (otrue btrue (near c i d)) eqn:En; [|apply near_ok; auto].
    pose proof (attract_gain (sums i) i ki c d Hi (rowlike_row i) Ei) as Q.
    destruct (attract (sums i) ki c i d); cbn [oq] in Q; [auto|rewrite <- Q; apply Qcle_refl].
  - pose proof (attract_gain (fun j => sums j i) i ki c d Hi (rowlike_col i) Ei) as Q.
    destruct (attract (fun j => sums j i) ki c i d); cbn [oq] in Q; [auto|rewrite <- Q; apply Qcle_refl].
Qed.
Lemma best_gain masked c i ki d : (forall v, v < N -> c v < N) -> i < N -> degs i = Some ki ->
  best_at N (fqs masked c i ki) d -> forall e, (gain N A c i e <= gain N A c i d)%Qc.
Proof.
  intros HC Hi Ei (y & Ey & My) e. destruct (degs_some i ki Hi Ei) as (Eki & P).
  pose proof (fqs_gain masked c i ki d Hi Ei) as Gd. rewrite Ey in Gd. rewrite <- Gd.
  destruct (gain_some N A A_loop A_pos c i Hi HC ltac:(congruence)) as (d0 & H0 & P0).
  pose proof (fqs_gain masked c i ki d0 Hi Ei) as G0.
  assert (Y : (0 < y)%Qc).
  { destruct (fqs masked c i ki d0) as [z|] eqn:E0.
    - specialize (My d0 z H0 E0). rewrite <- G0 in P0. qlra.
    - exfalso. revert G0. apply Qclt_not_le. auto. }
  pose proof (fqs_gain masked c i ki e Hi Ei) as Ge. destruct (fqs masked c i ki e) as [z|] eqn:E1.
  - rewrite <- Ge. destruct (Nat.lt_ge_cases e N) as [He|He]; [apply (My e); auto|].
    rewrite Ge. apply Qcle_trans with 0%Qc; [|qlra]. apply gain_far; [apply A_pos|auto|]. intros j Hj _ Cj. specialize (HC j Hj). lia.
  - qlra.
Qed.

Theorem louvain_undirected masked max_iters :
  exists o, run masked max_iters = Ok o /\
    match o with
    | None => ~ decisive
    | Some (inl M) => exists c, assigns N M c /\ (modularity N A (fun v => v) <= modularity N A c)%Qc /\ locally_best N A c
    | Some (inr n) => n = Nat.max 1 max_iters
    end.
Proof.
  destruct (run_ok masked (fun c => raw N A (fun v => v) <= raw N A c)%Qc max_iters) as (o & E & Ho).
  - intros c i ki d HC Hi Ei Hd B Ic. rewrite raw_move by (auto using A_sym).
    pose proof (best_gain masked c i ki d HC Hi Ei B (c i)). generalize dependent (gain N A c i (c i)). generalize dependent (gain N A c i d).
    intros. qlin.
  - apply Qcle_refl.
  - exists o. split; [auto|]. destruct o as [[M|n]|]; auto.
    + destruct Ho as (c & HM & Ic & St). exists c. split; [auto|]. split; [apply modularity_le; auto using A_pos|].
      intros i d Hi. apply modularity_le; [auto using A_pos|]. rewrite raw_move by (auto using A_sym).
      assert (HC : forall v, v < N -> c v < N) by (intros v Hv; apply HM; auto).
      assert (L : (gain N A c i d <= gain N A c i (c i))%Qc).
      { destruct (degs i) as [ki|] eqn:Ei.
        - apply (best_gain masked c i ki (c i) HC Hi Ei (St i ki Hi Ei)).
        - assert (D : degree N A i = 0%Qc) by (rewrite <- degs_oq, Ei; reflexivity).
          rewrite !gain_isolated by (auto using A_pos). apply Qcle_refl. }
      generalize dependent (gain N A c i (c i)). generalize dependent (gain N A c i d). intros. qlin.
    + intro De. destruct (Ho De) as (c & i & ki & HC & Hi & Ei & Z). destruct (degs_some i ki Hi Ei) as (Eki & P).
      destruct (gain_some N A A_loop A_pos c i Hi HC ltac:(congruence)) as (d & Hd & Pd).
      pose proof (fqs_gain masked c i ki d Hi Ei) as Gd. rewrite (Z d Hd) in Gd. revert Gd. apply Qclt_not_le. auto.
Qed.
End Undirected.
End Louvain.

(** ** Cluster assignments *)
Lemma louvain_assignments_ok {T} (M : lil T) N : wfm M -> N <> 0 -> nrows M = N -> ncols M = N ->
  exists w, get_louvain_cluster_assignments M = Ok w /\ wfv w /\ vsize w = N /\
    forall v, v < N ->
      match vget w v with
      | None => forall d, mget M v d = None
      | Some d => mget M v d <> None /\ forall e, mget M v e <> None -> e <= d
      end.
Proof.
  intros W N0 R C. unfold get_louvain_cluster_assignments. rewrite R, C.
  destruct (vis_new 0 N N0) as (w0 & -> & V0). cbn [bind].
  destruct (index_ramp_ok N N0) as (r & -> & Wr & Sr & Gr). cbn [bind].
  assert (Vr : vis N r (fun i => Some i)).
  { split; [auto|]. split; [auto|]. intros i Hi. rewrite Gr, (proj2 (Nat.ltb_lt i N) Hi). reflexivity. }
  assert (HM : sq N M (mget M)) by (split; [auto|split; [auto|split; auto]]).
  destruct (vis_mxv N nmax (fun (_ : T) (i : nat) => i) (fun (i : nat) (_ : T) => i) btrue vnomask (fun _ => true) MERGE w0 r M _ _ _
    V0 Vr HM (vmis_none _ _)) as (w & -> & (Ww & Sw & Gw)).
  exists w. split; [auto|]. split; [auto|]. split; [auto|]. intros v Hv. rewrite Gw by auto. cbv beta. unfold wr.
  set (l := map _ _).
  assert (IN : forall d, In (Some d) l <-> mget M v d <> None).
  { intro d. unfold l. rewrite in_map_iff. split.
    - intros (j & E & Hj). destruct (mget M v j) eqn:Ej; cbn [omap2] in E; [|discriminate]. injection E as <-. congruence.
    - intro E. exists d. destruct (mget M v d) eqn:Ed; [|congruence]. split; [auto|]. apply in_seq.
      destruct (Nat.lt_ge_cases d N); [lia|]. rewrite mget_oob in Ed by (auto; lia). discriminate. }
  pose proof (osum_nmax l) as X. destruct (osum nmax l) as [d|].
  - destruct X as (I & Ge). split; [apply IN; auto|]. intros e He. apply Ge, IN. auto.
  - intro d. destruct (mget M v d) eqn:Ed; auto. exfalso. assert (I : In (Some d) l) by (apply IN; congruence). specialize (X _ I). discriminate.
Qed.
