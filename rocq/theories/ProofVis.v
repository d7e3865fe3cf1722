(** The effects of the operations as the algorithms call them, on vectors and matrices given by
    the map they denote. *)
From Coq Require Import Lia.
From Verif Require Import Base ModelLil ModelVec ModelHelpers ModelViews ModelMul ModelElem
  ModelIndex ModelAlgoBase Spec SpecOps SpecIndex ProofBase ProofRow ProofLil
  ProofVec ProofWrite ProofViews ProofMul ProofElem ProofReduce ProofIndex ProofAssign ProofAssignRC
  ProofGraph.

(** [w] has size [N] and stores [f]. *)
Definition vis {T} (N : nat) (w : bvec T) (f : nat -> option T) : Prop :=
  wfv w /\ vsize w = N /\ forall i, i < N -> vget w i = f i.
(** [M] is a square matrix of size [N] and stores [f]. *)
Definition sq {T} (N : nat) (M : lil T) (f : nat -> nat -> option T) : Prop :=
  wfm M /\ nrows M = N /\ ncols M = N /\ forall i j, i < N -> j < N -> mget M i j = f i j.

Definition wr {T} (b : bool) (outp : outmode) (old t : option T) : option T :=
  if b then t else match outp with MERGE => old | REPLACE => None end.

(** The mask allows the positions of [b]. *)
Definition vmis {TM} (N : nat) (truthy : TM -> bool) (m : mask (bvec TM)) (b : nat -> bool) : Prop :=
  wfvmask m /\ vmask_fits m N /\ forall i, i < N -> vmask_allows truthy m i = b i.
Definition mmis {TM} (N : nat) (truthy : TM -> bool) (m : mask (lil TM)) (b : nat -> nat -> bool) : Prop :=
  wfmask m /\ mask_fits m N N /\ forall i j, i < N -> j < N -> mask_allows truthy m i j = b i j.

Lemma vis_ext {T} N (w : bvec T) f g : vis N w f -> (forall i, i < N -> f i = g i) -> vis N w g.
Proof. intros (W & S & G) H. split; [auto|split; [auto|]]. intros. rewrite G by auto. auto. Qed.
Lemma sq_ext {T} N (M : lil T) f g : sq N M f -> (forall i j, i < N -> j < N -> f i j = g i j) -> sq N M g.
Proof. intros (W & R & C & G) H. split; [auto|split; [auto|split; [auto|]]]. intros. rewrite G by auto. auto. Qed.
Lemma vis_self {T} (w : bvec T) : wfv w -> vis (vsize w) w (vget w).
Proof. intro. split; auto. Qed.
Lemma vis_get {T} N (w : bvec T) f i : vis N w f -> i < N -> vget w i = f i.
Proof. intros (_ & _ & G). auto. Qed.
Lemma vis_oob {T} N (w : bvec T) f i : vis N w f -> N <= i -> vget w i = None.
Proof. intros ((W & _) & S & _) H. apply vget_oob; auto. lia. Qed.
Lemma sq_get {T} N (M : lil T) f i j : sq N M f -> i < N -> j < N -> mget M i j = f i j.
Proof. intros (_ & _ & _ & G). auto. Qed.

Lemma vmis_none {TM} N (truthy : TM -> bool) : vmis N truthy NoMask (fun _ => true).
Proof. split; [exact Logic.I|split; [exact Logic.I|]]. auto. Qed.
Lemma vmis_val {TM} N (truthy : TM -> bool) M f : vis N M f -> vmis N truthy (MVal M) (fun i => otrue truthy (f i)).
Proof. intros (W & S & G). split; [apply W|split; [exact S|]]. intros. simpl. rewrite G; auto. Qed.
Lemma vmis_comp {TM} N (truthy : TM -> bool) M f : vis N M f -> vmis N truthy (MComp M) (fun i => negb (otrue truthy (f i))).
Proof. intros (W & S & G). split; [apply W|split; [exact S|]]. intros. simpl. rewrite G; auto. Qed.
Lemma vmis_struct {TM} N (truthy : TM -> bool) M f : vis N M f -> vmis N truthy (MStruct M) (fun i => is_some (f i)).
Proof. intros (W & S & G). split; [apply W|split; [exact S|]]. intros. simpl. rewrite G; auto. Qed.
Lemma vmis_scomp {TM} N (truthy : TM -> bool) M f : vis N M f -> vmis N truthy (MSComp M) (fun i => negb (is_some (f i))).
Proof. intros (W & S & G). split; [apply W|split; [exact S|]]. intros. simpl. rewrite G; auto. Qed.

Lemma mmis_none {TM} N (truthy : TM -> bool) : mmis N truthy NoMask (fun _ _ => true).
Proof. split; [exact Logic.I|split; [exact Logic.I|]]. auto. Qed.
Lemma mmis_val {TM} N (truthy : TM -> bool) M f : sq N M f -> mmis N truthy (MVal M) (fun i j => otrue truthy (f i j)).
Proof. intros (W & R & C & G). split; [apply W|split; [split; auto|]]. intros. simpl. rewrite G; auto. Qed.
Lemma mmis_comp {TM} N (truthy : TM -> bool) M f : sq N M f -> mmis N truthy (MComp M) (fun i j => negb (otrue truthy (f i j))).
Proof. intros (W & R & C & G). split; [apply W|split; [split; auto|]]. intros. simpl. rewrite G; auto. Qed.

Lemma vis_written {TW TM} N (truthy : TM -> bool) (m : mask (bvec TM)) b outp (w : bvec TW) f t r :
  vis N w f -> vmis N truthy m b -> vwritten truthy idc (NoAcc idc) m outp w t r ->
  exists w', r = Ok w' /\ vis N w' (fun i => wr (b i) outp (f i) (t i)).
Proof.
  intros (W & S & G) (_ & _ & B) (w' & E & W' & S' & G'). exists w'. split; [auto|].
  split; [auto|split; [congruence|]]. intros i Hi. rewrite G' by lia. rewrite B, G by auto.
  simpl. unfold idc. rewrite option_map_id'. unfold spec_write, wr. destruct (b i); auto.
  rewrite option_map_id'. auto.
Qed.
Lemma vis_accum {TW TT TM} N (truthy : TM -> bool) (m : mask (bvec TM)) b outp (w : bvec TW) f t op
    (tz : TT -> TW) r :
  vis N w f -> vmis N truthy m b -> vwritten truthy idc (Acc op idc tz) m outp w t r ->
  exists w', r = Ok w' /\ vis N w' (fun i => wr (b i) outp (f i) (ounion op idc tz (f i) (t i))).
Proof.
  intros (W & S & G) (_ & _ & B) (w' & E & W' & S' & G'). exists w'. split; [auto|].
  split; [auto|split; [congruence|]]. intros i Hi. rewrite G' by lia. rewrite B, G by auto.
  unfold spec_write, wr. destruct (b i); auto. simpl. unfold idc at 1. rewrite option_map_id'. auto.
Qed.
Lemma sq_written {TC TM} N (truthy : TM -> bool) (m : mask (lil TM)) b outp (C : lil TC) f t r :
  sq N C f -> mmis N truthy m b -> written truthy idc (NoAcc idc) m outp C t r ->
  exists C', r = Ok C' /\ sq N C' (fun i j => wr (b i j) outp (f i j) (t i j)).
Proof.
  intros (W & R & K & G) (_ & _ & B) (C' & E & W' & R' & K' & G'). exists C'. split; [auto|].
  split; [auto|split; [congruence|split; [congruence|]]]. intros i j Hi Hj. rewrite G' by lia.
  rewrite B, G by auto. simpl. unfold idc. rewrite option_map_id'. unfold spec_write, wr.
  destruct (b i j); auto. rewrite option_map_id'. auto.
Qed.
Lemma sq_accum {TC TT TM} N (truthy : TM -> bool) (m : mask (lil TM)) b outp (C : lil TC) f t op
    (tz : TT -> TC) r :
  sq N C f -> mmis N truthy m b -> written truthy idc (Acc op idc tz) m outp C t r ->
  exists C', r = Ok C' /\ sq N C' (fun i j => wr (b i j) outp (f i j) (ounion op idc tz (f i j) (t i j))).
Proof.
  intros (W & R & K & G) (_ & _ & B) (C' & E & W' & R' & K' & G'). exists C'. split; [auto|].
  split; [auto|split; [congruence|split; [congruence|]]]. intros i j Hi Hj. rewrite G' by lia.
  rewrite B, G by auto. unfold spec_write, wr.
  destruct (b i j); auto. simpl. unfold idc at 1. rewrite option_map_id'. auto.
Qed.

Lemma vis_new {T} (dflt : T) N : N <> 0 -> exists w, vec_new dflt N = Ok w /\ vis N w (fun _ => None).
Proof. intro H. destruct (vec_new_ok dflt N H) as (w & E & W & S & G). exists w. split; [auto|split; auto]. Qed.
Lemma vis_clear {T} N (w : bvec T) : wfv0 w -> vsize w = N -> vis N (vec_clear w) (fun _ => None).
Proof. intros W S. destruct (vec_clear_wf w W) as (W' & G). split; [auto|split; auto]. Qed.
Lemma vis_set {T} N (w : bvec T) f i v :
  vis N w f -> i < N ->
  exists w', vec_setElement w i v = Ok w' /\ vis N w' (fun k => if k =? i then Some v else f k) /\
    vnvals w' = (vnvals w + if is_some (f i) then 0 else 1)%Z.
Proof.
  intros (W & S & G) H. destruct (vec_setElement_ok w i v) as (w' & E & W' & S' & N' & G' & Q); [apply W|lia|].
  exists w'. split; [auto|]. rewrite <- (G i H). split; [|auto]. split; [auto|split; [lia|]]. intros k Hk.
  rewrite G', G by auto. auto.
Qed.
Lemma vis_extract {T} N (w : bvec T) f i v :
  vis N w f -> i < N -> f i = Some v -> vec_extractElement w i = Ok v.
Proof.
  intros (W & S & G) H E. rewrite vec_extractElement_ok by apply W. destruct (Nat.ltb_spec i (vsize w)); [|lia].
  rewrite G, E by auto. auto.
Qed.
Lemma vis_has {T} N (w : bvec T) f i : vis N w f -> i < N -> vec_hasElement w i = Ok (is_some (f i)).
Proof.
  intros (W & S & G) H. rewrite vec_hasElement_ok by apply W. destruct (Nat.ltb_spec i (vsize w)); [|lia].
  rewrite G by auto. auto.
Qed.
Lemma vis_nvals {T} N (w : bvec T) f : vis N w f -> vnvals w = Z.of_nat (vcount N f).
Proof.
  intros ((W & C) & S & G). rewrite C, S. f_equal. unfold vcount. f_equal. apply filter_ext_in'.
  intros x Hx. apply in_seq in Hx. rewrite G by lia. auto.
Qed.
Lemma vis_no_vals {T} N (w : bvec T) f :
  vis N w f -> has_vals (vnvals w) = false -> forall i, i < N -> f i = None.
Proof. intros H E i Hi. rewrite <- (vis_get N w f i H Hi). apply no_vals_v; auto. apply H. Qed.
Lemma vis_vals {T} N (w : bvec T) f :
  vis N w f -> has_vals (vnvals w) = true -> exists i, i < N /\ f i <> None.
Proof.
  intros H E. rewrite (vis_nvals N w f H) in E. unfold vcount, has_vals in E.
  destruct (filter (fun i => is_some (f i)) (seq 0 N)) as [|x l] eqn:F; [discriminate|].
  assert (In x (x :: l)) as Hx by (simpl; auto). rewrite <- F in Hx. apply filter_In in Hx.
  destruct Hx as (Hx & Fx). apply in_seq in Hx. exists x. split; [lia|]. destruct (f x); [discriminate|discriminate].
Qed.

Lemma vis_mult {TU TV TW TM} N (op : TU -> TV -> TW) (truthy : TM -> bool) m b outp (w : bvec TW)
    (u : bvec TU) (v : bvec TV) f fu fv :
  vis N w f -> vis N u fu -> vis N v fv -> vmis N truthy m b ->
  exists w', eWiseMult_v op truthy idc (NoAcc idc) m outp w u v = Ok w' /\
    vis N w' (fun i => wr (b i) outp (f i) (omap2 op (fu i) (fv i))).
Proof.
  intros H Hu Hv Hm.
  destruct (vis_written N truthy m b outp w f _ _ H Hm
    (eWiseMult_v_ok op truthy idc (NoAcc idc) m outp w u v (proj1 (proj1 H))
      (wfv_wfvn _ (proj1 Hu)) (wfv_wfvn _ (proj1 Hv)) (proj1 Hm)
      ltac:(destruct H as (_ & ? & _), Hu as (_ & ? & _), Hv as (_ & ? & _), Hm as (_ & ? & _);
            split; [congruence|split; congruence]))) as (w' & E & V).
  exists w'. split; [auto|]. eapply vis_ext; [exact V|]. intros i Hi. simpl.
  rewrite (vis_get _ _ _ _ Hu Hi), (vis_get _ _ _ _ Hv Hi). auto.
Qed.
Lemma vis_add {TU TV TW TM} N (op : TU -> TV -> TW) c1 c2 (truthy : TM -> bool) m b outp (w : bvec TW)
    (u : bvec TU) (v : bvec TV) f fu fv :
  vis N w f -> vis N u fu -> vis N v fv -> vmis N truthy m b ->
  exists w', eWiseAdd_v op c1 c2 truthy idc (NoAcc idc) m outp w u v = Ok w' /\
    vis N w' (fun i => wr (b i) outp (f i) (ounion op c1 c2 (fu i) (fv i))).
Proof.
  intros H Hu Hv Hm.
  destruct (vis_written N truthy m b outp w f _ _ H Hm
    (eWiseAdd_v_ok op c1 c2 truthy idc (NoAcc idc) m outp w u v (proj1 (proj1 H))
      (wfv_wfvn _ (proj1 Hu)) (wfv_wfvn _ (proj1 Hv)) (proj1 Hm)
      ltac:(destruct H as (_ & ? & _), Hu as (_ & ? & _), Hv as (_ & ? & _), Hm as (_ & ? & _);
            split; [congruence|split; congruence]))) as (w' & E & V).
  exists w'. split; [auto|]. eapply vis_ext; [exact V|]. intros i Hi. simpl.
  rewrite (vis_get _ _ _ _ Hu Hi), (vis_get _ _ _ _ Hv Hi). auto.
Qed.
Lemma vis_apply {TU TW TM} N (op : TU -> TW) (truthy : TM -> bool) m b outp (w : bvec TW)
    (u : bvec TU) f fu :
  vis N w f -> vis N u fu -> vmis N truthy m b ->
  exists w', apply_v op truthy idc (NoAcc idc) m outp w u = Ok w' /\
    vis N w' (fun i => wr (b i) outp (f i) (option_map op (fu i))).
Proof.
  intros H Hu Hm.
  destruct (vis_written N truthy m b outp w f _ _ H Hm
    (apply_v_ok op truthy idc (NoAcc idc) m outp w u (proj1 (proj1 H))
      (wfv_wfvn _ (proj1 Hu)) (proj1 Hm)
      ltac:(destruct H as (_ & ? & _), Hu as (_ & ? & _), Hm as (_ & ? & _);
            split; congruence))) as (w' & E & V).
  exists w'. split; [auto|]. eapply vis_ext; [exact V|]. intros i Hi. simpl.
  rewrite (vis_get _ _ _ _ Hu Hi). auto.
Qed.
Lemma vis_apply_acc {TU TT TW TM} N (op : TU -> TT) (acc : TW -> TT -> TW) (tz : TT -> TW)
    (truthy : TM -> bool) m b outp (w : bvec TW) (u : bvec TU) f fu :
  vis N w f -> vis N u fu -> vmis N truthy m b ->
  exists w', apply_v op truthy idc (Acc acc idc tz) m outp w u = Ok w' /\
    vis N w' (fun i => wr (b i) outp (f i) (ounion acc idc tz (f i) (option_map op (fu i)))).
Proof.
  intros H Hu Hm.
  destruct (vis_accum N truthy m b outp w f _ _ tz _ H Hm
    (apply_v_ok op truthy idc (Acc acc idc tz) m outp w u (proj1 (proj1 H))
      (wfv_wfvn _ (proj1 Hu)) (proj1 Hm)
      ltac:(destruct H as (_ & ? & _), Hu as (_ & ? & _), Hm as (_ & ? & _);
            split; congruence))) as (w' & E & V).
  exists w'. split; [auto|]. eapply vis_ext; [exact V|]. intros i Hi. simpl.
  rewrite (vis_get _ _ _ _ Hu Hi). auto.
Qed.

(** Vector times matrix. *)
Lemma vis_vxm {TU TA TW TM} N (add : TW -> TW -> TW) (mult : TU -> TA -> TW) (truthy : TM -> bool) m b outp
    (w : bvec TW) (u : bvec TU) (A : lil TA) f fu fA :
  vis N w f -> vis N u fu -> sq N A fA -> vmis N truthy m b ->
  exists w', vxm add mult truthy idc (NoAcc idc) m outp w u (Mat A) = Ok w' /\
    vis N w' (fun j => wr (b j) outp (f j) (osum add (map (fun k => omap2 mult (fu k) (fA k j)) (seq 0 N)))).
Proof.
  intros H Hu HA Hm. destruct HA as (WA & RA & CA & GA).
  destruct (vis_written N truthy m b outp w f _ _ H Hm
    (vxm_ok add mult truthy idc (NoAcc idc) m outp w u (Mat A) (proj1 (proj1 H)) WA
      (wfv_wfvn _ (proj1 Hu)) (proj1 Hm)
      ltac:(destruct H as (_ & ? & _), Hm as (_ & ? & _); congruence)
      ltac:(destruct H as (_ & ? & _); simpl; congruence)
      ltac:(destruct Hu as (_ & ? & _); simpl; congruence))) as (w' & E & V).
  exists w'. split; [auto|]. eapply vis_ext; [exact V|]. intros j Hj. simpl. unfold svmul. rewrite RA.
  f_equal. f_equal. apply map_ext_in. intros k Hk. apply in_seq in Hk.
  rewrite (vis_get _ _ _ _ Hu) by lia. rewrite GA by lia. auto.
Qed.
Lemma vis_vxm_acc {TU TA TT TW TM} N (add : TT -> TT -> TT) (mult : TU -> TA -> TT) (acc : TW -> TT -> TW)
    (tz : TT -> TW) (truthy : TM -> bool) m b outp
    (w : bvec TW) (u : bvec TU) (A : lil TA) f fu fA :
  vis N w f -> vis N u fu -> sq N A fA -> vmis N truthy m b ->
  exists w', vxm add mult truthy idc (Acc acc idc tz) m outp w u (Mat A) = Ok w' /\
    vis N w' (fun j => wr (b j) outp (f j)
      (ounion acc idc tz (f j) (osum add (map (fun k => omap2 mult (fu k) (fA k j)) (seq 0 N))))).
Proof.
  intros H Hu HA Hm. destruct HA as (WA & RA & CA & GA).
  destruct (vis_accum N truthy m b outp w f _ _ tz _ H Hm
    (vxm_ok add mult truthy idc (Acc acc idc tz) m outp w u (Mat A) (proj1 (proj1 H)) WA
      (wfv_wfvn _ (proj1 Hu)) (proj1 Hm)
      ltac:(destruct H as (_ & ? & _), Hm as (_ & ? & _); congruence)
      ltac:(destruct H as (_ & ? & _); simpl; congruence)
      ltac:(destruct Hu as (_ & ? & _); simpl; congruence))) as (w' & E & V).
  exists w'. split; [auto|]. eapply vis_ext; [exact V|]. intros j Hj. simpl. unfold svmul. rewrite RA.
  do 3 f_equal. apply map_ext_in. intros k Hk. apply in_seq in Hk.
  rewrite (vis_get _ _ _ _ Hu) by lia. rewrite GA by lia. auto.
Qed.
Lemma vis_mxv {TU TA TW TM} N (add : TW -> TW -> TW) (mult : TA -> TU -> TW) multS (truthy : TM -> bool) m b outp
    (w : bvec TW) (u : bvec TU) (A : lil TA) f fu fA :
  vis N w f -> vis N u fu -> sq N A fA -> vmis N truthy m b ->
  exists w', mxv add mult multS truthy idc (NoAcc idc) m outp w (Mat A) u = Ok w' /\
    vis N w' (fun i => wr (b i) outp (f i) (osum add (map (fun k => omap2 mult (fA i k) (fu k)) (seq 0 N)))).
Proof.
  intros H Hu HA Hm. destruct HA as (WA & RA & CA & GA).
  destruct (vis_written N truthy m b outp w f _ _ H Hm
    (mxv_ok add mult multS truthy idc (NoAcc idc) m outp w (Mat A) u (proj1 (proj1 H)) WA
      (wfv_wfvn _ (proj1 Hu)) (proj1 Hm)
      ltac:(destruct H as (_ & ? & _), Hm as (_ & ? & _); congruence)
      ltac:(destruct H as (_ & ? & _); simpl; congruence)
      ltac:(destruct Hu as (_ & ? & _); simpl; congruence) Logic.I)) as (w' & E & V).
  exists w'. split; [auto|]. eapply vis_ext; [exact V|]. intros j Hj. simpl. unfold smulv. simpl. rewrite CA.
  f_equal. f_equal. apply map_ext_in. intros k Hk. apply in_seq in Hk.
  rewrite (vis_get _ _ _ _ Hu) by lia. rewrite GA by lia. auto.
Qed.

(** Row [u] of [A] as column [u] of the transposed matrix; a column of [A]. *)
Lemma vis_extract_row {TA TM} N (truthy : TM -> bool) m b outp (w : bvec TA) (A : lil TA) f fA u :
  vis N w f -> sq N A fA -> vmis N truthy m b -> u < N ->
  exists w', extract_col truthy idc (NoAcc idc) m outp w (Trn A) AllIdx u = Ok w' /\
    vis N w' (fun j => wr (b j) outp (f j) (fA u j)).
Proof.
  intros H (WA & RA & CA & GA) Hm Hu.
  destruct (vis_written N truthy m b outp w f _ _ H Hm
    (extract_col_ok truthy idc (NoAcc idc) m outp w (Trn A) AllIdx u (proj1 (proj1 H)) WA (proj1 Hm)
      ltac:(destruct H as (_ & ? & _), Hm as (_ & ? & _); split; [congruence|]; split; [exact Logic.I|];
            split; [simpl; lia|exact Logic.I]))) as (w' & E & V).
  exists w'. split; [auto|]. eapply vis_ext; [exact V|]. intros j Hj. unfold scextract. simpl. unfold stran.
  rewrite GA by auto. auto.
Qed.
Lemma vis_extract_column {TA TM} N (truthy : TM -> bool) m b outp (w : bvec TA) (A : lil TA) f fA u :
  vis N w f -> sq N A fA -> vmis N truthy m b -> u < N ->
  exists w', extract_col truthy idc (NoAcc idc) m outp w (Mat A) AllIdx u = Ok w' /\
    vis N w' (fun i => wr (b i) outp (f i) (fA i u)).
Proof.
  intros H (WA & RA & CA & GA) Hm Hu.
  destruct (vis_written N truthy m b outp w f _ _ H Hm
    (extract_col_ok truthy idc (NoAcc idc) m outp w (Mat A) AllIdx u (proj1 (proj1 H)) WA (proj1 Hm)
      ltac:(destruct H as (_ & ? & _), Hm as (_ & ? & _); split; [congruence|]; split; [exact Logic.I|];
            split; [simpl; lia|exact Logic.I]))) as (w' & E & V).
  exists w'. split; [auto|]. eapply vis_ext; [exact V|]. intros j Hj. unfold scextract. simpl.
  rewrite GA by auto. auto.
Qed.

Lemma in_all n o : o < n -> in_idx AllIdx n o = true.
Proof.
  intro H. unfold in_idx, SpecIndex.pos. simpl. destruct (find (fun k => k =? o) (seq 0 n)) eqn:E; auto.
  assert (Q : (o =? o) = false) by (apply (find_none _ _ E o), in_seq; lia). rewrite Nat.eqb_refl in Q. discriminate.
Qed.
Lemma vis_fill {TW TM} N (truthy : TM -> bool) m b outp (w : bvec TW) f val :
  vis N w f -> vmis N truthy m b ->
  exists w', assign_const_v idc truthy idc (NoAcc idc) m outp w val AllIdx = Ok w' /\
    vis N w' (fun i => wr (b i) outp (f i) (Some val)).
Proof.
  intros (W & S & G) (Wm & Fm & B).
  destruct (assign_const_v_ok truthy idc idc (NoAcc idc) m outp w val AllIdx) as (w' & E & W' & S' & G').
  { apply W. } { auto. } { split; [congruence|]. split; exact Logic.I. } { exact Logic.I. }
  exists w'. split; [exact E|]. split; [auto|split; [congruence|]]. intros i Hi. rewrite G' by lia.
  rewrite B, G by auto. simpl. rewrite in_all by lia. reflexivity.
Qed.

(** Square matrices. *)
Lemma sq_new {T} N : sq N (lil_new N N : lil T) (fun _ _ => None).
Proof. split; [apply lil_new_wf|]. split; [auto|split; [auto|]]. intros. apply mget_new. Qed.
Lemma sq_apply {TA TC TM} N (op : TA -> TC) (truthy : TM -> bool) m b outp (C : lil TC) (A : lil TA) f fA :
  sq N C f -> sq N A fA -> mmis N truthy m b ->
  exists C', apply op truthy idc (NoAcc idc) m outp C (Mat A) = Ok C' /\
    sq N C' (fun i j => wr (b i j) outp (f i j) (option_map op (fA i j))).
Proof.
  intros H (WA & RA & CA & GA) Hm.
  destruct (sq_written N truthy m b outp C f _ _ H Hm
    (apply_ok op truthy idc (NoAcc idc) m outp C (Mat A) (proj1 H) WA (proj1 Hm)
      ltac:(destruct H as (_ & ? & ? & _), Hm as (_ & ? & _);
            split; [congruence|simpl; split; congruence]))) as (C' & E & V).
  exists C'. split; [auto|]. eapply sq_ext; [exact V|]. intros i j Hi Hj. simpl. rewrite GA by auto. auto.
Qed.
Lemma sq_apply_tran_acc {TA TT TC TM} N (op : TA -> TT) (acc : TC -> TT -> TC) tz (truthy : TM -> bool) m b outp
    (C : lil TC) (A : lil TA) f fA :
  sq N C f -> sq N A fA -> mmis N truthy m b ->
  exists C', apply op truthy idc (Acc acc idc tz) m outp C (Trn A) = Ok C' /\
    sq N C' (fun i j => wr (b i j) outp (f i j) (ounion acc idc tz (f i j) (option_map op (fA j i)))).
Proof.
  intros H (WA & RA & CA & GA) Hm.
  destruct (sq_accum N truthy m b outp C f _ _ tz _ H Hm
    (apply_ok op truthy idc (Acc acc idc tz) m outp C (Trn A) (proj1 H) WA (proj1 Hm)
      ltac:(destruct H as (_ & ? & ? & _), Hm as (_ & ? & _);
            split; [congruence|simpl; split; congruence]))) as (C' & E & V).
  exists C'. split; [auto|]. eapply sq_ext; [exact V|]. intros i j Hi Hj. simpl. unfold stran. rewrite GA by auto. auto.
Qed.
Lemma sq_add {TA TB TC TM} N (op : TA -> TB -> TC) c1 c2 opA c2A ba (truthy : TM -> bool) m b outp
    (C : lil TC) (A : lil TA) (B : lil TB) f fA fB :
  sq N C f -> sq N A fA -> sq N B fB -> mmis N truthy m b ->
  exists C', eWiseAdd op c1 c2 opA c2A ba truthy idc (NoAcc idc) m outp C (Mat A) (Mat B) = Ok C' /\
    sq N C' (fun i j => wr (b i j) outp (f i j) (ounion op c1 c2 (fA i j) (fB i j))).
Proof.
  intros H (WA & RA & CA & GA) (WB & RB & CB & GB) Hm.
  destruct (sq_written N truthy m b outp C f _ _ H Hm
    (eWiseAdd_ok op c1 c2 opA c2A ba truthy idc (NoAcc idc) m outp C (Mat A) (Mat B) (proj1 H) WA WB (proj1 Hm)
      ltac:(destruct H as (_ & ? & ? & _), Hm as (_ & ? & _);
            split; [congruence|simpl; split; [congruence|split; [congruence|split; congruence]]])))
    as (C' & E & V).
  exists C'. split; [auto|]. eapply sq_ext; [exact V|]. intros i j Hi Hj. simpl. rewrite GA, GB by auto. auto.
Qed.
Lemma sq_mult {TA TB TC TM} N (op : TA -> TB -> TC) opA ba (truthy : TM -> bool) m b outp
    (C : lil TC) (A : lil TA) (B : lil TB) f fA fB :
  sq N C f -> sq N A fA -> sq N B fB -> mmis N truthy m b ->
  exists C', eWiseMult op opA ba truthy idc (NoAcc idc) m outp C (Mat A) (Mat B) = Ok C' /\
    sq N C' (fun i j => wr (b i j) outp (f i j) (omap2 op (fA i j) (fB i j))).
Proof.
  intros H (WA & RA & CA & GA) (WB & RB & CB & GB) Hm.
  destruct (sq_written N truthy m b outp C f _ _ H Hm
    (eWiseMult_ok op opA ba truthy idc (NoAcc idc) m outp C (Mat A) (Mat B) (proj1 H) WA WB (proj1 Hm)
      ltac:(destruct H as (_ & ? & ? & _), Hm as (_ & ? & _);
            split; [congruence|simpl; split; [congruence|split; [congruence|split; congruence]]])))
    as (C' & E & V).
  exists C'. split; [auto|]. eapply sq_ext; [exact V|]. intros i j Hi Hj. simpl. rewrite GA, GB by auto. auto.
Qed.

Lemma sq_set {T} N (M : lil T) f i j v :
  sq N M f -> i < N -> j < N ->
  exists M', lil_setElement M i j v = Ok M' /\
    sq N M' (fun i' j' => if (i' =? i) && (j' =? j) then Some v else f i' j').
Proof.
  intros (W & R & C & G) Hi Hj.
  destruct (setElement_merge_ok (fun _ new : T => new) M i j v W) as (M' & E & W' & R' & C' & G'); [lia|lia|].
  exists M'. split; [exact E|]. split; [auto|split; [congruence|split; [congruence|]]].
  intros i' j' Hi' Hj'. rewrite G', (G i' j') by auto. destruct ((i' =? i) && (j' =? j)); auto.
  destruct (mget M i j); auto.
Qed.
Lemma sq_clear {T} N (M : lil T) f : sq N M f -> sq N (lil_clear M) (fun _ _ => None).
Proof.
  intros (W & R & C & G). rewrite lil_clear_eq by (apply wfm_len; auto). rewrite R, C. apply sq_new.
Qed.

(** A vector with more entries. *)
Lemma vcount_lt {T U} N (f : nat -> option T) (g : nat -> option U) v :
  (forall i, i < N -> f i <> None -> g i <> None) -> v < N -> f v = None -> g v <> None ->
  vcount N f < vcount N g.
Proof.
  intros H. unfold vcount. revert v. induction N as [|N IH]; intros v Hv Fv Gv; [lia|].
  assert (LE : length (filter (fun i => is_some (f i)) (seq 0 N)) <=
               length (filter (fun i => is_some (g i)) (seq 0 N))).
  { assert (H' : forall i, i < N -> f i <> None -> g i <> None) by (intros; apply H; auto). clear - H'.
    induction N as [|N IH]; [auto|]. rewrite seq_S, !filter_app, !app_length.
    assert (length (filter (fun i => is_some (f i)) (seq 0 N)) <=
            length (filter (fun i => is_some (g i)) (seq 0 N))) by (apply IH; auto).
    simpl. specialize (H' N). destruct (f N), (g N); simpl; try lia. exfalso. apply H'; auto; congruence. }
  rewrite seq_S, !filter_app, !app_length. simpl.
  destruct (Nat.eq_dec v N) as [->|].
  - rewrite Fv. destruct (g N); [simpl; lia|congruence].
  - assert (length (filter (fun i => is_some (f i)) (seq 0 N)) <
            length (filter (fun i => is_some (g i)) (seq 0 N))) by (apply (IH ltac:(auto) v); auto; lia).
    specialize (H N). destruct (f N), (g N); simpl; try lia. exfalso. apply H; auto; congruence.
Qed.
Lemma vcount_le_N {T} N (f : nat -> option T) : vcount N f <= N.
Proof.
  unfold vcount. rewrite <- (seq_length N 0) at 2. generalize (seq 0 N). intro l.
  induction l; simpl; auto. destruct (is_some (f a)); simpl; lia.
Qed.
