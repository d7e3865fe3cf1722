(** The effects of the operations on matrices of any shape, as in ProofVis.v. *)
From Coq Require Import Lia.
From Verif Require Import Base ModelLil ModelVec ModelHelpers ModelViews ModelMul ModelElem
  ModelIndex ModelUtils ModelAlgoBase Spec SpecOps SpecIndex ProofBase ProofRow ProofLil
  ProofVec ProofWrite ProofViews ProofMul ProofElem ProofReduce ProofIndex ProofAssign ProofAssignRC
  ProofGraph ProofUtils ProofVis.

(** [M] is an [R] x [K] matrix that stores [f]. *)
Definition rc {T} (R K : nat) (M : lil T) (f : nat -> nat -> option T) : Prop :=
  wfm M /\ nrows M = R /\ ncols M = K /\ forall i j, i < R -> j < K -> mget M i j = f i j.
Definition mrc {TM} (R K : nat) (truthy : TM -> bool) (m : mask (lil TM)) (b : nat -> nat -> bool) : Prop :=
  wfmask m /\ mask_fits m R K /\ forall i j, i < R -> j < K -> mask_allows truthy m i j = b i j.

Lemma rc_ext {T} R K (M : lil T) f g : rc R K M f -> (forall i j, i < R -> j < K -> f i j = g i j) -> rc R K M g.
Proof. intros (W & R' & C & G) H. split; [auto|split; [auto|split; [auto|]]]. intros. rewrite G by auto. auto. Qed.
Lemma rc_get {T} R K (M : lil T) f i j : rc R K M f -> i < R -> j < K -> mget M i j = f i j.
Proof. intros (_ & _ & _ & G). auto. Qed.
Lemma rc_dims {T} R K (M : lil T) f : rc R K M f -> nrows M = R /\ ncols M = K.
Proof. intros (_ & A & B & _). auto. Qed.
Lemma rc_new {T} R K : rc R K (lil_new R K : lil T) (fun _ _ => None).
Proof. split; [apply lil_new_wf|]. split; [auto|split; [auto|]]. intros. apply mget_new. Qed.

Lemma mrc_none {TM} R K (truthy : TM -> bool) : mrc R K truthy NoMask (fun _ _ => true).
Proof. split; [exact Logic.I|split; [exact Logic.I|]]. auto. Qed.
Lemma mrc_val {TM} R K (truthy : TM -> bool) M f : rc R K M f -> mrc R K truthy (MVal M) (fun i j => otrue truthy (f i j)).
Proof. intros (W & R' & C & G). split; [apply W|split; [split; auto|]]. intros. simpl. rewrite G; auto. Qed.
Lemma mrc_comp {TM} R K (truthy : TM -> bool) M f : rc R K M f -> mrc R K truthy (MComp M) (fun i j => negb (otrue truthy (f i j))).
Proof. intros (W & R' & C & G). split; [apply W|split; [split; auto|]]. intros. simpl. rewrite G; auto. Qed.

Lemma rc_written {TC TT TM} R K (truthy : TM -> bool) (m : mask (lil TM)) b outp (C : lil TC) f (t : smat TT) tz r :
  rc R K C f -> mrc R K truthy m b -> written truthy idc (NoAcc tz) m outp C t r ->
  exists C', r = Ok C' /\ rc R K C' (fun i j => wr (b i j) outp (f i j) (option_map tz (t i j))).
Proof.
  intros (W & HR & HK & G) (_ & _ & B) (C' & E & W' & R' & K' & G'). exists C'. split; [auto|].
  split; [auto|split; [congruence|split; [congruence|]]]. intros i j Hi Hj. rewrite G' by lia.
  rewrite B, G by auto. simpl. unfold spec_write, wr.
  destruct (b i j); auto. unfold idc. rewrite option_map_id'. auto.
Qed.
Lemma rc_accum {TC TT TM} R K (truthy : TM -> bool) (m : mask (lil TM)) b outp (C : lil TC) f t op
    (tz : TT -> TC) r :
  rc R K C f -> mrc R K truthy m b -> written truthy idc (Acc op idc tz) m outp C t r ->
  exists C', r = Ok C' /\ rc R K C' (fun i j => wr (b i j) outp (f i j) (ounion op idc tz (f i j) (t i j))).
Proof.
  intros (W & HR & HK & G) (_ & _ & B) (C' & E & W' & R' & K' & G'). exists C'. split; [auto|].
  split; [auto|split; [congruence|split; [congruence|]]]. intros i j Hi Hj. rewrite G' by lia.
  rewrite B, G by auto. unfold spec_write, wr.
  destruct (b i j); auto. simpl. unfold idc at 1. rewrite option_map_id'. auto.
Qed.

Local Ltac conf := intros; repeat match goal with
  | H : rc _ _ _ _ |- _ => destruct H as (? & ? & ? & _)
  | H : mrc _ _ _ _ _ |- _ => destruct H as (? & ? & _) end; subst; simpl in *; repeat split; simpl in *; auto; try congruence.

Lemma rc_apply {TA TC TM} R K (op : TA -> TC) (truthy : TM -> bool) m b outp (C : lil TC) (A : lil TA) f fA :
  rc R K C f -> rc R K A fA -> mrc R K truthy m b ->
  exists C', apply op truthy idc (NoAcc idc) m outp C (Mat A) = Ok C' /\
    rc R K C' (fun i j => wr (b i j) outp (f i j) (option_map op (fA i j))).
Proof.
  intros H HA Hm.
  destruct (rc_written R K truthy m b outp C f _ idc _ H Hm
    (apply_ok op truthy idc (NoAcc idc) m outp C (Mat A) (proj1 H) (proj1 HA) (proj1 Hm) ltac:(conf))) as (C' & E & V).
  exists C'. split; [auto|]. eapply rc_ext; [exact V|]. intros i j Hi Hj. simpl. rewrite (rc_get _ _ _ _ _ _ HA) by auto.
  unfold idc. rewrite option_map_id'. auto.
Qed.
Lemma rc_add {TA TB TC TM} R K (op : TA -> TB -> TC) c1 c2 opA c2A ba (truthy : TM -> bool) m b outp
    (C : lil TC) (A : lil TA) (B : lil TB) f fA fB :
  rc R K C f -> rc R K A fA -> rc R K B fB -> mrc R K truthy m b ->
  exists C', eWiseAdd op c1 c2 opA c2A ba truthy idc (NoAcc idc) m outp C (Mat A) (Mat B) = Ok C' /\
    rc R K C' (fun i j => wr (b i j) outp (f i j) (ounion op c1 c2 (fA i j) (fB i j))).
Proof.
  intros H HA HB Hm.
  destruct (rc_written R K truthy m b outp C f _ idc _ H Hm
    (eWiseAdd_ok op c1 c2 opA c2A ba truthy idc (NoAcc idc) m outp C (Mat A) (Mat B) (proj1 H) (proj1 HA) (proj1 HB)
      (proj1 Hm) ltac:(conf)))
    as (C' & E & V).
  exists C'. split; [auto|]. eapply rc_ext; [exact V|]. intros i j Hi Hj. simpl.
  rewrite (rc_get _ _ _ _ _ _ HA), (rc_get _ _ _ _ _ _ HB) by auto. unfold idc. rewrite option_map_id'. auto.
Qed.
Lemma rc_mult {TA TB TC TM} R K (op : TA -> TB -> TC) opA ba (truthy : TM -> bool) m b outp
    (C : lil TC) (A : lil TA) (B : lil TB) f fA fB :
  rc R K C f -> rc R K A fA -> rc R K B fB -> mrc R K truthy m b ->
  exists C', eWiseMult op opA ba truthy idc (NoAcc idc) m outp C (Mat A) (Mat B) = Ok C' /\
    rc R K C' (fun i j => wr (b i j) outp (f i j) (omap2 op (fA i j) (fB i j))).
Proof.
  intros H HA HB Hm.
  destruct (rc_written R K truthy m b outp C f _ idc _ H Hm
    (eWiseMult_ok op opA ba truthy idc (NoAcc idc) m outp C (Mat A) (Mat B) (proj1 H) (proj1 HA) (proj1 HB)
      (proj1 Hm) ltac:(conf)))
    as (C' & E & V).
  exists C'. split; [auto|]. eapply rc_ext; [exact V|]. intros i j Hi Hj. simpl.
  rewrite (rc_get _ _ _ _ _ _ HA), (rc_get _ _ _ _ _ _ HB) by auto. unfold idc. rewrite option_map_id'. auto.
Qed.
Lemma rc_mult_acc {TA TB TT TC TM} R K (op : TA -> TB -> TT) opA ba (acc : TC -> TT -> TC) tz
    (truthy : TM -> bool) m b outp
    (C : lil TC) (A : lil TA) (B : lil TB) f fA fB :
  rc R K C f -> rc R K A fA -> rc R K B fB -> mrc R K truthy m b ->
  exists C', eWiseMult op opA ba truthy idc (Acc acc idc tz) m outp C (Mat A) (Mat B) = Ok C' /\
    rc R K C' (fun i j => wr (b i j) outp (f i j) (ounion acc idc tz (f i j) (omap2 op (fA i j) (fB i j)))).
Proof.
  intros H HA HB Hm.
  destruct (rc_accum R K truthy m b outp C f _ _ tz _ H Hm
    (eWiseMult_ok op opA ba truthy idc (Acc acc idc tz) m outp C (Mat A) (Mat B) (proj1 H) (proj1 HA) (proj1 HB)
      (proj1 Hm) ltac:(conf)))
    as (C' & E & V).
  exists C'. split; [auto|]. eapply rc_ext; [exact V|]. intros i j Hi Hj. simpl.
  rewrite (rc_get _ _ _ _ _ _ HA), (rc_get _ _ _ _ _ _ HB) by auto. auto.
Qed.

(** Products. *)
Lemma rc_mxm {TA TB TC TM} R L K (add : TC -> TC -> TC) (mult : TA -> TB -> TC) multS tc ct
    (truthy : TM -> bool) m b outp (C : lil TC) (A : lil TA) (B : lil TB) f fA fB :
  rc R K C f -> rc R L A fA -> rc L K B fB -> mrc R K truthy m b ->
  exists C', mxm add mult multS tc ct truthy idc (NoAcc idc) m outp C (Mat A) (Mat B) = Ok C' /\
    rc R K C' (fun i j => wr (b i j) outp (f i j) (osum add (map (fun k => omap2 mult (fA i k) (fB k j)) (seq 0 L)))).
Proof.
  intros H HA HB Hm.
  destruct (rc_written R K truthy m b outp C f _ idc _ H Hm
    (mxm_ok add mult multS tc ct truthy idc (NoAcc idc) m outp C (Mat A) (Mat B) (proj1 H) (proj1 HA) (proj1 HB)
      (proj1 Hm) ltac:(conf) ltac:(conf) ltac:(conf) ltac:(conf) Logic.I)) as (C' & E & V).
  exists C'. split; [auto|]. eapply rc_ext; [exact V|]. intros i j Hi Hj. simpl. unfold smul, idc. simpl.
  rewrite (proj2 (rc_dims _ _ _ _ HA)), option_map_id'. do 2 f_equal. apply map_ext_in. intros k Hk. apply in_seq in Hk.
  rewrite (rc_get _ _ _ _ _ _ HA), (rc_get _ _ _ _ _ _ HB) by (auto; lia). auto.
Qed.
Lemma rc_mxm_rt {TA TB TC TM} R L K (add : TC -> TC -> TC) (mult : TA -> TB -> TC) multS tc ct
    (truthy : TM -> bool) m b outp (C : lil TC) (A : lil TA) (B : lil TB) f fA fB :
  rc R K C f -> rc R L A fA -> rc K L B fB -> mrc R K truthy m b ->
  exists C', mxm add mult multS tc ct truthy idc (NoAcc idc) m outp C (Mat A) (Trn B) = Ok C' /\
    rc R K C' (fun i j => wr (b i j) outp (f i j) (osum add (map (fun k => omap2 mult (fA i k) (fB j k)) (seq 0 L)))).
Proof.
  intros H HA HB Hm.
  destruct (rc_written R K truthy m b outp C f _ idc _ H Hm
    (mxm_ok add mult multS tc ct truthy idc (NoAcc idc) m outp C (Mat A) (Trn B) (proj1 H) (proj1 HA) (proj1 HB)
      (proj1 Hm) ltac:(conf) ltac:(conf) ltac:(conf) ltac:(conf) Logic.I)) as (C' & E & V).
  exists C'. split; [auto|]. eapply rc_ext; [exact V|]. intros i j Hi Hj. simpl. unfold smul, idc, stran. simpl.
  rewrite (proj2 (rc_dims _ _ _ _ HA)), option_map_id'. do 2 f_equal. apply map_ext_in. intros k Hk. apply in_seq in Hk.
  rewrite (rc_get _ _ _ _ _ _ HA), (rc_get _ _ _ _ _ _ HB) by (auto; lia). auto.
Qed.
Lemma rc_mxm_lt {TA TB TC TM} R L K (add : TC -> TC -> TC) (mult : TA -> TB -> TC) multS tc ct
    (truthy : TM -> bool) m b outp (C : lil TC) (A : lil TA) (B : lil TB) f fA fB :
  rc R K C f -> rc L R A fA -> rc L K B fB -> mrc R K truthy m b ->
  exists C', mxm add mult multS tc ct truthy idc (NoAcc idc) m outp C (Trn A) (Mat B) = Ok C' /\
    rc R K C' (fun i j => wr (b i j) outp (f i j) (osum add (map (fun k => omap2 mult (fA k i) (fB k j)) (seq 0 L)))).
Proof.
  intros H HA HB Hm.
  destruct (rc_written R K truthy m b outp C f _ idc _ H Hm
    (mxm_ok add mult multS tc ct truthy idc (NoAcc idc) m outp C (Trn A) (Mat B) (proj1 H) (proj1 HA) (proj1 HB)
      (proj1 Hm) ltac:(conf) ltac:(conf) ltac:(conf) ltac:(conf) Logic.I)) as (C' & E & V).
  exists C'. split; [auto|]. eapply rc_ext; [exact V|]. intros i j Hi Hj. simpl. unfold smul, idc, stran. simpl.
  rewrite (proj1 (rc_dims _ _ _ _ HA)), option_map_id'. do 2 f_equal. apply map_ext_in. intros k Hk. apply in_seq in Hk.
  rewrite (rc_get _ _ _ _ _ _ HA), (rc_get _ _ _ _ _ _ HB) by (auto; lia). auto.
Qed.

(** Rows of a matrix; columns of its transpose. *)
Lemma rc_extract_rows {TA TC} N K (tz : TA -> TC) (A : lil TA) fA l :
  rc N K A fA -> Forall (fun i => i < N) l ->
  exists C', extract_m btrue idc (NoAcc tz) mnomask MERGE (lil_new (length l) K) (Mat A) (IdxArr l) AllIdx = Ok C' /\
    rc (length l) K C' (fun i j => option_map tz (fA (nth i l 0) j)).
Proof.
  intros HA F.
  destruct (rc_written (length l) K btrue mnomask (fun _ _ => true) MERGE (lil_new (length l) K) (fun _ _ => None) _ tz _
    (rc_new _ _) (mrc_none _ _ _)
    (extract_m_ok btrue idc (NoAcc tz) mnomask MERGE (lil_new (length l) K) (Mat A) (IdxArr l) AllIdx
      (lil_new_wf _ _) (proj1 HA) Logic.I
      ltac:(destruct HA as (? & HR & ? & _); split; [exact Logic.I|]; split; [reflexivity|]; split; [exact Logic.I|];
            simpl; rewrite HR; split; [exact F|exact Logic.I]))) as (C' & E & V).
  exists C'. split; [exact E|]. eapply rc_ext; [exact V|]. intros i j Hi Hj. simpl. unfold smextract. simpl.
  rewrite (nth_error_nth' l 0 Hi). simpl. rewrite (rc_get _ _ _ _ _ _ HA); auto.
  rewrite Forall_forall in F. apply F, nth_In. auto.
Qed.
Lemma rc_extract_rows_t {TA TC} N K (tz : TA -> TC) (A : lil TA) fA l :
  rc N K A fA -> Forall (fun i => i < N) l ->
  exists C', extract_m btrue idc (NoAcc tz) mnomask MERGE (lil_new K (length l)) (Trn A) AllIdx (IdxArr l) = Ok C' /\
    rc K (length l) C' (fun j i => option_map tz (fA (nth i l 0) j)).
Proof.
  intros HA F.
  destruct (rc_written K (length l) btrue mnomask (fun _ _ => true) MERGE (lil_new K (length l)) (fun _ _ => None) _ tz _
    (rc_new _ _) (mrc_none _ _ _)
    (extract_m_ok btrue idc (NoAcc tz) mnomask MERGE (lil_new K (length l)) (Trn A) AllIdx (IdxArr l)
      (lil_new_wf _ _) (proj1 HA) Logic.I
      ltac:(destruct HA as (? & HR & ? & _); split; [exact Logic.I|]; split; [exact Logic.I|]; split; [reflexivity|];
            simpl; rewrite HR; split; [exact Logic.I|exact F]))) as (C' & E & V).
  exists C'. split; [exact E|]. eapply rc_ext; [exact V|]. intros i j Hi Hj. simpl. unfold smextract. simpl.
  rewrite (nth_error_nth' l 0 Hj). simpl. unfold stran. rewrite (rc_get _ _ _ _ _ _ HA); auto.
  rewrite Forall_forall in F. apply F, nth_In. auto.
Qed.

Lemma rc_fill {TC} R K (val : TC) :
  exists C', assign_const_m idc btrue idc (NoAcc idc) mnomask MERGE (lil_new R K) val AllIdx AllIdx = Ok C' /\
    rc R K C' (fun _ _ => Some val).
Proof.
  destruct (assign_const_m_ok btrue idc idc (NoAcc idc) mnomask MERGE (lil_new R K) val AllIdx AllIdx)
    as (C' & E & W & R' & K' & G).
  { apply lil_new_wf. } { exact Logic.I. } { repeat split; exact Logic.I. } { exact Logic.I. } { exact Logic.I. }
  exists C'. split; [exact E|]. split; [auto|]. split; [auto|split; [auto|]]. intros i j Hi Hj.
  rewrite G by auto. simpl. rewrite !in_all by auto. reflexivity.
Qed.

(** Row reductions. *)
Lemma vis_reduce_acc {T} R K (add : T -> T -> T) outp (w : bvec T) f (A : lil T) fA :
  vis R w f -> rc R K A fA ->
  exists w', reduce idc add add btrue idc (Acc add idc idc) vnomask outp w (Mat A) = Ok w' /\
    vis R w' (fun i => ounion add idc idc (f i) (osum add (map (fA i) (seq 0 K)))).
Proof.
  intros H HA.
  destruct (vis_accum R btrue vnomask (fun _ => true) outp w f _ add idc _ H (vmis_none _ _)
    (reduce_ok idc add add btrue idc (Acc add idc idc) vnomask outp w (Mat A) (fun _ _ => eq_refl)
      (proj1 (proj1 H)) (proj1 HA) Logic.I
      ltac:(destruct H as (_ & ? & _), HA as (_ & ? & _); split; [exact Logic.I|simpl; congruence]))) as (w' & E & V).
  exists w'. split; [exact E|]. eapply vis_ext; [exact V|]. intros i Hi. simpl.
  rewrite (proj2 (rc_dims _ _ _ _ HA)), (ofold_osum idc add add), map_map by auto.
  rewrite (map_ext_in _ (fA i)); [reflexivity|]. intros j Hj. apply in_seq in Hj.
  unfold idc. rewrite option_map_id'. apply (rc_get _ _ _ _ _ _ HA); lia.
Qed.
Lemma vis_reduce {T} R K (add : T -> T -> T) outp (w : bvec T) f (A : lil T) fA :
  vis R w f -> rc R K A fA ->
  exists w', reduce idc add add btrue idc (NoAcc idc) vnomask outp w (Mat A) = Ok w' /\
    vis R w' (fun i => osum add (map (fA i) (seq 0 K))).
Proof.
  intros H HA.
  destruct (vis_written R btrue vnomask (fun _ => true) outp w f _ _ H (vmis_none _ _)
    (reduce_ok idc add add btrue idc (NoAcc idc) vnomask outp w (Mat A) (fun _ _ => eq_refl)
      (proj1 (proj1 H)) (proj1 HA) Logic.I
      ltac:(destruct H as (_ & ? & _), HA as (_ & ? & _); split; [exact Logic.I|simpl; congruence]))) as (w' & E & V).
  exists w'. split; [exact E|]. eapply vis_ext; [exact V|]. intros i Hi. simpl.
  rewrite (proj2 (rc_dims _ _ _ _ HA)), (ofold_osum idc add add), map_map by auto.
  rewrite (map_ext_in _ (fA i)); [reflexivity|]. intros j Hj. apply in_seq in Hj.
  unfold idc. rewrite option_map_id'. apply (rc_get _ _ _ _ _ _ HA); lia.
Qed.
Lemma vis_reduce_t_acc {T} R K (add : T -> T -> T) outp (w : bvec T) f (A : lil T) fA :
  vis K w f -> rc R K A fA ->
  exists w', reduce idc add add btrue idc (Acc add idc idc) vnomask outp w (Trn A) = Ok w' /\
    vis K w' (fun j => ounion add idc idc (f j) (osum add (map (fun i => fA i j) (seq 0 R)))).
Proof.
  intros H HA.
  destruct (vis_accum K btrue vnomask (fun _ => true) outp w f _ add idc _ H (vmis_none _ _)
    (reduce_ok idc add add btrue idc (Acc add idc idc) vnomask outp w (Trn A) (fun _ _ => eq_refl)
      (proj1 (proj1 H)) (proj1 HA) Logic.I
      ltac:(destruct H as (_ & ? & _), HA as (_ & ? & ? & _); split; [exact Logic.I|simpl; congruence]))) as (w' & E & V).
  exists w'. split; [exact E|]. eapply vis_ext; [exact V|]. intros i Hi. simpl.
  rewrite (proj1 (rc_dims _ _ _ _ HA)), (ofold_osum idc add add), map_map by auto.
  rewrite (map_ext_in _ (fun j => fA j i)); [reflexivity|]. intros j Hj. apply in_seq in Hj.
  unfold idc. rewrite option_map_id'. apply (rc_get _ _ _ _ _ _ HA); lia.
Qed.
Lemma vis_reduce_t {T} R K (add : T -> T -> T) outp (w : bvec T) f (A : lil T) fA :
  vis K w f -> rc R K A fA ->
  exists w', reduce idc add add btrue idc (NoAcc idc) vnomask outp w (Trn A) = Ok w' /\
    vis K w' (fun j => osum add (map (fun i => fA i j) (seq 0 R))).
Proof.
  intros H HA.
  destruct (vis_written K btrue vnomask (fun _ => true) outp w f _ _ H (vmis_none _ _)
    (reduce_ok idc add add btrue idc (NoAcc idc) vnomask outp w (Trn A) (fun _ _ => eq_refl)
      (proj1 (proj1 H)) (proj1 HA) Logic.I
      ltac:(destruct H as (_ & ? & _), HA as (_ & ? & ? & _); split; [exact Logic.I|simpl; congruence]))) as (w' & E & V).
  exists w'. split; [exact E|]. eapply vis_ext; [exact V|]. intros i Hi. simpl.
  rewrite (proj1 (rc_dims _ _ _ _ HA)), (ofold_osum idc add add), map_map by auto.
  rewrite (map_ext_in _ (fun j => fA j i)); [reflexivity|]. intros j Hj. apply in_seq in Hj.
  unfold idc. rewrite option_map_id'. apply (rc_get _ _ _ _ _ _ HA); lia.
Qed.
Lemma vis_mult_acc {TU TV TT TW TM} N (op : TU -> TV -> TT) (acc : TW -> TT -> TW) tz (truthy : TM -> bool) m b outp (w : bvec TW)
    (u : bvec TU) (v : bvec TV) f fu fv :
  vis N w f -> vis N u fu -> vis N v fv -> vmis N truthy m b ->
  exists w', eWiseMult_v op truthy idc (Acc acc idc tz) m outp w u v = Ok w' /\
    vis N w' (fun i => wr (b i) outp (f i) (ounion acc idc tz (f i) (omap2 op (fu i) (fv i)))).
Proof.
  intros H Hu Hv Hm.
  destruct (vis_accum N truthy m b outp w f _ _ tz _ H Hm
    (eWiseMult_v_ok op truthy idc (Acc acc idc tz) m outp w u v (proj1 (proj1 H))
      (wfv_wfvn _ (proj1 Hu)) (wfv_wfvn _ (proj1 Hv)) (proj1 Hm)
      ltac:(destruct H as (_ & ? & _), Hu as (_ & ? & _), Hv as (_ & ? & _), Hm as (_ & ? & _);
            split; [congruence|split; congruence]))) as (w' & E & V).
  exists w'. split; [auto|]. eapply vis_ext; [exact V|]. intros i Hi. simpl.
  rewrite (vis_get _ _ _ _ Hu Hi), (vis_get _ _ _ _ Hv Hi). auto.
Qed.

(** The stored count. *)
Lemma rc_no_vals {T} R K (M : lil T) f :
  rc R K M f -> has_vals (nvals M) = false -> forall i j, i < R -> j < K -> f i j = None.
Proof. intros H E i j Hi Hj. rewrite <- (rc_get _ _ _ _ _ _ H Hi Hj). apply no_vals_m; auto. apply H. Qed.
Lemma rc_vals {T} R K (M : lil T) f :
  rc R K M f -> has_vals (nvals M) = true -> exists i j, i < R /\ j < K /\ f i j <> None.
Proof.
  intros (W & HR & HK & G) E. destruct (has_vals_m M W E) as (i & j & Hi & Hj & Q). subst.
  exists i, j. split; [auto|split; [auto|]]. rewrite <- G; auto.
Qed.

(** One element per source. *)
Lemma rc_build_rows {T} K (l : list nat) (v : T) :
  Forall (fun i => i < K) l ->
  exists M, build_or_throw (lil_new (length l) K) (map (fun i => (i, nth i l 0, v)) (seq 0 (length l))) = Ok M /\
    rc (length l) K M (fun i j => if nth i l 0 =? j then Some v else None).
Proof.
  intro F. rewrite Forall_forall in F.
  destruct (build_distinct (lil_new (length l) K) (map (fun i => (i, nth i l 0, v)) (seq 0 (length l))) (lil_new_wf _ _))
    as (M & E & W & R & C & G).
  { apply Forall_forall. intros [[i j] x] H. apply in_map_iff in H. destruct H as (k & H & Hk). injection H as <- <- _.
    apply in_seq in Hk. simpl. split; [lia|]. apply F, nth_In. lia. }
  exists M. split; [auto|]. split; [auto|split; [auto|split; [auto|]]]. intros i j Hi Hj. rewrite G, mget_new.
  assert (Q : forall n b, b <= i < b + n ->
    filter (fun '(i', j', _) => (i' =? i) && (j' =? j)) (map (fun i => (i, nth i l 0, v)) (seq b n)) =
    if nth i l 0 =? j then [(i, j, v)] else []).
  { assert (Z : forall n b, i < b -> filter (fun '(i', j', _) => (i' =? i) && (j' =? j)) (map (fun i => (i, nth i l 0, v)) (seq b n)) = []).
    { induction n; intros b Hb; auto. simpl. rewrite (proj2 (Nat.eqb_neq b i)) by lia. simpl. apply IHn. lia. }
    induction n; intros b Hb; [lia|]. simpl. destruct (Nat.eqb_spec b i) as [->|Nb].
    - simpl. rewrite Z by lia. destruct (Nat.eqb_spec (nth i l 0) j) as [->|]; auto.
    - simpl. apply IHn. lia. }
  rewrite Q by lia. destruct (nth i l 0 =? j); reflexivity.
Qed.
Lemma rc_build_cols {T} K (l : list nat) (v : T) :
  Forall (fun i => i < K) l ->
  exists M, build_or_throw (lil_new K (length l)) (map (fun i => (nth i l 0, i, v)) (seq 0 (length l))) = Ok M /\
    rc K (length l) M (fun j i => if nth i l 0 =? j then Some v else None).
Proof.
  intro F. rewrite Forall_forall in F.
  destruct (build_distinct (lil_new K (length l)) (map (fun i => (nth i l 0, i, v)) (seq 0 (length l))) (lil_new_wf _ _))
    as (M & E & W & R & C & G).
  { apply Forall_forall. intros [[j i] x] H. apply in_map_iff in H. destruct H as (k & H & Hk). injection H as <- <- _.
    apply in_seq in Hk. simpl. split; [|lia]. apply F, nth_In. lia. }
  exists M. split; [auto|]. split; [auto|split; [auto|split; [auto|]]]. intros j i Hj Hi. rewrite G, mget_new.
  assert (Q : forall n b, b <= i < b + n ->
    filter (fun '(i', j', _) => (i' =? j) && (j' =? i)) (map (fun i => (nth i l 0, i, v)) (seq b n)) =
    if nth i l 0 =? j then [(j, i, v)] else []).
  { assert (Z : forall n b, i < b -> filter (fun '(i', j', _) => (i' =? j) && (j' =? i)) (map (fun i => (nth i l 0, i, v)) (seq b n)) = []).
    { induction n; intros b Hb; auto. simpl. rewrite (proj2 (Nat.eqb_neq b i)) by lia. rewrite andb_false_r. apply IHn. lia. }
    induction n; intros b Hb; [lia|]. simpl. destruct (Nat.eqb_spec b i) as [->|Nb].
    - rewrite Z by lia. destruct (Nat.eqb_spec (nth i l 0) j) as [->|]; auto.
    - rewrite andb_false_r. apply IHn. lia. }
  rewrite Q by lia. destruct (nth i l 0 =? j); reflexivity.
Qed.
