(** Programs on a store: aliasing, well-formedness, absence of out-of-range accesses. *)
From Coq Require Import Lia.
From Verif Require Import Base ModelLil ModelVec ModelHelpers ModelViews ModelMul ModelElem
  ModelIndex ModelCalls ModelMachine.
From Verif Require Import Spec SpecOps SpecIndex SpecCalls SpecMachine.
From Verif Require Import ProofBase ProofRow ProofLil ProofVec ProofWrite ProofViews ProofMul
  ProofMask ProofElem ProofReduce ProofKron ProofCalls ProofIndex ProofAssign ProofAssignRC
  ProofIndexMore.

Section M.
Context {T : Type}.
Implicit Types (C : lil T) (w : wargs T).

(** ** The functions are the phases, then the write *)
Lemma mop_fun_Z w m C o :
  mop_fun w m C o =
  (Z <- mopZ w m C o ;; write_with_opt_mask (w_truthy w) (w_zc w) C Z m (w_outp w)).
Proof.
  destruct o; cbn [mop_fun mopZ];
    unfold mxm, eWiseMult, eWiseAdd, apply, transpose, kronecker, extract_m, assign_m,
      assign_const_m, accum_write, transpose_backend; cbv zeta;
    repeat match goal with
    | |- bind ?x _ = bind (bind ?x _) _ => destruct x; cbn [bind]; try reflexivity
    end.
  destruct A; unfold accum_write; cbn [bind]; auto.
  destruct (transpose_T M); reflexivity.
Qed.

(** ** Writing in place *)
Lemma upd_upd {X} (l : list X) k x y : upd (upd l k x) k y = upd l k y.
Proof. revert k. induction l as [|a l IH]; intros [|k]; simpl; auto. rewrite IH. auto. Qed.

Lemma upd_self {X} (l : list X) k x : nth_error l k = Some x -> upd l k x = l.
Proof.
  revert k. induction l as [|a l IH]; intros [|k] H; simpl in *; try discriminate.
  - congruence.
  - rewrite IH; auto.
Qed.

Lemma nth_error_upd_neq {X} (l : list X) k j x : k <> j -> nth_error (upd l k x) j = nth_error l j.
Proof.
  revert k j. induction l as [|a l IH]; intros [|k] [|j] H; simpl; auto; try lia.
Qed.

Lemma nth_error_upd_eq {X} (l : list X) k x y : nth_error l k = Some y -> nth_error (upd l k x) k = Some x.
Proof.
  revert k. induction l as [|a l IH]; intros [|k] H; simpl in *; try discriminate; auto.
Qed.

Lemma vat_upd {X} (l : list X) k x y : nth_error l k = Some y -> vat (upd l k x) k = Ok x.
Proof. intro H. unfold vat. rewrite (nth_error_upd_eq _ _ _ _ H). reflexivity. Qed.

Lemma getrow_same {A} (M N : lil A) i : nth_error (data M) i = nth_error (data N) i ->
  getrow M i = getrow N i.
Proof. unfold getrow, vat. intros ->. reflexivity. Qed.

(** A loop over the rows of matrix [c] of the store follows the loop on a separate copy, as
    long as the bodies agree on states whose remaining rows are those of [C]. *)
Definition later (i : nat) (C C' : lil T) : Prop :=
  nrows C' = nrows C /\ ncols C' = ncols C /\
  forall k, i <= k -> nth_error (data C') k = nth_error (data C) k.

Lemma hfor_mfor ms c C body (hbody : nat -> list (lil T) -> res (lil T)) n :
  (forall i C', later i C C' -> hbody i (upd ms c C') = body i C') ->
  (forall i C' C'', later i C C' -> body i C' = Ok C'' -> later (S i) C C'') ->
  forall i C0 C1, later i C C0 -> mfor (seq i n) body C0 = Ok C1 ->
  hfor (seq i n) (fun i ms' => poke ms' c (hbody i ms')) (upd ms c C0) = (upd ms c C1, Ok tt).
Proof.
  intros Hb Hl. induction n as [|n IH]; intros i C0 C1 L E; simpl in *.
  - inversion E; subst. auto.
  - destruct (body i C0) as [C'| |] eqn:B; try discriminate. cbn [bind] in E.
    unfold poke at 1. rewrite Hb by auto. rewrite B, upd_upd.
    apply IH; auto. eapply Hl; eauto.
Qed.

Lemma later_setRow i C C' (r : row T) C'' :
  later i C C' -> setRow (fun x => x) C' i r = Ok C'' -> later (S i) C C''.
Proof.
  intros (R & K & G) E. unfold setRow in E.
  destruct (getrow C' i) as [old| |]; try discriminate. cbn [bind] in E.
  unfold vset in E.
  destruct (Nat.ltb_spec i (length (data C'))); try discriminate. cbn [bind] in E.
  inversion E; subst. split; [auto|]. split; [auto|]. simpl. intros k Hk.
  rewrite nth_error_upd_neq by lia. apply G. lia.
Qed.

Lemma later_S i C C' : later i C C' -> later (S i) C C'.
Proof. intros (R & K & G). split; [auto|]. split; [auto|]. intros; apply G; lia. Qed.

Lemma later_refl i C : later i C C.
Proof. repeat split; auto. Qed.

Lemma mask_row_later (truthy : T -> bool) ms c C C' m m' i :
  nth_error ms c = Some C -> mask_look ms m = Some m' -> later i C C' ->
  exists m'', mask_look (upd ms c C') m = Some m'' /\
    mask_row truthy m'' i = mask_row truthy m' i.
Proof.
  intros Hc Hm (R & K & G).
  assert (Q : forall k M, nth_error ms k = Some M -> exists M', nth_error (upd ms c C') k = Some M' /\
    ncols M' = ncols M /\ getrow M' i = getrow M i).
  { intros k M HM. destruct (Nat.eq_dec c k) as [<-|N].
    - exists C'. rewrite (nth_error_upd_eq _ _ _ _ Hc). split; [auto|].
      assert (M = C) by congruence. subst M. split; [auto|]. apply getrow_same. apply G. lia.
    - exists M. rewrite nth_error_upd_neq by auto. auto. }
  destruct m as [|k|k|k|k]; simpl in *; try (inversion Hm; subst; eexists; split; reflexivity);
    (destruct (nth_error ms k) as [M|] eqn:HM; [|discriminate]; inversion Hm; subst;
     destruct (Q k M HM) as (M' & HM' & KM & GM); rewrite HM'; eexists; split; [reflexivity|];
     simpl; rewrite GM; try rewrite KM; reflexivity).
Qed.

Lemma hwrite_ok w ms c C Z m m' C' :
  nth_error ms c = Some C -> mask_look ms m = Some m' ->
  write_with_opt_mask (w_truthy w) (w_zc w) C Z m' (w_outp w) = Ok C' ->
  hwrite w ms c Z m = (upd ms c C', Ok tt).
Proof.
  intros Hc Hm E.
  unfold hwrite. rewrite Hc.
  assert (Q : m = NoMask \/ m <> NoMask) by (destruct m; auto; right; discriminate).
  destruct Q as [->|N].
  - simpl in Hm. inversion Hm; subst. cbn [write_with_opt_mask] in E. unfold sparse_copy in E.
    eapply (hfor_mfor ms c (lil_clear C) _ (fun i ms' =>
               C' <- vat ms' c ;;
                r <- getrow Z i ;;
                match r with
                | [] => Ok C'
                | _ => setRow (fun x => x) C' i (cast_row (w_zc w) r)
                end)); [| |apply later_refl|exact E].
    + intros i C0 L. rewrite (vat_upd _ _ _ _ Hc). reflexivity.
    + intros i C0 C1 L X. cbn beta in X. destruct (getrow Z i) as [[|p r]| |]; cbn [bind] in X; try discriminate.
      * inversion X; subst. apply later_S; auto.
      * eapply later_setRow; eauto.
  - assert (E' : mfor (seq 0 (nrows C))
        (fun i C' =>
           c <- getrow C' i ;;
           z <- getrow Z i ;;
           mr <- mask_row (w_truthy w) m' i ;;
           setRow (fun x => x) C' i (apply_with_mask (w_zc w) (w_outp w) c z mr)) C = Ok C').
    { destruct m; [congruence| | | |]; simpl in Hm; destruct (nth_error ms m); try discriminate;
        inversion Hm; subst; exact E. }
    clear E.
    assert (G : hfor (seq 0 (nrows C))
            (fun i ms' => poke ms' c
               (C' <- vat ms' c ;;
                c_row <- getrow C' i ;;
                z_row <- getrow Z i ;;
                m_row <- match mask_look ms' m with
                         | Some m' => mask_row (w_truthy w) m' i
                         | None => UB
                         end ;;
                setRow (fun x => x) C' i (apply_with_mask (w_zc w) (w_outp w) c_row z_row m_row)))
            (upd ms c C) = (upd ms c C', Ok tt)).
    2: { rewrite (upd_self ms c C Hc) in G. destruct m; [congruence| | | |]; exact G. }
    eapply (hfor_mfor ms c C _ (fun i ms' =>
               C' <- vat ms' c ;;
                c_row <- getrow C' i ;;
                z_row <- getrow Z i ;;
                m_row <- match mask_look ms' m with
                         | Some m' => mask_row (w_truthy w) m' i
                         | None => UB
                         end ;;
                setRow (fun x => x) C' i (apply_with_mask (w_zc w) (w_outp w) c_row z_row m_row)));
      [| |apply later_refl|exact E'].
    + intros i C0 L. rewrite (vat_upd _ _ _ _ Hc). cbn [bind].
      destruct (mask_row_later (w_truthy w) ms c C C0 m m' i Hc Hm L) as (m'' & -> & ->). reflexivity.
    + intros i C0 C1 L X. cbn beta in X. destruct (getrow C0 i); cbn [bind] in X; try discriminate.
      destruct (getrow Z i); cbn [bind] in X; try discriminate.
      destruct (mask_row _ m' i); cbn [bind] in X; try discriminate. eapply later_setRow; eauto.
Qed.

(** ** Conforming operations succeed *)
Definition mop_views {V} (o : mop T V) : list V :=
  match o with
  | OMxm _ _ _ _ _ A B => [A; B]
  | OEwiseMult _ _ _ A B => [A; B]
  | OEwiseAdd _ _ _ _ _ _ A B => [A; B]
  | OApply _ A => [A]
  | OTranspose A => [A]
  | OKron _ A B => [A; B]
  | OExtract A _ _ => [A]
  | OAssign A _ _ => [A]
  | OAssignC _ _ _ => []
  end.
Definition vop_views {V U} (o : vop T V U) : list V :=
  match o with
  | OMxv _ _ _ A _ => [A]
  | OVxm _ _ _ A => [A]
  | OReduce _ _ _ A => [A]
  | OExtractCol A _ _ => [A]
  | _ => []
  end.
Definition vop_vecs {V U} (o : vop T V U) : list U :=
  match o with
  | OMxv _ _ _ _ u => [u]
  | OVxm _ _ u _ => [u]
  | OEwiseMultV _ u v => [u; v]
  | OEwiseAddV _ _ _ u v => [u; v]
  | OApplyV _ u => [u]
  | OExtractV u _ => [u]
  | OAssignV u _ => [u]
  | _ => []
  end.
Definition rop_vec {U} (o : rop U) : U :=
  match o with OAssignCol u _ _ => u | OAssignRow u _ _ => u end.

Definition mgood C (r : res (lil T)) : Prop :=
  exists C', r = Ok C' /\ wfm C' /\ nrows C' = nrows C /\ ncols C' = ncols C.
Definition vgood (x : bvec T) (r : res (bvec T)) : Prop :=
  exists x', r = Ok x' /\ wfv x' /\ vsize x' = vsize x.

Lemma written_good {TT TZ TM} (truthy : TM -> bool) (zc : TZ -> T) (a : accum T TT TZ) m outp C S r :
  written truthy zc a m outp C S r -> mgood C r.
Proof. intros (C' & E & W & R & K & _). exists C'. auto. Qed.
Lemma assigned_good {TT TZ TM} cz' (truthy : TM -> bool) (zc : TZ -> T) (a : accum T TT TZ) m outp C g S r :
  assigned cz' truthy zc a m outp C g S r -> mgood C r.
Proof. intros (C' & E & W & R & K & _). exists C'. auto. Qed.
Lemma vwritten_good {TT TZ TM} (truthy : TM -> bool) (zc : TZ -> T) (a : accum T TT TZ) m outp x s r :
  vwritten truthy zc a m outp x s r -> vgood x r.
Proof. intros (C' & E & W & R & _). exists C'. auto. Qed.
Lemma vassigned_good {TT TZ TM} cz' (truthy : TM -> bool) (zc : TZ -> T) (a : accum T TT TZ) m outp x g s r :
  vassigned cz' truthy zc a m outp x g s r -> vgood x r.
Proof. intros (C' & E & W & R & _). exists C'. auto. Qed.

Lemma wfv_n (u : bvec T) : wfv u -> wfvn u.
Proof.
  intros [W N]. split; auto. intros Z i. rewrite Z in N.
  assert (Q : vcount (vsize u) (vget u) = 0) by lia. unfold vcount in Q.
  destruct (lt_dec i (vsize u)) as [Hi|Hi]; [|apply vget_oob; auto; lia].
  destruct (vget u i) eqn:G; auto. exfalso.
  assert (In i (filter (fun i => is_some (vget u i)) (seq 0 (vsize u)))).
  { apply filter_In. rewrite G. split; auto. apply in_seq. lia. }
  destruct (filter _ _); [contradiction|discriminate].
Qed.

Lemma mop_good w m C o :
  wfm C -> Forall wfview (mop_views o) -> wfmask m -> mop_pre C o -> mop_shape m C o -> mop_inrange C o ->
  mgood C (mop_fun w m C o).
Proof.
  intros WC WV Wm P [Fm F] I. destruct o; cbn [mop_fun mop_views mop_pre mop_inrange] in *;
    repeat match goal with H : Forall _ (_ :: _) |- _ => inversion H; subst; clear H end.
  - destruct A as [A|A], B as [B|B].
    4: { destruct F as (R & K & E). unfold mxm.
      destruct (check_mask_ok m _ _ Fm) as [-> ->]. cbn [bind].
      rewrite !check_eq_ok by auto. cbn [bind]. simpl in *.
      destruct (mxm_ATBT_ok add mult multS tc ct A B) as (X & EX & WX & GX); auto.
      rewrite R, K, EX. cbn [bind]. rewrite <- R, <- K in WX.
      eapply written_good. apply accum_write_ok; auto. }
    all: destruct F as (R & K & E); eapply written_good; apply mxm_ok; auto.
  - eapply written_good. apply eWiseMult_ok; auto; split; auto.
  - eapply written_good. apply eWiseAdd_ok; auto; split; auto.
  - eapply written_good. apply apply_ok; auto; split; auto.
  - eapply written_good. apply transpose_ok; auto; split; auto.
  - eapply written_good. destruct P, F as (R & K).
    apply kronecker_ok; auto; [split; auto|rewrite R|rewrite K]; rewrite Nat2Z.inj_mul; auto.
  - eapply written_good. apply extract_m_ok; auto. unfold extract_conforms. tauto.
  - eapply assigned_good. apply assign_m_ok; auto; unfold assign_conforms; tauto.
  - eapply assigned_good. apply assign_const_m_ok; auto; unfold mcassign_conforms; tauto.
Qed.

Lemma reduce_good w m (x : bvec T) (c1 : T -> T) (op01 op : T -> T -> T) A :
  wfv0 x -> wfview A -> wfvmask m -> reduce_conforms m x A ->
  vgood x (reduce c1 op01 op (w_truthy w) (w_zc w) (w_acc w) m (w_outp w) x A).
Proof.
  intros Wx WA Wm F. destruct A as [A|A].
  - destruct F as [Fm R]. unfold reduce. rewrite (check_mask_size_ok m _ Fm). cbn [bind].
    rewrite !check_eq_ok by auto. cbn [bind]. simpl in *.
    destruct (has_vals (nvals A)).
    + erewrite (append_loop (fun i => reduction c1 op01 op (fun x => x) (nth i (data A) []))).
      * cbn [bind]. eapply vwritten_good. apply accum_write_1D_ok; auto.
        rewrite R. apply genrow_wf0.
      * intros i t Hi. rewrite getrow_ok by (rewrite (wfm_len A WA); auto). cbn [bind].
        destruct (reduction _ _ _ _ _); simpl; auto. rewrite app_nil_r. auto.
    + cbn [bind]. eapply vwritten_good. apply accum_write_1D_ok; auto. exact I.
  - eapply vwritten_good.
    apply (reduce_ok c1 (fun x y => op (c1 x) y) op (w_truthy w) (w_zc w) (w_acc w) m (w_outp w) x (Trn A));
      auto.
Qed.

Lemma vop_good w m x o :
  wfv0 x -> Forall wfview (vop_views o) -> Forall wfv (vop_vecs o) -> wfvmask m ->
  vop_pre x o -> vop_shape m x o -> vop_single o -> vop_inrange x o -> vgood x (vop_fun w m x o).
Proof.
  intros Wx WV WU Wm P [Fm F] G I.
  destruct o; cbn [vop_fun vop_views vop_vecs vop_pre vop_single vop_inrange] in *;
    repeat match goal with H : Forall _ (_ :: _) |- _ => inversion H; subst; clear H end;
    repeat match goal with H : wfv ?u |- _ =>
      pose proof (wfv_n u H); destruct H as [? _] end.
  - destruct F as (R & K). destruct A as [A|A].
    + eapply vwritten_good. apply mxv_ok; auto.
    + unfold mxv. rewrite check_mask_size_ok by auto. cbn [bind].
      rewrite !check_eq_ok by auto. cbn [bind]. simpl in *.
      destruct (axpy_rows_ok add multS A u) as (t & Et & Wt & Gt); auto.
      rewrite Et. cbn [bind]. rewrite <- R in Wt. eapply vwritten_good. apply accum_write_1D_ok; auto.
  - destruct F as (R & K). eapply vwritten_good. apply vxm_ok; auto.
  - eapply vwritten_good. apply eWiseMult_v_ok; auto; split; auto.
  - eapply vwritten_good. apply eWiseAdd_v_ok; auto; split; auto.
  - eapply vwritten_good. apply apply_v_ok; auto; split; auto.
  - apply reduce_good; auto; split; auto.
  - eapply vwritten_good. apply extract_v_ok; auto; unfold vextract_conforms; tauto.
  - eapply vwritten_good. apply extract_col_ok; auto; unfold cextract_conforms; tauto.
  - eapply vassigned_good. apply assign_v_ok; auto; unfold vassign_conforms; tauto.
  - eapply vassigned_good. apply assign_const_v_ok; auto; unfold vcassign_conforms; tauto.
Qed.

Lemma rop_good dflt w m C o :
  wfm C -> wfv (rop_vec o) -> wfvmask m -> rop_pre C o ->
  rop_shape m C o -> rop_single C o -> rop_inrange C o ->
  mgood C (rop_fun dflt w m C o).
Proof.
  intros WC [WU _] Wm P F G I.
  destruct o; cbn [rop_fun rop_vec rop_pre rop_shape rop_single rop_inrange] in *.
  - destruct P as (N & Fw & D & Fi).
    destruct (assign_col_ok (w_truthy w) dflt (w_cz w) (w_zc w) (w_acc w) m (w_outp w) C u rs col)
      as (C' & E & W & R & K & _); auto; [unfold cassign_conforms, rassign_conforms; tauto|]. exists C'. auto.
  - destruct P as (N & Fw & D & Fi).
    destruct (assign_row_ok (w_truthy w) dflt (w_cz w) (w_zc w) (w_acc w) m (w_outp w) C u row cs)
      as (C' & E & W & R & K & _); auto; [unfold cassign_conforms, rassign_conforms; tauto|]. exists C'. auto.
Qed.

(** ** The others throw *)
Lemma mop_throws_dim w m C o :
  mop_pre C o -> ~ mop_shape m C o -> mopZ w m C o = Throw DimensionException.
Proof.
  intros P H. unfold mop_shape in H. destruct o; cbn [mopZ mop_pre] in *.
  - apply check_mask_bind. intro. apply check_bind. intro. apply check_bind. intro.
    apply check_bind. intro. exfalso. apply H. auto.
  - apply ewise_checks_throw. exact H.
  - apply ewise_checks_throw. exact H.
  - apply check_mask_bind'. intro. apply check_bind. intro. apply check_bind. intro.
    exfalso. apply H. auto.
  - apply check_mask_bind. intro. apply check_bind. intro. apply check_bind. intro.
    exfalso. apply H. auto.
  - destruct P as [HR HK]. apply check_mask_bind. intro F.
    unfold check_eq_prod. rewrite !Z.mod_small by lia. rewrite <- !Nat2Z.inj_mul.
    destruct (Z.eqb_spec (Z.of_nat (ncols C)) (Z.of_nat (vcols A * vcols B))) as [E1|]; [|reflexivity].
    cbn [negb throw_if bind].
    destruct (Z.eqb_spec (Z.of_nat (nrows C)) (Z.of_nat (vrows A * vrows B))) as [E2|]; [|reflexivity].
    exfalso. apply H. split; [auto|]. split; lia.
  - destruct P. apply check_mask_bind. intro. apply check_nindices_bind; auto. intro.
    apply check_nindices_bind; auto. tauto.
  - destruct P as (? & ? & _). apply check_mask_bind. intro. apply check_nindices_bind; auto. intro.
    apply check_nindices_bind; auto. tauto.
  - destruct P as (? & ? & _). apply check_mask_bind. intro. apply check_within_bind; auto. intro.
    apply check_within_bind; auto. tauto.
Qed.

Lemma content_bind {A} rs nr cs nc (k : unit -> res A) :
  idx_fwd rs -> idx_fwd cs ->
  ~ (idx_in rs nr /\ idx_in cs nc) ->
  bind (check_index_array_content rs nr) (fun _ => bind (check_index_array_content cs nc) k)
  = Throw IndexOutOfBoundsException.
Proof.
  intros Fr Fc H. destruct (idx_in_dec rs nr).
  - rewrite check_content_ok by auto. cbn [bind]. rewrite check_content_throw by tauto. reflexivity.
  - rewrite check_content_throw by auto. reflexivity.
Qed.

Lemma mop_throws_idx w m C o :
  mop_pre C o -> mop_shape m C o -> ~ mop_inrange C o ->
  mopZ w m C o = Throw IndexOutOfBoundsException.
Proof.
  intros P [Fm F] H. destruct o; cbn [mopZ mop_pre mop_inrange] in *; try tauto;
    destruct (check_mask_ok m _ _ Fm) as [-> ->]; cbn [bind].
  - rewrite !check_nindices_ok by tauto. cbn [bind]. apply content_bind; tauto.
  - rewrite !check_nindices_ok by tauto. cbn [bind]. apply content_bind; tauto.
  - rewrite !check_within_ok by tauto. cbn [bind]. apply content_bind; tauto.
Qed.

Lemma mop_shape_dec m C (o : mop T (mview T)) : {mop_shape m C o} + {~ mop_shape m C o}.
Proof.
  unfold mop_shape. destruct (mask_fits_dec m (nrows C) (ncols C)) as [F|F]; [|right; tauto].
  assert (AND : forall P Q : Prop, {P} + {~ P} -> {Q} + {~ Q} -> {P /\ Q} + {~ (P /\ Q)}) by tauto.
  destruct o; repeat apply AND; auto using Nat.eq_dec, idx_size_dec, idx_size_le_dec.
Qed.
Lemma mop_inrange_dec C (o : mop T (mview T)) : {mop_inrange C o} + {~ mop_inrange C o}.
Proof.
  assert (AND : forall P Q : Prop, {P} + {~ P} -> {Q} + {~ Q} -> {P /\ Q} + {~ (P /\ Q)}) by tauto.
  destruct o; simpl; auto; apply AND; apply idx_in_dec.
Qed.

Lemma vop_throws_dim w m x o :
  vop_pre x o -> ~ vop_shape m x o -> vop_fun w m x o = Throw DimensionException.
Proof.
  intros P H. unfold vop_shape in H. destruct o; cbn [vop_fun vop_pre] in *.
  - apply mxv_throws. exact H.
  - apply vxm_throws. exact H.
  - apply eWiseMult_v_throws. exact H.
  - apply eWiseAdd_v_throws. exact H.
  - apply apply_v_throws. exact H.
  - apply reduce_throws. exact H.
  - apply extract_v_errors; auto.
  - apply extract_col_errors; auto.
  - apply assign_v_errors; tauto.
  - apply assign_const_v_errors; tauto.
Qed.
Lemma vop_throws_single w m x o :
  vop_pre x o -> vop_shape m x o -> ~ vop_single o ->
  vop_fun w m x o = Throw InvalidIndexException.
Proof.
  intros P F H. destruct o; cbn [vop_fun vop_pre vop_single] in *; try tauto.
  destruct (extract_col_errors (w_truthy w) (w_zc w) (w_acc w) m (w_outp w) x A rs col P) as (_ & E & _).
  apply E; auto. lia.
Qed.
Lemma vop_throws_idx w m x o :
  vop_pre x o -> vop_shape m x o -> vop_single o -> ~ vop_inrange x o ->
  vop_fun w m x o = Throw IndexOutOfBoundsException.
Proof.
  intros P F G H. destruct o; cbn [vop_fun vop_pre vop_single vop_inrange] in *; try tauto.
  - eapply extract_v_errors; auto.
  - eapply extract_col_errors; auto.
  - eapply assign_v_errors; auto. tauto.
  - eapply assign_const_v_errors; auto. tauto.
Qed.
Lemma vop_shape_dec m x (o : vop T (mview T) (bvec T)) : {vop_shape m x o} + {~ vop_shape m x o}.
Proof.
  unfold vop_shape. destruct (vmask_fits_dec m (vsize x)) as [F|F]; [|right; tauto].
  assert (AND : forall P Q : Prop, {P} + {~ P} -> {Q} + {~ Q} -> {P /\ Q} + {~ (P /\ Q)}) by tauto.
  destruct o; repeat apply AND; auto using Nat.eq_dec, idx_size_dec, idx_size_le_dec.
Qed.
Lemma vop_single_dec (o : vop T (mview T) (bvec T)) : {vop_single o} + {~ vop_single o}.
Proof. destruct o; simpl; auto. apply lt_dec. Qed.
Lemma vop_inrange_dec x (o : vop T (mview T) (bvec T)) : {vop_inrange x o} + {~ vop_inrange x o}.
Proof. destruct o; simpl; auto; apply idx_in_dec. Qed.

Lemma rop_throws_dim dflt w m C o :
  rop_pre C o -> ~ rop_shape m C o -> rop_fun dflt w m C o = Throw DimensionException.
Proof.
  intros P H. destruct o; cbn [rop_fun rop_pre rop_shape] in *.
  - apply assign_col_errors; tauto.
  - apply assign_row_errors; tauto.
Qed.
Lemma rop_throws_single dflt w m C o :
  rop_pre C o -> rop_shape m C o -> ~ rop_single C o ->
  rop_fun dflt w m C o = Throw InvalidIndexException.
Proof.
  intros P F H. destruct o; cbn [rop_fun rop_pre rop_shape rop_single] in *.
  - apply assign_col_errors; try tauto. lia.
  - apply assign_row_errors; try tauto. lia.
Qed.
Lemma rop_throws_idx dflt w m C o :
  rop_pre C o -> rop_shape m C o -> rop_single C o -> ~ rop_inrange C o ->
  rop_fun dflt w m C o = Throw IndexOutOfBoundsException.
Proof.
  intros P F G H. destruct o; cbn [rop_fun rop_pre rop_shape rop_single rop_inrange] in *.
  - apply assign_col_errors; tauto.
  - apply assign_row_errors; tauto.
Qed.
Lemma rop_shape_dec m (C : lil T) o : {rop_shape m C o} + {~ rop_shape m C o}.
Proof.
  assert (AND : forall P Q : Prop, {P} + {~ P} -> {Q} + {~ Q} -> {P /\ Q} + {~ (P /\ Q)}) by tauto.
  destruct o; simpl; apply AND; auto using vmask_fits_dec, idx_size_dec.
Qed.
Lemma rop_single_dec (C : lil T) o : {rop_single C o} + {~ rop_single C o}.
Proof. destruct o; simpl; apply lt_dec. Qed.
Lemma rop_inrange_dec (C : lil T) o : {rop_inrange C o} + {~ rop_inrange C o}.
Proof. destruct o; simpl; apply idx_in_dec. Qed.
End M.
