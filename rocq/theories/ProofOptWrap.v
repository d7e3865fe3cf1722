(** The optimized products: temporaries, transposed left operands, short circuits. *)
From Coq Require Import Lia.
From Verif Require Import Base ModelLil ModelVec ModelHelpers ModelViews ModelMul ModelOptMxm Spec SpecOps.
From Verif Require Import ProofBase ProofRow ProofLil ProofVec ProofCalls ProofContainers ProofWrite ProofViews ProofMul.
From Verif Require Import ProofOptRow ProofOptMxm ProofOptKernel.

(** [r] returns rows with the contents of [f]. *)
Definition rgives {T} (nr nc : nat) (f : smat T) (r : res (lil T)) : Prop :=
  exists M, r = Ok M /\ length (data M) = nr /\ forall i, i < nr -> gives nc (f i) (nth i (data M) []).

Lemma tgives_rgives {T} nr nc (f : smat T) r : tgives nr nc f r -> rgives nr nc f r.
Proof.
  intros (M & E & W & G). exists M. split; [auto|]. split; [apply W|].
  intros i Hi. split; [eapply wfrows_nth; eauto|]. intros j Hj. apply (G i j); auto.
Qed.

Lemma mgives_rgives {T} (C : lil T) (f : smat T) r :
  mgives C f r -> rgives (nrows C) (ncols C) f r.
Proof.
  intros (M & E & W & R & K & G). exists M. split; [auto|].
  split; [rewrite (wfm_len M W); auto|]. intros i Hi. split.
  - rewrite <- K. apply wfm_row; auto.
  - intros j Hj. apply (G i j); auto.
Qed.

Lemma rgives_ext {T} nr nc (f g : smat T) r :
  rgives nr nc f r -> (forall i j, i < nr -> j < nc -> f i j = g i j) -> rgives nr nc g r.
Proof.
  intros (M & E & L & G) H. exists M. split; [auto|]. split; [auto|]. intros i Hi.
  eapply gives_ext; eauto.
Qed.

Lemma mgives_self {T} (C : lil T) (f : smat T) :
  wfm C -> (forall i j, i < nrows C -> j < ncols C -> f i j = mget C i j) -> mgives C f (Ok C).
Proof.
  intros W H. exists C. split; [auto|]. split; [auto|]. split; [auto|]. split; [auto|].
  intros. rewrite H; auto.
Qed.

Lemma mgives_clear {T} (C : lil T) (f : smat T) :
  wfm C -> (forall i j, i < nrows C -> j < ncols C -> f i j = None) -> mgives C f (Ok (lil_clear C)).
Proof.
  intros W H. rewrite lil_clear_eq by (apply wfm_len; auto).
  exists (lil_new (nrows C) (ncols C)). split; [auto|]. split; [apply lil_new_wf|].
  split; [auto|]. split; [auto|]. intros. rewrite mget_new, H; auto.
Qed.

(** ** Second loops *)
Section Fin.
Context {TC TT TM TZ : Type} (truthy : TM -> bool) (tc : TT -> TC) (zc : TZ -> TC).
Context (C : lil TC) (M : obj TC TM) (T : smat TT).
Hypothesis WC : wfm C.

Lemma set_rows_ok {TX} (to : TX -> TC) (X : smat TX) r :
  rgives (nrows C) (ncols C) X r ->
  mgives C (fun i j => option_map to (X i j)) (t <- r ;; set_rows to C t).
Proof.
  intros (D & -> & L & G). cbn [bind]. unfold set_rows. apply loop_gives; auto.
  intros i C' R. pose proof (at_row_lt _ _ _ R).
  rewrite getrow_ok by lia. cbn [bind]. apply fin_set; auto. eapply at_row_len; eauto.
Qed.

Lemma merge_T_ok (f : TC -> TT -> TZ) r :
  rgives (nrows C) (ncols C) T r ->
  mgives C (accum_result tc zc f C T) (t <- r ;; merge_T tc zc f C t).
Proof.
  intros (D & -> & L & G). cbn [bind]. unfold merge_T. apply loop_gives; auto.
  intros i C' R. pose proof (at_row_lt _ _ _ R).
  rewrite getrow_ok by lia. cbn [bind]. apply fin_mergeRow_at; auto.
Qed.

Lemma merge_tmp_ok (ct : TC -> TT) (f : TC -> TT -> TZ) r :
  (forall t, ct (tc t) = t) ->
  rgives (nrows C) (ncols C) (fun i j => option_map tc (T i j)) r ->
  mgives C (accum_result tc zc f C T) (t <- r ;; merge_tmp ct zc f C t).
Proof.
  intros Hc (D & -> & L & G). cbn [bind]. unfold merge_tmp. apply loop_gives; auto.
  intros i C' R. pose proof (at_row_lt _ _ _ R).
  rewrite getrow_ok by lia. cbn [bind].
  eapply setgives_ext.
  - apply fin_mergeRow; [eapply at_row_len; eauto|apply at_row_wf; eauto|apply G; auto].
  - intros j Hj. simpl. rewrite (at_row_eq _ _ _ R). unfold accum_result, mget.
    destruct (rget (nth i (data C) []) j), (T i j); simpl; auto. rewrite Hc; auto.
Qed.

Hypothesis WM : wfm (now C M).
Hypothesis RM : nrows (now C M) = nrows C.
Hypothesis CM : ncols (now C M) = ncols C.
Context (sf cf : bool).

(** The part of the product the mask allows. *)
Definition Tal {TX} (X : smat TX) : smat TX :=
  fun i => within (allow truthy sf cf (nth i (data (now C M)) [])) (X i).

Lemma finish_tmp_ok outp r :
  mgives (lil_new (nrows C) (ncols C)) (Tal (fun i j => option_map tc (T i j))) r ->
  mgives C (masked_result truthy tc C M sf cf outp T)
    (Ctmp <- r ;; finish_tmp truthy sf cf outp C M Ctmp).
Proof.
  intro H. pose proof (mgives_rgives _ _ _ H) as (D & E & L & G).
  destruct H as (D' & E' & W & R' & K & G'). assert (D' = D) by congruence. subst D'.
  simpl in R', K, L, G, G'. rewrite E. cbn [bind]. unfold finish_tmp. destruct outp.
  - apply loop_gives; auto. intros i C' R. pose proof (at_row_lt _ _ _ R).
    rows. rewrite (getrow_ok C') by (eapply at_row_len; eauto). cbn [bind].
    rewrite (getrow_ok D) by lia. cbn [bind].
    pose proof (fin_outp_at truthy (fun x => x) C M WC WM CM false sf cf MERGE i C'
      (fun j => option_map tc (T i j)) (nth i (data D) []) R (G i H)) as Q.
    rewrite (getrow_ok C') in Q by (eapply at_row_len; eauto). cbn [bind] in Q.
    eapply setgives_ext; [apply Q; [discriminate|auto]|].
    intros j Hj. unfold masked_result, spec_write. destruct (allow _ _ _ _ _); auto.
    destruct (T i j); reflexivity.
  - destruct (swap_partial C D WC W) as (D2 & E2 & _); auto.
    rewrite E2. simpl. exists D. split; [auto|]. split; [auto|]. split; [auto|]. split; [auto|].
    intros i j Hi Hj. rewrite G' by auto. unfold Tal, within, masked_result, spec_write.
    destruct (allow _ _ _ _ _); reflexivity.
Qed.

Lemma finish_accum_ok (f : TC -> TT -> TZ) cz tz outp (rep : row TM -> bool) r :
  (forall rm, rep rm = true -> outp = REPLACE \/ forall j, allow truthy sf cf rm j = true) ->
  (forall rm, rep rm = false -> outp = MERGE) ->
  rgives (nrows C) (ncols C) (Tal T) r ->
  mgives C (masked_accum_result truthy zc f cz tz C M sf cf outp T)
    (t <- r ;; finish_accum truthy zc f cz tz sf cf rep C M t).
Proof.
  intros H1 H2 (D & -> & L & G). cbn [bind]. unfold finish_accum. apply loop_gives; auto.
  intros i C' R. pose proof (at_row_lt _ _ _ R). rows.
  rewrite (getrow_ok D) by lia. cbn [bind]. apply fin_accum_at; [auto|auto|auto|auto|apply G; auto|apply H1|apply H2].
Qed.

Lemma finish_T_ok outp (rep : row TM -> bool) r :
  (forall rm, rep rm = true -> outp = REPLACE \/ forall j, allow truthy sf cf rm j = true) ->
  (forall rm, rep rm = false -> outp = MERGE) ->
  rgives (nrows C) (ncols C) (Tal T) r ->
  mgives C (masked_result truthy tc C M sf cf outp T)
    (t <- r ;; finish_T truthy tc sf cf rep C M t).
Proof.
  intros H1 H2 (D & -> & L & G). cbn [bind]. unfold finish_T. apply loop_gives; auto.
  intros i C' R. pose proof (at_row_lt _ _ _ R). rows.
  rewrite (getrow_ok D) by lia. cbn [bind]. apply fin_outp_at; [auto|auto|auto|auto|apply G; auto|apply H1|apply H2].
Qed.

Lemma finish_ATBT_ok outp r :
  rgives (nrows C) (ncols C) T r ->
  mgives C (masked_result truthy tc C M sf cf outp T)
    (t <- r ;; finish_ATBT truthy tc sf cf outp C M t).
Proof.
  intros (D & -> & L & G). cbn [bind]. unfold finish_ATBT. apply loop_gives; auto.
  intros i C' R. pose proof (at_row_lt _ _ _ R). rows.
  rewrite (getrow_ok D) by lia. cbn [bind]. rewrite match_outp.
  eapply setgives_ext.
  - apply (fin_outp_at truthy (fun x => x) C M WC WM CM (is_replace outp) sf cf outp i C'
      (fun j => option_map tc (T i j))); auto using is_replace_false.
    + apply gives_mask_row; auto. rewrite <- CM. apply wfm_row; auto.
    + left. apply is_replace_true; auto.
  - intros j Hj. unfold masked_result, spec_write. destruct (allow _ _ _ _ _); auto.
    destruct (T i j); reflexivity.
Qed.

Lemma finish_accum_ATBT_ok (f : TC -> TT -> TZ) cz tz outp r :
  rgives (nrows C) (ncols C) T r ->
  mgives C (masked_accum_result truthy zc f cz tz C M sf cf outp T)
    (t <- r ;; finish_accum_ATBT truthy zc f cz tz sf cf outp C M t).
Proof.
  intros (D & -> & L & G). cbn [bind]. unfold finish_accum_ATBT. apply loop_gives; auto.
  intros i C' R. pose proof (at_row_lt _ _ _ R). rows.
  rewrite (getrow_ok D) by lia. cbn [bind].
  apply fin_accum_at; auto using is_replace_false.
  - eapply gives_ext; [apply gives_mask_row; auto|].
    + rewrite <- CM. apply wfm_row; auto.
    + intros j Hj. unfold within. destruct (allow _ _ _ _ _); auto.
      destruct (T i j); reflexivity.
  - left. apply is_replace_true; auto.
Qed.
End Fin.

(** ** A' * B *)

(** As [scatter_loop]; the update may depend on the index. *)
Lemma scatter_loop_i {X T} (step : nat -> X -> row T -> row T) (body : nat * X -> lil T -> res (lil T)) r :
  forall lo (M : lil T),
  wfrow lo (length (data M)) r ->
  (forall p M', In p r -> length (data M') = length (data M) ->
     body p M' = Ok (setraw M' (fst p) (step (fst p) (snd p) (nth (fst p) (data M') [])))) ->
  exists M', mfor r body M = Ok M' /\ length (data M') = length (data M) /\
    forall i, nth i (data M') [] =
      match rget r i with Some a => step i a (nth i (data M) []) | None => nth i (data M) [] end.
Proof.
  induction r as [|[k a] r IH]; intros lo M W Hb; simpl.
  - exists M. auto.
  - destruct W as [Hk W]. rewrite Hb by (auto; left; auto). cbn [bind fst snd].
    set (M1 := setraw M k (step k a (nth k (data M) []))).
    assert (L1 : length (data M1) = length (data M)) by apply setraw_len.
    destruct (IH (S k) M1) as (M' & E & L & G).
    + rewrite L1; auto.
    + intros p M' Hp L. apply Hb; [right; auto|lia].
    + exists M'. split; [auto|]. split; [lia|]. intro i. rewrite G. unfold M1 at 1 2; simpl.
      rewrite nth_upd by lia. ltb; subst; auto.
      rewrite (rget_lt r (S k) (length (data M))) by (auto; lia). reflexivity.
Qed.

Section ATB.
Context {TA TB TT TM : Type} (add : TT -> TT -> TT) (mult : TA -> TB -> TT).

Lemma ATB_kernel_ok (step : nat -> TA -> row TT -> row TB -> res (row TT))
    (flt : nat -> nat -> bool) (A : lil TA) (B : lil TB) :
  wfm A -> wfm B -> nrows A = nrows B ->
  (forall i a t rb, i < ncols A -> wfrow 0 (ncols B) rb ->
     step i a t rb = Ok (axpy add mult a t (filter (fun p => flt i (fst p)) rb))) ->
  tgives (ncols A) (ncols B)
    (fun i => within (flt i) (smul add mult (nrows A) (stran (mget A)) (mget B) i))
    (ATB_kernel step (lil_new (ncols A) (ncols B)) A B).
Proof.
  intros WA WB E Hs. unfold ATB_kernel.
  match goal with |- context [mfor _ ?b _] => set (body := b) end.
  set (term := fun k i j => omap2 mult (mget A k i) (if flt i j then mget B k j else None)).
  destruct (mfor_seq_inv (fun k (T : lil TT) => wfrows (ncols A) (ncols B) (data T) /\
     forall i j, i < ncols A -> mget T i j = osum add (map (fun k => term k i j) (seq 0 k)))
    body (nrows A) (lil_new (ncols A) (ncols B))) as (M & EM & W & G).
  - split; [exact (proj1 (lil_new_wf _ _))|]. intros. apply mget_new.
  - intros k T Hk [W G]. unfold body.
    assert (KA : wfrow 0 (ncols A) (nth k (data A) [])) by (apply wfm_row; auto).
    assert (KB : wfrow 0 (ncols B) (nth k (data B) [])) by (apply wfm_row; auto).
    assert (Step : forall i j, osum add (map (fun k => term k i j) (seq 0 (1 + k))) =
       oadd add (osum add (map (fun k => term k i j) (seq 0 k))) (term k i j)).
    { intros i j. unfold osum. change (1 + k) with (S k). rewrite seq_S, map_app, fold_left_app.
      reflexivity. }
    rewrite getrow_ok by (rewrite (wfm_len A WA); auto). cbn [bind].
    destruct (empty (nth k (data A) [])) eqn:Em.
    { exists T. split; auto. split; auto. intros i j Hi. rewrite Step, G by auto.
      apply empty_nil in Em.
      assert (N : mget A k i = None) by (unfold mget; rewrite Em; reflexivity).
      unfold term at 3. rewrite N. simpl. rewrite oadd_none_r. auto. }
    rewrite getrow_ok by (rewrite (wfm_len B WB); lia). cbn [bind].
    destruct (empty (nth k (data B) [])) eqn:Em'.
    { exists T. split; auto. split; auto. intros i j Hi. rewrite Step, G by auto.
      apply empty_nil in Em'.
      assert (N : mget B k j = None) by (unfold mget; rewrite Em'; reflexivity).
      unfold term at 3. rewrite N.
      destruct (mget A k i), (flt i j); simpl; rewrite oadd_none_r; auto. }
    destruct W as [L W].
    destruct (scatter_loop_i
      (fun i a t => axpy add mult a t (filter (fun p => flt i (fst p)) (nth k (data B) [])))
      (fun p T' => t <- getrow T' (fst p) ;;
         t' <- step (fst p) (snd p) t (nth k (data B) []) ;; putrow T' (fst p) t')
      (nth k (data A) []) 0 T) as (M1 & E1 & L1 & G1).
    + rewrite L. auto.
    + intros [i a] T' Hp L'. pose proof (wfrow_In _ _ _ _ _ KA Hp). cbn [fst snd].
      rewrite getrow_ok by lia. cbn [bind]. rewrite Hs by (auto; lia). cbn [bind].
      apply putrow_ok. lia.
    + exists M1. split; auto.
      assert (R : forall i, i < ncols A -> wfrow 0 (ncols B) (nth i (data M1) []) /\
        forall j, rget (nth i (data M1) []) j = oadd add (mget T i j) (term k i j)).
      { intros i Hi. rewrite G1.
        assert (Wi : wfrow 0 (ncols B) (nth i (data T) [])) by (apply (wfrows_nth (ncols A)); split; auto).
        unfold term. change (rget (nth k (data A) []) i) with (mget A k i).
        destruct (mget A k i) as [a|]; simpl.
        - destruct (axpy_spec add mult a _ (filter (fun p => flt i (fst p)) (nth k (data B) []))
            0 (ncols B) Wi) as [W2 G2]; [apply filter_wf; auto|].
          split; auto. intro j. rewrite G2.
          rewrite (filter_rget (flt i) _ 0 (ncols B)) by auto.
          unfold mget. destruct (flt i j); simpl; auto.
        - split; auto. intro j. rewrite oadd_none_r. reflexivity. }
      split.
      * split; [lia|]. apply Forall_of_nth with (d := []). intros i Hi. apply R. lia.
      * intros i j Hi. unfold mget at 1. rewrite (proj2 (R i Hi)), Step, G by auto. reflexivity.
  - exists M. split; auto. split; auto. intros i j Hi Hj. rewrite G by auto.
    unfold term. rewrite osum_within. reflexivity.
Qed.

Context (truthy : TM -> bool).
Definition TATB (A : lil TA) (B : lil TB) : smat TT :=
  smul add mult (nrows A) (stran (mget A)) (mget B).

Lemma ATB_NoMask_ok (A : lil TA) (B : lil TB) :
  wfm A -> wfm B -> nrows A = nrows B ->
  rgives (ncols A) (ncols B) (TATB A B)
    (ATB_NoMask_kernel add mult (lil_new (ncols A) (ncols B)) A B).
Proof.
  intros WA WB E. apply tgives_rgives. unfold ATB_NoMask_kernel.
  apply (ATB_kernel_ok _ (fun _ _ => true) A B WA WB E).
  intros. rewrite filter_true; auto.
Qed.

Lemma ATB_Mask_ok sf (A : lil TA) (B : lil TB) (M : lil TM) :
  wfm A -> wfm B -> wfm M -> nrows A = nrows B -> nrows M = ncols A -> ncols M = ncols B ->
  rgives (ncols A) (ncols B)
    (fun i => within (allow truthy sf false (nth i (data M) [])) (TATB A B i))
    (ATB_Mask_kernel add mult truthy sf (lil_new (ncols A) (ncols B)) M A B).
Proof.
  intros WA WB WM E R K. apply tgives_rgives. unfold ATB_Mask_kernel.
  apply (ATB_kernel_ok _ (fun i j => allow truthy sf false (nth i (data M) []) j) A B WA WB E).
  intros i a t rb Hi Wb. rewrite getrow_ok by (rewrite (wfm_len M WM); lia). cbn [bind].
  destruct (empty (nth i (data M) [])) eqn:Em.
  - apply empty_nil in Em. rewrite Em. rewrite filter_false; auto.
  - rewrite (masked_axpy_eq truthy sf false add mult a t _ rb (ncols B)); auto.
    rewrite <- K. apply wfm_row; auto.
Qed.

Lemma ATB_CompMask_ok sf (A : lil TA) (B : lil TB) (M : lil TM) :
  wfm A -> wfm B -> wfm M -> nrows A = nrows B -> nrows M = ncols A -> ncols M = ncols B ->
  rgives (ncols A) (ncols B)
    (fun i => within (allow truthy sf true (nth i (data M) [])) (TATB A B i))
    (ATB_CompMask_kernel add mult truthy sf (lil_new (ncols A) (ncols B)) M A B).
Proof.
  intros WA WB WM E R K. apply tgives_rgives. unfold ATB_CompMask_kernel.
  apply (ATB_kernel_ok _ (fun i j => allow truthy sf true (nth i (data M) []) j) A B WA WB E).
  intros i a t rb Hi Wb. rewrite getrow_ok by (rewrite (wfm_len M WM); lia). cbn [bind].
  rewrite (masked_axpy_eq truthy sf true add mult a t _ rb (ncols B)); auto.
  rewrite <- K. apply wfm_row; auto.
Qed.
End ATB.

(** ** A' * B' *)
Section ATBT.
Context {TA TB TT : Type} (add : TT -> TT -> TT) (multA : TA -> TA -> TT) (cb : TB -> TA).

(** The sums the kernel computes: the element of [B] is converted to [A]'s type. *)
Definition TATBT (A : lil TA) (B : lil TB) : smat TT :=
  fun i j => osum add (map (fun k => omap2 (fun x y => multA (cb y) x) (mget A k i) (mget B j k))
                         (seq 0 (nrows A))).

Lemma ATBT_row_ok (A : lil TA) rb :
  wfm A -> wfrow 0 (nrows A) rb ->
  exists t, ATBT_row add multA cb A rb = Ok t /\
    gives (ncols A)
      (fun j => osum add (map (fun k => omap2 (fun x y => multA (cb y) x) (mget A k j) (rget rb k))
                           (seq 0 (nrows A)))) t.
Proof.
  intros WA Wr. unfold ATBT_row.
  set (mul := fun b a => multA (cb b) a).
  rewrite (mfor_pure _ _ (fun t p => axpy add mul (snd p) t (nth (fst p) (data A) []))).
  - eexists. split; [reflexivity|].
    destruct (axpy_fold add mul rb (fun k => nth k (data A) []) (nrows A) (ncols A) []) as [W G]; auto.
    + intros; apply wfm_row; auto.
    + exact Logic.I.
    + split; [exact W|]. intros j Hj. rewrite G. simpl. unfold osum. f_equal. apply map_ext.
      intro k. apply omap2_swap. reflexivity.
  - intros [k b] t Hp. pose proof (wfrow_In _ _ _ _ _ Wr Hp). cbn [fst snd].
    rewrite getrow_ok by (rewrite (wfm_len A WA); lia). cbn [bind].
    destruct (empty (nth k (data A) [])) eqn:Em.
    + apply empty_nil in Em. rewrite Em. reflexivity.
    + rewrite !axpy_xpey. reflexivity.
Qed.

Lemma ATBT_fill_ok {TO} (to : TT -> TO) (A : lil TA) (B : lil TB) :
  wfm A -> wfm B -> nrows A = ncols B ->
  tgives (ncols A) (nrows B) (fun i j => option_map to (TATBT A B i j))
    (ATBT_fill add multA cb to (lil_new (ncols A) (nrows B)) A B).
Proof.
  intros WA WB E. unfold ATBT_fill.
  set (R := fun i => match ATBT_row add multA cb A (nth i (data B) []) with Ok t => t | _ => [] end).
  assert (HR : forall i, ATBT_row add multA cb A (nth i (data B) []) = Ok (R i) /\
     gives (ncols A) (fun j => TATBT A B j i) (R i)).
  { intro i. destruct (ATBT_row_ok A (nth i (data B) []) WA) as (t & Et & Gt).
    - rewrite E. apply wfm_row; auto.
    - unfold R. rewrite Et. split; auto. }
  destruct (pushcol_loop to
    (fun i T => rb <- getrow B i ;; t <- ATBT_row add multA cb A rb ;; pushcol to i t T)
    R (ncols A) (nrows B) (nrows B)) as (M & EM & L & G).
  - intros. apply HR.
  - intros i M Hi L. rewrite getrow_ok by (rewrite (wfm_len B WB); auto). cbn [bind].
    rewrite (proj1 (HR i)). reflexivity.
  - rewrite EM.
    apply tgives_rows with (F := fun j => genrow (fun i => option_map to (rget (R i) j)) 0 (nrows B)); auto.
    + intros; apply genrow_wf0.
    + intros i j Hi Hj. rewrite genrow_get. ltb. rewrite (proj2 (proj2 (HR j))) by auto. reflexivity.
Qed.

Lemma recompute_wf {T} (M : lil T) : wfrows (nrows M) (ncols M) (data M) -> wfm (lil_recompute M).
Proof. intro W. apply wfm_tot. split; [exact W|]. simpl. apply count_rows_tot. Qed.

Lemma recompute_same {T} (M : lil T) : wfm M -> lil_recompute M = M.
Proof.
  intro W. apply wfm_tot in W. destruct W as [_ W]. destruct M as [r c n d]. unfold lil_recompute.
  simpl in *. f_equal. rewrite count_rows_tot. auto.
Qed.

Lemma pushcol_dims {X T} (g : X -> T) i r : forall (M M' : lil T),
  pushcol g i r M = Ok M' -> nrows M' = nrows M /\ ncols M' = ncols M.
Proof.
  unfold pushcol. induction r as [|p r IH]; intros M M' H; simpl in H.
  - injection H as <-. auto.
  - unfold pushrow, putrow in H. destruct (getrow M (fst p)); try discriminate. simpl in H.
    destruct (vset (data M) (fst p) _); try discriminate. simpl in H.
    apply IH in H. simpl in H. auto.
Qed.

Lemma ATBT_fill_dims {TO} (to : TT -> TO) (A : lil TA) (B : lil TB) T T' :
  ATBT_fill add multA cb to T A B = Ok T' -> nrows T' = nrows T /\ ncols T' = ncols T.
Proof.
  unfold ATBT_fill. generalize (seq 0 (nrows B)). intro l. revert T.
  induction l as [|i l IH]; intros T H; simpl in H.
  - injection H as <-. auto.
  - destruct (getrow B i); try discriminate. simpl in H.
    destruct (ATBT_row add multA cb A a); try discriminate. simpl in H.
    destruct (pushcol to i a0 T) eqn:E; try discriminate. simpl in H.
    apply pushcol_dims in E. apply IH in H. destruct E, H. split; congruence.
Qed.

Lemma ATBT_kernel_ok {TO} (to : TT -> TO) (C : lil TO) (A : lil TA) (B : lil TB) :
  wfm C -> wfm A -> wfm B -> nrows A = ncols B -> nrows C = ncols A -> ncols C = nrows B ->
  mgives C (fun i j => option_map to (TATBT A B i j))
    (ATBT_NoMask_NoAccum_kernel add multA cb to C A B).
Proof.
  intros WC WA WB E R K. unfold ATBT_NoMask_NoAccum_kernel.
  rewrite lil_clear_eq by (apply wfm_len; auto). rewrite R, K.
  destruct (ATBT_fill_ok to A B WA WB E) as (T & ET & WT & GT).
  destruct (ATBT_fill_dims _ _ _ _ _ ET) as [DR DK]. simpl in DR, DK.
  rewrite ET. cbn [bind]. exists (lil_recompute T). split; [auto|].
  split; [apply recompute_wf; rewrite DR, DK; auto|]. simpl.
  split; [congruence|]. split; [congruence|].
  intros i j Hi Hj. rewrite R in Hi. rewrite K in Hj. apply GT; auto.
Qed.
End ATBT.
