(** The kernels of the optimized products. *)
From Coq Require Import Lia.
From Verif Require Import Base ModelLil ModelVec ModelHelpers ModelViews ModelMul ModelOptMxm Spec SpecOps.
From Verif Require Import ProofBase ProofRow ProofLil ProofVec ProofCalls ProofContainers ProofWrite ProofViews ProofMul.
From Verif Require Import ProofOptRow ProofOptMxm.

(** Read the rows of the operands. *)
Ltac rows :=
  repeat (match goal with
          | R : at_row ?C ?i ?C' |- context [getrow (now ?C' ?o) ?i] =>
              rewrite (now_getrow C o i C' ltac:(assumption) ltac:(assumption) R)
                by (destruct R as (?&?&?&?&?); lia)
          end; cbn [bind]).

Lemma at_row_len {T} (C : lil T) i C' : at_row C i C' -> i < length (data C').
Proof. intros (?&?&?&?&?). lia. Qed.
Lemma at_row_eq {T} (C : lil T) i C' : at_row C i C' -> nth i (data C') [] = nth i (data C) [].
Proof. intros (?&?&?&?&?). auto. Qed.
Lemma at_row_lt {T} (C : lil T) i C' : at_row C i C' -> i < nrows C.
Proof. intros (?&?&?&?&?). auto. Qed.
Lemma at_row_wf {T} (C : lil T) i C' : wfm C -> at_row C i C' -> wfrow 0 (ncols C) (nth i (data C') []).
Proof. intros W A. rewrite (at_row_eq _ _ _ A). apply wfm_row; auto. Qed.

Section AB.
Context {TA TB TT TC TM TZ TO : Type}.
Context (add : TT -> TT -> TT) (mult : TA -> TB -> TT).
Context (truthy : TM -> bool).

(** The product of the operands of a kernel. *)
Definition TAB (A : lil TA) (B : lil TB) : smat TT := smul add mult (nrows B) (mget A) (mget B).
Definition TABT (A : lil TA) (B : lil TB) : smat TT :=
  smul add mult (ncols B) (mget A) (stran (mget B)).

Lemma AB_row_i (A : lil TA) (B : lil TB) i nc :
  wfm A -> wfm B -> ncols A = nrows B -> nc = ncols B ->
  exists t, AB_row add mult B (nth i (data A) []) = Ok t /\ gives nc (TAB A B i) t.
Proof.
  intros WA WB K ->. apply AB_row_ok; auto. rewrite <- K. apply wfm_row; auto.
Qed.

Lemma AB_masked_row_i sf cf (A : lil TA) (B : lil TB) (M : lil TM) i nc :
  wfm A -> wfm B -> wfm M -> ncols A = nrows B -> ncols M = nc -> nc = ncols B ->
  exists t, AB_masked_row add mult truthy sf cf B (nth i (data M) []) (nth i (data A) []) = Ok t /\
    gives nc (within (allow truthy sf cf (nth i (data M) [])) (TAB A B i)) t.
Proof.
  intros WA WB WM K EM ->. apply AB_masked_row_ok; auto.
  - rewrite <- K. apply wfm_row; auto.
  - rewrite <- EM. apply wfm_row; auto.
Qed.

Lemma ABT_row_i (A : lil TA) (B : lil TB) i nc :
  wfm A -> wfm B -> ncols A = ncols B -> nc = nrows B ->
  exists t, ABT_row add mult B (nth i (data A) []) = Ok t /\ gives nc (TABT A B i) t.
Proof.
  intros WA WB K ->. apply ABT_row_ok; auto. rewrite <- K. apply wfm_row; auto.
Qed.

Lemma ABT_masked_row_i sf cf (A : lil TA) (B : lil TB) (M : lil TM) i nc :
  wfm A -> wfm B -> wfm M -> ncols A = ncols B -> ncols M = nc -> nc = nrows B ->
  exists t, ABT_masked_row add mult truthy sf cf B (nth i (data M) []) (nth i (data A) []) = Ok t /\
    gives nc (within (allow truthy sf cf (nth i (data M) [])) (TABT A B i)) t.
Proof.
  intros WA WB WM K EM ->. apply ABT_masked_row_ok; auto.
  - rewrite <- K. apply wfm_row; auto.
  - rewrite <- EM. apply wfm_row; auto.
Qed.

Lemma TAB_nil A B i j : nth i (data A) [] = [] -> TAB A B i j = None.
Proof.
  intro E. unfold TAB, smul. apply osum_none. intros. unfold mget at 1. rewrite E. reflexivity.
Qed.
Lemma TABT_nil A B i j : nth i (data A) [] = [] -> TABT A B i j = None.
Proof.
  intro E. unfold TABT, smul. apply osum_none. intros. unfold mget at 1. rewrite E. reflexivity.
Qed.

(** A masked row when the mask row is empty, or the row of [A] is. *)
Lemma gives_none nc (al : nat -> bool) (f : svec TT) :
  (forall j, al j = true -> f j = None) -> gives nc (within al f) [].
Proof.
  intro H. split; [exact Logic.I|]. intros j Hj. unfold within. destruct (al j) eqn:E; auto.
  rewrite H; auto.
Qed.

(** ** Without accumulator; [C] has any scalar type. *)
Section NoAcc.
Context (to : TT -> TO).
Context (C : lil TO) (M : obj TO TM) (A : obj TO TA) (B : lil TB).
Hypothesis WC : wfm C.
Hypothesis WA : wfm (now C A).
Hypothesis WB : wfm B.
Hypothesis RA : nrows (now C A) = nrows C.

Section WithoutMask.
Lemma AB_NoMask_NoAccum_ok :
  ncols (now C A) = nrows B -> ncols C = ncols B ->
  mgives C (fun i j => option_map to (TAB (now C A) B i j))
    (AB_NoMask_NoAccum_kernel add mult to C A (Other B)).
Proof.
  intros K N. unfold AB_NoMask_NoAccum_kernel. rewrite RA. apply loop_gives; auto.
  intros i C' R. simpl (now C' (Other B)). rows.
  destruct (AB_row_i (now C A) B i (ncols C)) as (t & Et & Gt); auto. rewrite Et. cbn [bind].
  apply fin_set; auto. eapply at_row_len; eauto.
Qed.

(** The rows of the output whose row of [A] is empty are not written. *)
Lemma ABT_NoMask_NoAccum_ok :
  ncols (now C A) = ncols B -> ncols C = nrows B ->
  mgives C (fun i j => if empty (nth i (data (now C A)) []) then mget C i j
                       else option_map to (TABT (now C A) B i j))
    (ABT_NoMask_NoAccum_kernel add mult to C A (Other B)).
Proof.
  intros K N. unfold ABT_NoMask_NoAccum_kernel. rewrite RA. apply loop_gives; auto.
  intros i C' R. simpl (now C' (Other B)). rows.
  destruct (empty (nth i (data (now C A)) [])) eqn:Em.
  - exists (nth i (data C') []). rewrite setrow_pure_self. split; auto.
    split; [apply at_row_wf; auto|]. intros. rewrite (at_row_eq _ _ _ R). reflexivity.
  - destruct (ABT_row_i (now C A) B i (ncols C)) as (t & Et & Gt); auto. rewrite Et. cbn [bind].
    apply fin_set; auto. eapply at_row_len; eauto.
Qed.
End WithoutMask.

Hypothesis WM : wfm (now C M).
Hypothesis RM : nrows (now C M) = nrows C.
Hypothesis CM : ncols (now C M) = ncols C.

Definition masked_result (sf cf : bool) (outp : outmode) (T : smat TT) : smat TO :=
  fun i j => spec_write to (allow truthy sf cf (nth i (data (now C M)) []) j) outp
               (mget C i j) (T i j).

(** The end of the masked kernels. *)
Lemma fin_outp_at (rep : bool) sf cf outp i C' f t :
  at_row C i C' ->
  gives (ncols C) (within (allow truthy sf cf (nth i (data (now C M)) [])) f) t ->
  (rep = true -> outp = REPLACE \/ forall j, allow truthy sf cf (nth i (data (now C M)) []) j = true) ->
  (rep = false -> outp = MERGE) ->
  setgives C' i (ncols C)
    (fun j => spec_write to (allow truthy sf cf (nth i (data (now C M)) []) j) outp (mget C i j) (f j))
    (if rep then setRow to C' i t
     else c <- getrow C' i ;;
          setRow (fun x => x) C' i (masked_merge truthy sf cf to (nth i (data (now C M)) []) c t)).
Proof.
  intros R G H1 H2. unfold mget. rewrite <- (at_row_eq _ _ _ R).
  apply fin_outp; auto.
  - eapply at_row_len; eauto.
  - rewrite <- CM. apply wfm_row; auto.
  - apply at_row_wf; auto.
Qed.

Lemma match_outp {X} outp (x y : X) :
  match outp with REPLACE => x | MERGE => y end = if is_replace outp then x else y.
Proof. destruct outp; reflexivity. Qed.

Lemma comp_rep outp rm sf :
  is_replace outp || empty rm = true -> outp = REPLACE \/ forall j, allow truthy sf true rm j = true.
Proof.
  intro H. apply orb_true_iff in H. destruct H as [H|H]; [left; apply is_replace_true; auto|].
  apply empty_nil in H. subst. right. apply allow_nil.
Qed.

Lemma comp_norep outp (rm : row TM) : is_replace outp || empty rm = false -> outp = MERGE.
Proof. intro H. apply orb_false_iff in H. apply is_replace_false. tauto. Qed.

Section AB'.
Hypothesis K : ncols (now C A) = nrows B.
Hypothesis N : ncols C = ncols B.

Lemma AB_Mask_NoAccum_ok sf outp :
  mgives C (masked_result sf false outp (TAB (now C A) B))
    (AB_Mask_NoAccum_kernel add mult truthy to sf outp C M A (Other B)).
Proof.
  unfold AB_Mask_NoAccum_kernel. rewrite RA. apply loop_gives; auto.
  intros i C' R. simpl (now C' (Other B)). rows.
  assert (T : exists t, (if empty (nth i (data (now C M)) []) then Ok []
      else AB_masked_row add mult truthy sf false B (nth i (data (now C M)) [])
             (nth i (data (now C A)) [])) = Ok t /\
     gives (ncols C) (within (allow truthy sf false (nth i (data (now C M)) [])) (TAB (now C A) B i)) t).
  { destruct (empty (nth i (data (now C M)) [])) eqn:Em.
    - exists []. split; auto. apply gives_none. intros j Hj. apply empty_nil in Em.
      rewrite Em, allow_nil in Hj. discriminate.
    - apply AB_masked_row_i; auto. }
  destruct T as (t & Et & Gt). rewrite Et. cbn [bind]. rewrite match_outp.
  apply fin_outp_at; auto using is_replace_false. left. apply is_replace_true; auto.
Qed.

Lemma AB_CompMask_NoAccum_ok sf outp :
  mgives C (masked_result sf true outp (TAB (now C A) B))
    (AB_CompMask_NoAccum_kernel add mult truthy to sf outp C M A (Other B)).
Proof.
  unfold AB_CompMask_NoAccum_kernel. rewrite RA. apply loop_gives; auto.
  intros i C' R. simpl (now C' (Other B)). rows.
  destruct (AB_masked_row_i sf true (now C A) B (now C M) i (ncols C)) as (t & Et & Gt); auto.
  rewrite Et. cbn [bind].
  apply fin_outp_at; auto.
  - apply comp_rep.
  - apply comp_norep.
Qed.
End AB'.

Section ABT'.
Hypothesis K : ncols (now C A) = ncols B.
Hypothesis N : ncols C = nrows B.

Lemma ABT_Mask_NoAccum_ok sf outp :
  mgives C (masked_result sf false outp (TABT (now C A) B))
    (ABT_Mask_NoAccum_kernel add mult truthy to sf outp C M A (Other B)).
Proof.
  unfold ABT_Mask_NoAccum_kernel. rewrite RA. apply loop_gives; auto.
  intros i C' R. simpl (now C' (Other B)). rows.
  assert (T : exists t, (if empty (nth i (data (now C A)) []) || empty (nth i (data (now C M)) [])
      then Ok []
      else ABT_masked_row add mult truthy sf false B (nth i (data (now C M)) [])
             (nth i (data (now C A)) [])) = Ok t /\
     gives (ncols C) (within (allow truthy sf false (nth i (data (now C M)) [])) (TABT (now C A) B i)) t).
  { destruct (empty (nth i (data (now C A)) [])) eqn:Ea; simpl.
    { exists []. split; auto. apply gives_none. intros j Hj. apply TABT_nil. apply empty_nil; auto. }
    destruct (empty (nth i (data (now C M)) [])) eqn:Em.
    - exists []. split; auto. apply gives_none. intros j Hj. apply empty_nil in Em.
      rewrite Em, allow_nil in Hj. discriminate.
    - apply ABT_masked_row_i; auto. }
  destruct T as (t & Et & Gt). rewrite Et. cbn [bind]. rewrite match_outp.
  apply fin_outp_at; auto using is_replace_false. left. apply is_replace_true; auto.
Qed.

Lemma ABT_CompMask_NoAccum_ok sf outp :
  mgives C (masked_result sf true outp (TABT (now C A) B))
    (ABT_CompMask_NoAccum_kernel add mult truthy to sf outp C M A (Other B)).
Proof.
  unfold ABT_CompMask_NoAccum_kernel. rewrite RA. apply loop_gives; auto.
  intros i C' R. simpl (now C' (Other B)). rows.
  assert (T : exists t, (if empty (nth i (data (now C A)) []) then Ok []
      else ABT_masked_row add mult truthy sf true B (nth i (data (now C M)) [])
             (nth i (data (now C A)) [])) = Ok t /\
     gives (ncols C) (within (allow truthy sf true (nth i (data (now C M)) [])) (TABT (now C A) B i)) t).
  { destruct (empty (nth i (data (now C A)) [])) eqn:Ea; simpl.
    { exists []. split; auto. apply gives_none. intros j Hj. apply TABT_nil. apply empty_nil; auto. }
    apply ABT_masked_row_i; auto. }
  destruct T as (t & Et & Gt). rewrite Et. cbn [bind]. rewrite match_outp.
  apply fin_outp_at; auto using is_replace_false. left. apply is_replace_true; auto.
Qed.
End ABT'.
End NoAcc.

(** ** With an accumulator *)
Section Acc.
Context (tc : TT -> TC) (zc : TZ -> TC) (f : TC -> TT -> TZ) (cz : TC -> TZ) (tz : TT -> TZ).
Context (C : lil TC) (M : obj TC TM) (A : obj TC TA) (B : lil TB).
Hypothesis WC : wfm C.
Hypothesis WA : wfm (now C A).
Hypothesis WB : wfm B.
Hypothesis RA : nrows (now C A) = nrows C.

(** Union of the old values and the computed ones. *)
Definition accum_result (T : smat TT) : smat TC :=
  fun i j => ounion (fun c x => zc (f c x)) (fun c => c) tc (mget C i j) (T i j).

Section WithoutMask.
Lemma fin_mergeRow_at i C' g t :
  at_row C i C' -> gives (ncols C) g t ->
  setgives C' i (ncols C)
    (fun j => ounion (fun c x => zc (f c x)) (fun c => c) tc (mget C i j) (g j))
    (mergeRow tc (fun c x => zc (f c x)) C' i t).
Proof.
  intros R G. unfold mget. rewrite <- (at_row_eq _ _ _ R).
  apply fin_mergeRow; auto; [eapply at_row_len; eauto|apply at_row_wf; auto].
Qed.

Lemma AB_NoMask_Accum_ok :
  ncols (now C A) = nrows B -> ncols C = ncols B ->
  mgives C (accum_result (TAB (now C A) B))
    (AB_NoMask_Accum_kernel add mult tc zc f C A (Other B)).
Proof.
  intros K N. unfold AB_NoMask_Accum_kernel. rewrite RA. apply loop_gives; auto.
  intros i C' R. simpl (now C' (Other B)). rows.
  destruct (AB_row_i (now C A) B i (ncols C)) as (t & Et & Gt); auto. rewrite Et. cbn [bind].
  pose proof (fin_mergeRow_at i C' _ _ R Gt) as Q.
  destruct t; simpl empty; cbv iota; exact Q.
Qed.

Lemma ABT_NoMask_Accum_ok :
  ncols (now C A) = ncols B -> ncols C = nrows B ->
  mgives C (accum_result (TABT (now C A) B))
    (ABT_NoMask_Accum_kernel add mult tc zc f C A (Other B)).
Proof.
  intros K N. unfold ABT_NoMask_Accum_kernel. rewrite RA. apply loop_gives; auto.
  intros i C' R. simpl (now C' (Other B)). rows.
  destruct (empty (nth i (data (now C A)) [])) eqn:Em.
  - apply empty_nil in Em.
    assert (G : gives (ncols C) (TABT (now C A) B i) []).
    { split; [exact Logic.I|]. intros j Hj. rewrite TABT_nil; auto. }
    exact (fin_mergeRow_at i C' _ _ R G).
  - destruct (ABT_row_i (now C A) B i (ncols C)) as (t & Et & Gt); auto. rewrite Et. cbn [bind].
    pose proof (fin_mergeRow_at i C' _ _ R Gt) as Q.
    destruct t; simpl empty; cbv iota; exact Q.
Qed.
End WithoutMask.

Hypothesis WM : wfm (now C M).
Hypothesis RM : nrows (now C M) = nrows C.
Hypothesis CM : ncols (now C M) = ncols C.

Definition masked_accum_result (sf cf : bool) (outp : outmode) (T : smat TT) : smat TC :=
  fun i j => spec_write zc (allow truthy sf cf (nth i (data (now C M)) []) j) outp
               (mget C i j) (ounion f cz tz (mget C i j) (T i j)).

Lemma fin_accum_at (rep : bool) sf cf outp i C' g t :
  at_row C i C' ->
  gives (ncols C) (within (allow truthy sf cf (nth i (data (now C M)) [])) g) t ->
  (rep = true -> outp = REPLACE \/ forall j, allow truthy sf cf (nth i (data (now C M)) []) j = true) ->
  (rep = false -> outp = MERGE) ->
  setgives C' i (ncols C)
    (fun j => spec_write zc (allow truthy sf cf (nth i (data (now C M)) []) j) outp (mget C i j)
                (ounion f cz tz (mget C i j) (g j)))
    (accum_row truthy zc f cz tz sf cf rep C' i (nth i (data (now C M)) []) t).
Proof.
  intros R G H1 H2. unfold mget. rewrite <- (at_row_eq _ _ _ R).
  apply fin_accum; auto.
  - eapply at_row_len; eauto.
  - rewrite <- CM. apply wfm_row; auto.
  - apply at_row_wf; auto.
Qed.

Section AB'.
Hypothesis K : ncols (now C A) = nrows B.
Hypothesis N : ncols C = ncols B.

Lemma AB_Mask_Accum_ok sf outp :
  mgives C (masked_accum_result sf false outp (TAB (now C A) B))
    (AB_Mask_Accum_kernel add mult truthy zc f cz tz sf outp C M A (Other B)).
Proof.
  unfold AB_Mask_Accum_kernel. rewrite RA. apply loop_gives; auto.
  intros i C' R. simpl (now C' (Other B)). rows.
  assert (T : exists t, (if empty (nth i (data (now C M)) []) then Ok []
      else AB_masked_row add mult truthy sf false B (nth i (data (now C M)) [])
             (nth i (data (now C A)) [])) = Ok t /\
     gives (ncols C) (within (allow truthy sf false (nth i (data (now C M)) [])) (TAB (now C A) B i)) t).
  { destruct (empty (nth i (data (now C M)) [])) eqn:Em.
    - exists []. split; auto. apply gives_none. intros j Hj. apply empty_nil in Em.
      rewrite Em, allow_nil in Hj. discriminate.
    - apply AB_masked_row_i; auto. }
  destruct T as (t & Et & Gt). rewrite Et. cbn [bind].
  apply fin_accum_at; auto using is_replace_false. left. apply is_replace_true; auto.
Qed.

Lemma AB_CompMask_Accum_ok sf outp :
  mgives C (masked_accum_result sf true outp (TAB (now C A) B))
    (AB_CompMask_Accum_kernel add mult truthy zc f cz tz sf outp C M A (Other B)).
Proof.
  unfold AB_CompMask_Accum_kernel. rewrite RA. apply loop_gives; auto.
  intros i C' R. simpl (now C' (Other B)). rows.
  destruct (AB_masked_row_i sf true (now C A) B (now C M) i (ncols C)) as (t & Et & Gt); auto.
  rewrite Et. cbn [bind].
  apply fin_accum_at; auto.
  - apply comp_rep.
  - apply comp_norep.
Qed.
End AB'.

Section ABT'.
Hypothesis K : ncols (now C A) = ncols B.
Hypothesis N : ncols C = nrows B.

Lemma ABT_Mask_Accum_ok sf outp :
  mgives C (masked_accum_result sf false outp (TABT (now C A) B))
    (ABT_Mask_Accum_kernel add mult truthy zc f cz tz sf outp C M A (Other B)).
Proof.
  unfold ABT_Mask_Accum_kernel. rewrite RA. apply loop_gives; auto.
  intros i C' R. simpl (now C' (Other B)). rows.
  assert (T : exists t, (if empty (nth i (data (now C A)) []) || empty (nth i (data (now C M)) [])
      then Ok []
      else ABT_masked_row add mult truthy sf false B (nth i (data (now C M)) [])
             (nth i (data (now C A)) [])) = Ok t /\
     gives (ncols C) (within (allow truthy sf false (nth i (data (now C M)) [])) (TABT (now C A) B i)) t).
  { destruct (empty (nth i (data (now C A)) [])) eqn:Ea; simpl.
    { exists []. split; auto. apply gives_none. intros j Hj. apply TABT_nil. apply empty_nil; auto. }
    destruct (empty (nth i (data (now C M)) [])) eqn:Em.
    - exists []. split; auto. apply gives_none. intros j Hj. apply empty_nil in Em.
      rewrite Em, allow_nil in Hj. discriminate.
    - apply ABT_masked_row_i; auto. }
  destruct T as (t & Et & Gt). rewrite Et. cbn [bind].
  apply fin_accum_at; auto using is_replace_false. left. apply is_replace_true; auto.
Qed.

Lemma ABT_CompMask_Accum_ok sf outp :
  mgives C (masked_accum_result sf true outp (TABT (now C A) B))
    (ABT_CompMask_Accum_kernel add mult truthy zc f cz tz sf outp C M A (Other B)).
Proof.
  unfold ABT_CompMask_Accum_kernel. rewrite RA. apply loop_gives; auto.
  intros i C' R. simpl (now C' (Other B)). rows.
  assert (T : exists t, (if empty (nth i (data (now C A)) []) then Ok []
      else ABT_masked_row add mult truthy sf true B (nth i (data (now C M)) [])
             (nth i (data (now C A)) [])) = Ok t /\
     gives (ncols C) (within (allow truthy sf true (nth i (data (now C M)) [])) (TABT (now C A) B i)) t).
  { destruct (empty (nth i (data (now C A)) [])) eqn:Ea; simpl.
    { exists []. split; auto. apply gives_none. intros j Hj. apply TABT_nil. apply empty_nil; auto. }
    apply ABT_masked_row_i; auto. }
  destruct T as (t & Et & Gt). rewrite Et. cbn [bind].
  apply fin_accum_at; auto using is_replace_false. left. apply is_replace_true; auto.
Qed.
End ABT'.
End Acc.
End AB.
