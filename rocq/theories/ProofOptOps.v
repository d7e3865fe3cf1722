(** The optimized product as a whole. *)
From Coq Require Import Lia.
From Verif Require Import Base ModelLil ModelVec ModelHelpers ModelViews ModelMul ModelOptMxm Spec SpecOps SpecOpt.
From Verif Require Import ProofBase ProofRow ProofLil ProofVec ProofCalls ProofContainers ProofWrite ProofViews ProofMul.
From Verif Require Import ProofOptRow ProofOptMxm ProofOptKernel ProofOptWrap.

(** ** Short circuits *)
Section Short.
Context {TA TB TT TC TM TZ : Type} (truthy : TM -> bool) (tc : TT -> TC) (zc : TZ -> TC).
Context (C : lil TC) (M : obj TC TM) (A : lil TA) (B : lil TB) (T : smat TT).
Hypothesis WC : wfm C.
Hypothesis HT : negb (has_vals (nvals A)) || negb (has_vals (nvals B)) = true ->
  forall i j, T i j = None.

Lemma short_NoMask_NoAccum_ok r :
  mgives C (fun i j => option_map tc (T i j)) r ->
  mgives C (fun i j => option_map tc (T i j))
    (if negb (has_vals (nvals A)) || negb (has_vals (nvals B)) then Ok (lil_clear C) else r).
Proof.
  intro H. destruct (_ || _) eqn:E; auto. apply mgives_clear; auto.
  intros. rewrite HT; auto.
Qed.

Lemma short_NoMask_Accum_ok (f : TC -> TT -> TZ) r :
  mgives C (accum_result tc zc f C T) r ->
  mgives C (accum_result tc zc f C T)
    (if negb (has_vals (nvals A)) || negb (has_vals (nvals B)) then Ok C else r).
Proof.
  intro H. destruct (_ || _) eqn:E; auto. apply mgives_self; auto.
  intros. unfold accum_result. rewrite HT by auto. destruct (mget C i j); reflexivity.
Qed.

Hypothesis WM : wfm (now C M).

Lemma mask_empty sf cf i j : negb (has_vals (nvals (now C M))) = true ->
  allow truthy sf cf (nth i (data (now C M)) []) j = cf.
Proof.
  intro E. unfold allow, mtest. fold (mget (now C M) i j).
  rewrite (has_vals_false_m (now C M)) by (auto; apply negb_true_iff; auto).
  destruct cf; reflexivity.
Qed.

Lemma short_Mask_NoAccum_ok sf outp r :
  mgives C (masked_result truthy tc C M sf false outp T) r ->
  mgives C (masked_result truthy tc C M sf false outp T)
    (or_else (short_Mask_NoAccum outp C (now C M) A B) r).
Proof.
  intro H. unfold or_else, short_Mask_NoAccum. destruct outp.
  - destruct (negb (has_vals (nvals (now C M)))) eqn:E; auto. apply mgives_self; auto.
    intros. unfold masked_result. rewrite mask_empty by auto. reflexivity.
  - destruct (_ || _ || _) eqn:E; auto. apply mgives_clear; auto.
    intros i j _ _. unfold masked_result, spec_write.
    apply orb_true_iff in E. destruct E as [E|E].
    + rewrite HT by auto. destruct (allow _ _ _ _ _); reflexivity.
    + rewrite mask_empty by auto. reflexivity.
Qed.

Lemma short_Mask_Accum_ok (f : TC -> TT -> TZ) cz tz sf outp r :
  mgives C (masked_accum_result truthy zc f cz tz C M sf false outp T) r ->
  mgives C (masked_accum_result truthy zc f cz tz C M sf false outp T)
    (or_else (short_Mask_Accum outp C (now C M)) r).
Proof.
  intro H. unfold or_else, short_Mask_Accum.
  destruct (negb (has_vals (nvals (now C M)))) eqn:E; auto. destruct outp.
  - apply mgives_self; auto. intros. unfold masked_accum_result. rewrite mask_empty by auto. reflexivity.
  - apply mgives_clear; auto. intros. unfold masked_accum_result. rewrite mask_empty by auto. reflexivity.
Qed.

Lemma short_Comp_NoAccum_ok sf outp r :
  mgives C (masked_result truthy tc C M sf true outp T) r ->
  mgives C (masked_result truthy tc C M sf true outp T)
    (or_else (short_Comp_NoAccum outp C A B) r).
Proof.
  intro H. unfold or_else, short_Comp_NoAccum. destruct outp; auto.
  destruct (_ || _) eqn:E; auto. apply mgives_clear; auto.
  intros. unfold masked_result, spec_write. rewrite HT by auto. destruct (allow _ _ _ _ _); reflexivity.
Qed.

Lemma short_Comp_Accum_ok (f : TC -> TT -> TZ) cz tz sf outp r :
  (forall c, zc (cz c) = c) ->
  mgives C (masked_accum_result truthy zc f cz tz C M sf true outp T) r ->
  mgives C (masked_accum_result truthy zc f cz tz C M sf true outp T)
    (or_else (short_Comp_Accum outp C (now C M) A B) r).
Proof.
  intros Hc H. unfold or_else, short_Comp_Accum. destruct outp; auto.
  destruct (_ && _) eqn:E; auto. apply andb_true_iff in E. destruct E as [E1 E2].
  apply mgives_self; auto. intros. unfold masked_accum_result, spec_write.
  rewrite mask_empty by auto. rewrite HT by auto. destruct (mget C i j); simpl; auto. rewrite Hc; auto.
Qed.
End Short.

Section Zero.
Context {TA TB TT : Type} (add : TT -> TT -> TT) (mult : TA -> TB -> TT).
Context (multA : TA -> TA -> TT) (cb : TB -> TA) (A : lil TA) (B : lil TB).
Hypothesis WA : wfm A.
Hypothesis WB : wfm B.
Hypothesis Z : negb (has_vals (nvals A)) || negb (has_vals (nvals B)) = true.

Lemma zero_cases : (forall i j, mget A i j = None) \/ (forall i j, mget B i j = None).
Proof.
  apply orb_true_iff in Z. destruct Z as [H|H]; apply negb_true_iff in H;
    [left|right]; apply has_vals_false_m; auto.
Qed.

Lemma zero_AB i j : TAB add mult A B i j = None.
Proof.
  apply osum_none. intros k _. destruct zero_cases as [H|H]; rewrite H; auto.
  destruct (mget A i k); auto.
Qed.
Lemma zero_ABT i j : TABT add mult A B i j = None.
Proof.
  apply osum_none. intros k _. unfold stran. destruct zero_cases as [H|H]; rewrite H; auto.
  destruct (mget A i k); auto.
Qed.
Lemma zero_ATB i j : TATB add mult A B i j = None.
Proof.
  apply osum_none. intros k _. unfold stran. destruct zero_cases as [H|H]; rewrite H; auto.
  destruct (mget A k i); auto.
Qed.
Lemma zero_ATBT i j : TATBT add multA cb A B i j = None.
Proof.
  apply osum_none. intros k _. destruct zero_cases as [H|H]; rewrite H; auto.
  destruct (mget A k i); auto.
Qed.
End Zero.

(** ** Each variant *)
Section Var.
Context {TA TB TT TC TM TZ : Type}.
Context (add : TT -> TT -> TT) (mult : TA -> TB -> TT) (multA : TA -> TA -> TT) (cb : TB -> TA).
Context (truthy : TM -> bool) (tc : TT -> TC) (ct : TC -> TT) (zc : TZ -> TC).
Context (C : lil TC) (M : obj TC TM) (A : obj TC TA) (B : obj TC TB).
Hypothesis WC : wfm C.
Hypothesis WA : wfm (now C A).
Hypothesis WB : wfm (now C B).
Notation Ct := (@lil_new _ (nrows C) (ncols C)).

(** *** A * B *)
Section AB.
Hypothesis RA : nrows (now C A) = nrows C.
Hypothesis K : ncols (now C A) = nrows (now C B).
Hypothesis N : ncols C = ncols (now C B).
Notation T := (TAB add mult (now C A) (now C B)).

Lemma new_AB {TO} (to : TT -> TO) :
  mgives Ct (fun i j => option_map to (T i j))
    (AB_NoMask_NoAccum_kernel add mult to Ct (fixed C A) (fixed C B)).
Proof.
  apply (AB_NoMask_NoAccum_ok add mult to Ct (fixed C A) (now C B)); auto. apply lil_new_wf.
Qed.

Lemma NoMask_NoAccum_AB_ok :
  mgives C (fun i j => option_map tc (T i j)) (mxm_NoMask_NoAccum_AB add mult tc C A B).
Proof.
  unfold mxm_NoMask_NoAccum_AB. apply short_NoMask_NoAccum_ok; auto; [apply zero_AB; auto|].
  pose proof (new_AB tc) as Q.
  destruct B as [B0|v]; simpl is_output; cbv iota.
  - apply AB_NoMask_NoAccum_ok; auto.
  - destruct Q as (D & E & W & R & Cc & G). rewrite E. cbn [bind]. simpl in R, Cc, G.
    destruct (swap_partial C D WC W) as (D2 & E2 & _); auto. rewrite E2. simpl.
    exists D. repeat (split; [assumption|]). auto. 
Qed.

Lemma NoMask_Accum_AB_ok f :
  (is_output B = true -> forall t, ct (tc t) = t) ->
  mgives C (accum_result tc zc f C T) (mxm_NoMask_Accum_AB add mult tc ct zc f C A B).
Proof.
  intro H. unfold mxm_NoMask_Accum_AB. apply short_NoMask_Accum_ok; auto; [apply zero_AB; auto|].
  pose proof (new_AB tc) as Q.
  destruct B as [B0|v]; simpl is_output; cbv iota.
  - apply AB_NoMask_Accum_ok; auto.
  - apply merge_tmp_ok; auto. apply (mgives_rgives Ct). exact Q.
Qed.

Hypothesis WM : wfm (now C M).
Hypothesis RM : nrows (now C M) = nrows C.
Hypothesis CM : ncols (now C M) = ncols C.

Lemma new_Mask_AB {TO} (to : TT -> TO) sf :
  mgives Ct (Tal truthy C M sf false (fun i j => option_map to (T i j)))
    (AB_Mask_NoAccum_kernel add mult truthy to sf REPLACE Ct (fixed C M) (fixed C A) (fixed C B)).
Proof.
  apply (AB_Mask_NoAccum_ok add mult truthy to Ct (fixed C M) (fixed C A) (now C B)); auto.
  apply lil_new_wf.
Qed.
Lemma new_CompMask_AB {TO} (to : TT -> TO) sf :
  mgives Ct (Tal truthy C M sf true (fun i j => option_map to (T i j)))
    (AB_CompMask_NoAccum_kernel add mult truthy to sf REPLACE Ct (fixed C M) (fixed C A) (fixed C B)).
Proof.
  apply (AB_CompMask_NoAccum_ok add mult truthy to Ct (fixed C M) (fixed C A) (now C B)); auto.
  apply lil_new_wf.
Qed.

(** A temporary of the result type. *)
Lemma Tal_id sf cf (X : smat TT) r :
  mgives Ct (Tal truthy C M sf cf (fun i j => option_map (fun x => x) (X i j))) r ->
  rgives (nrows C) (ncols C) (Tal truthy C M sf cf X) r.
Proof.
  intro H. eapply rgives_ext; [apply (mgives_rgives Ct); exact H|].
  intros i j _ _. unfold Tal, within. destruct (allow _ _ _ _ _); auto. destruct (X i j); auto.
Qed.

Lemma rep_outp outp sf cf (rm : row TM) :
  is_replace outp = true -> outp = REPLACE \/ forall j, allow truthy sf cf rm j = true.
Proof. left. apply is_replace_true; auto. Qed.

Lemma Mask_NoAccum_AB_ok sf outp :
  mgives C (masked_result truthy tc C M sf false outp T)
    (mxm_Mask_NoAccum_AB add mult truthy tc sf outp C M A B).
Proof.
  unfold mxm_Mask_NoAccum_AB. apply short_Mask_NoAccum_ok; auto; [apply zero_AB; auto|].
  pose proof (new_Mask_AB tc sf) as Q.
  destruct B as [B0|v]; simpl is_output; cbv iota.
  - apply AB_Mask_NoAccum_ok; auto.
  - apply finish_tmp_ok; auto.
Qed.

Lemma CompMask_NoAccum_AB_ok sf outp :
  mgives C (masked_result truthy tc C M sf true outp T)
    (mxm_CompMask_NoAccum_AB add mult truthy tc sf outp C M A B).
Proof.
  unfold mxm_CompMask_NoAccum_AB. apply short_Comp_NoAccum_ok; auto; [apply zero_AB; auto|].
  pose proof (new_CompMask_AB tc sf) as Q.
  destruct B as [B0|v]; simpl is_output; cbv iota.
  - apply AB_CompMask_NoAccum_ok; auto.
  - apply finish_tmp_ok; auto.
Qed.

Lemma Mask_Accum_AB_ok f cz tz sf outp :
  mgives C (masked_accum_result truthy zc f cz tz C M sf false outp T)
    (mxm_Mask_Accum_AB add mult truthy zc f cz tz sf outp C M A B).
Proof.
  unfold mxm_Mask_Accum_AB. apply short_Mask_Accum_ok; auto.
  pose proof (new_Mask_AB (fun x => x) sf) as Q.
  destruct B as [B0|v]; simpl is_output; cbv iota.
  - apply AB_Mask_Accum_ok; auto.
  - apply finish_accum_ok; auto using rep_outp, is_replace_false, Tal_id.
Qed.

Lemma CompMask_Accum_AB_ok f cz tz sf outp :
  (forall c, zc (cz c) = c) ->
  mgives C (masked_accum_result truthy zc f cz tz C M sf true outp T)
    (mxm_CompMask_Accum_AB add mult truthy zc f cz tz sf outp C M A B).
Proof.
  intro Hc. unfold mxm_CompMask_Accum_AB. apply short_Comp_Accum_ok; auto; [apply zero_AB; auto|].
  pose proof (new_CompMask_AB (fun x => x) sf) as Q.
  destruct B as [B0|v]; simpl is_output; cbv iota.
  - apply AB_CompMask_Accum_ok; auto.
  - apply finish_accum_ok; auto using rep_outp, is_replace_false, Tal_id.
Qed.
End AB.

(** *** A * B' *)
Section ABT.
Hypothesis RA : nrows (now C A) = nrows C.
Hypothesis K : ncols (now C A) = ncols (now C B).
Hypothesis N : ncols C = nrows (now C B).
Notation T := (TABT add mult (now C A) (now C B)).

Lemma new_ABT {TO} (to : TT -> TO) :
  mgives Ct (fun i j => option_map to (T i j))
    (ABT_NoMask_NoAccum_kernel add mult to Ct (fixed C A) (fixed C B)).
Proof.
  eapply mgives_ext.
  - apply (ABT_NoMask_NoAccum_ok add mult to Ct (fixed C A) (now C B)); auto. apply lil_new_wf.
  - intros i j _ _. simpl. destruct (empty _) eqn:E; auto. apply empty_nil in E.
    rewrite TABT_nil, mget_new by auto. reflexivity.
Qed.

(** Exact result: stale rows. *)
Lemma NoMask_NoAccum_ABT_exact :
  mgives C (fun i j => if negb (is_output B) && has_vals (nvals (now C A)) && has_vals (nvals (now C B))
                            && empty (nth i (data (now C A)) [])
                       then mget C i j else option_map tc (T i j))
    (mxm_NoMask_NoAccum_ABT add mult tc C A B).
Proof.
  unfold mxm_NoMask_NoAccum_ABT.
  destruct (negb (has_vals (nvals (now C A))) || negb (has_vals (nvals (now C B)))) eqn:E.
  - pose proof (zero_ABT add mult (now C A) (now C B) WA WB E) as HZ.
    apply mgives_clear; auto. intros i j _ _. rewrite HZ.
    destruct (has_vals (nvals (now C A))), (has_vals (nvals (now C B)));
      try discriminate E; rewrite ?andb_false_r; simpl; rewrite ?andb_false_r; reflexivity.
  - apply orb_false_iff in E. destruct E as [E1 E2]. apply negb_false_iff in E1, E2. rewrite E1, E2.
    pose proof (new_ABT tc) as Q.
    destruct B as [B0|v]; simpl is_output; cbv iota.
    + apply ABT_NoMask_NoAccum_ok; auto.
    + destruct Q as (D & E & W & R & Cc & G). rewrite E. cbn [bind]. simpl in R, Cc, G.
      destruct (swap_partial C D WC W) as (D2 & E2' & _); auto. rewrite E2'. simpl.
      exists D. repeat (split; [assumption|]). auto.
Qed.

Lemma NoMask_Accum_ABT_ok f :
  (is_output B = true -> forall t, ct (tc t) = t) ->
  mgives C (accum_result tc zc f C T) (mxm_NoMask_Accum_ABT add mult tc ct zc f C A B).
Proof.
  intro H. unfold mxm_NoMask_Accum_ABT. apply short_NoMask_Accum_ok; auto; [apply zero_ABT; auto|].
  pose proof (new_ABT tc) as Q.
  destruct B as [B0|v]; simpl is_output; cbv iota.
  - apply ABT_NoMask_Accum_ok; auto.
  - apply merge_tmp_ok; auto. apply (mgives_rgives Ct). exact Q.
Qed.

Hypothesis WM : wfm (now C M).
Hypothesis RM : nrows (now C M) = nrows C.
Hypothesis CM : ncols (now C M) = ncols C.

Lemma new_Mask_ABT {TO} (to : TT -> TO) sf :
  mgives Ct (Tal truthy C M sf false (fun i j => option_map to (T i j)))
    (ABT_Mask_NoAccum_kernel add mult truthy to sf REPLACE Ct (fixed C M) (fixed C A) (fixed C B)).
Proof.
  apply (ABT_Mask_NoAccum_ok add mult truthy to Ct (fixed C M) (fixed C A) (now C B)); auto.
  apply lil_new_wf.
Qed.
Lemma new_CompMask_ABT {TO} (to : TT -> TO) sf :
  mgives Ct (Tal truthy C M sf true (fun i j => option_map to (T i j)))
    (ABT_CompMask_NoAccum_kernel add mult truthy to sf REPLACE Ct (fixed C M) (fixed C A) (fixed C B)).
Proof.
  apply (ABT_CompMask_NoAccum_ok add mult truthy to Ct (fixed C M) (fixed C A) (now C B)); auto.
  apply lil_new_wf.
Qed.

Lemma Mask_NoAccum_ABT_ok sf outp :
  mgives C (masked_result truthy tc C M sf false outp T)
    (mxm_Mask_NoAccum_ABT add mult truthy tc sf outp C M A B).
Proof.
  unfold mxm_Mask_NoAccum_ABT. apply short_Mask_NoAccum_ok; auto; [apply zero_ABT; auto|].
  pose proof (new_Mask_ABT tc sf) as Q.
  destruct B as [B0|v]; simpl is_output; cbv iota.
  - apply ABT_Mask_NoAccum_ok; auto.
  - apply finish_tmp_ok; auto.
Qed.

Lemma CompMask_NoAccum_ABT_ok sf outp :
  mgives C (masked_result truthy tc C M sf true outp T)
    (mxm_CompMask_NoAccum_ABT add mult truthy tc sf outp C M A B).
Proof.
  unfold mxm_CompMask_NoAccum_ABT. apply short_Comp_NoAccum_ok; auto; [apply zero_ABT; auto|].
  pose proof (new_CompMask_ABT tc sf) as Q.
  destruct B as [B0|v]; simpl is_output; cbv iota.
  - apply ABT_CompMask_NoAccum_ok; auto.
  - apply finish_tmp_ok; auto.
Qed.

Lemma Mask_Accum_ABT_ok f cz tz sf outp :
  mgives C (masked_accum_result truthy zc f cz tz C M sf false outp T)
    (mxm_Mask_Accum_ABT add mult truthy zc f cz tz sf outp C M A B).
Proof.
  unfold mxm_Mask_Accum_ABT. apply short_Mask_Accum_ok; auto.
  pose proof (new_Mask_ABT (fun x => x) sf) as Q.
  destruct B as [B0|v]; simpl is_output; cbv iota.
  - apply ABT_Mask_Accum_ok; auto.
  - apply finish_accum_ok; auto using rep_outp, is_replace_false, Tal_id.
Qed.

Lemma CompMask_Accum_ABT_ok f cz tz sf outp :
  mgives C (masked_accum_result truthy zc f cz tz C M sf true outp T)
    (mxm_CompMask_Accum_ABT add mult truthy zc f cz tz sf outp C M A B).
Proof.
  unfold mxm_CompMask_Accum_ABT.
  pose proof (new_CompMask_ABT (fun x => x) sf) as Q.
  destruct B as [B0|v]; simpl is_output; cbv iota.
  - apply ABT_CompMask_Accum_ok; auto.
  - apply finish_accum_ok; auto using rep_outp, is_replace_false, Tal_id.
Qed.
End ABT.

(** *** A' * B *)
Section ATB.
Hypothesis RA : ncols (now C A) = nrows C.
Hypothesis K : nrows (now C A) = nrows (now C B).
Hypothesis N : ncols C = ncols (now C B).
Notation T := (TATB add mult (now C A) (now C B)).

Lemma fill_ATB : rgives (nrows C) (ncols C) T (ATB_NoMask_kernel add mult Ct (now C A) (now C B)).
Proof. rewrite <- RA, N. apply ATB_NoMask_ok; auto. Qed.

Lemma NoMask_NoAccum_ATB_ok :
  mgives C (fun i j => option_map tc (T i j)) (mxm_NoMask_NoAccum_ATB add mult tc C A B).
Proof.
  unfold mxm_NoMask_NoAccum_ATB. apply short_NoMask_NoAccum_ok; auto; [apply zero_ATB; auto|].
  apply set_rows_ok; auto. apply fill_ATB.
Qed.

Lemma NoMask_Accum_ATB_ok f :
  mgives C (accum_result tc zc f C T) (mxm_NoMask_Accum_ATB add mult tc zc f C A B).
Proof.
  unfold mxm_NoMask_Accum_ATB. apply short_NoMask_Accum_ok; auto; [apply zero_ATB; auto|].
  apply merge_T_ok; auto. apply fill_ATB.
Qed.

Hypothesis WM : wfm (now C M).
Hypothesis RM : nrows (now C M) = nrows C.
Hypothesis CM : ncols (now C M) = ncols C.

Lemma fill_Mask_ATB sf : rgives (nrows C) (ncols C) (Tal truthy C M sf false T)
    (ATB_Mask_kernel add mult truthy sf Ct (now C M) (now C A) (now C B)).
Proof. rewrite <- RA, N. apply ATB_Mask_ok; auto; congruence. Qed.
Lemma fill_CompMask_ATB sf : rgives (nrows C) (ncols C) (Tal truthy C M sf true T)
    (ATB_CompMask_kernel add mult truthy sf Ct (now C M) (now C A) (now C B)).
Proof. rewrite <- RA, N. apply ATB_CompMask_ok; auto; congruence. Qed.

Lemma Mask_NoAccum_ATB_ok sf outp :
  mgives C (masked_result truthy tc C M sf false outp T)
    (mxm_Mask_NoAccum_ATB add mult truthy tc sf outp C M A B).
Proof.
  unfold mxm_Mask_NoAccum_ATB. apply short_Mask_NoAccum_ok; auto; [apply zero_ATB; auto|].
  apply finish_T_ok; auto using rep_outp, is_replace_false. apply fill_Mask_ATB.
Qed.

Lemma CompMask_NoAccum_ATB_ok sf outp :
  mgives C (masked_result truthy tc C M sf true outp T)
    (mxm_CompMask_NoAccum_ATB add mult truthy tc sf outp C M A B).
Proof.
  unfold mxm_CompMask_NoAccum_ATB. apply short_Comp_NoAccum_ok; auto; [apply zero_ATB; auto|].
  apply finish_T_ok; auto.
  - intros. apply comp_rep; auto.
  - intros rm. apply comp_norep.
  - apply fill_CompMask_ATB.
Qed.

Lemma Mask_Accum_ATB_ok f cz tz sf outp :
  mgives C (masked_accum_result truthy zc f cz tz C M sf false outp T)
    (mxm_Mask_Accum_ATB add mult truthy zc f cz tz sf outp C M A B).
Proof.
  unfold mxm_Mask_Accum_ATB. apply short_Mask_Accum_ok; auto.
  apply finish_accum_ok; auto using rep_outp, is_replace_false. apply fill_Mask_ATB.
Qed.

Lemma CompMask_Accum_ATB_ok f cz tz sf outp :
  (forall c, zc (cz c) = c) ->
  mgives C (masked_accum_result truthy zc f cz tz C M sf true outp T)
    (mxm_CompMask_Accum_ATB add mult truthy zc f cz tz sf outp C M A B).
Proof.
  intro Hc. unfold mxm_CompMask_Accum_ATB. apply short_Comp_Accum_ok; auto; [apply zero_ATB; auto|].
  apply finish_accum_ok; auto.
  - intros. apply comp_rep; auto.
  - intros rm. apply comp_norep.
  - apply fill_CompMask_ATB.
Qed.
End ATB.

(** *** A' * B' *)
Section ATBT.
Hypothesis RA : ncols (now C A) = nrows C.
Hypothesis K : nrows (now C A) = ncols (now C B).
Hypothesis N : ncols C = nrows (now C B).
Notation T := (TATBT add multA cb (now C A) (now C B)).

Lemma mgives_recompute {X} (D : lil X) g r :
  mgives D g r -> mgives D g (E <- r ;; Ok (lil_recompute E)).
Proof.
  intros (D' & -> & W & R). cbn [bind]. rewrite recompute_same by auto. exists D'. auto.
Qed.

Lemma NoMask_NoAccum_ATBT_ok :
  mgives C (fun i j => option_map tc (T i j)) (mxm_NoMask_NoAccum_ATBT add multA cb tc C A B).
Proof.
  unfold mxm_NoMask_NoAccum_ATBT. apply short_NoMask_NoAccum_ok; auto; [apply zero_ATBT; auto|].
  apply mgives_recompute. destruct (is_output A || is_output B).
  - eapply mgives_ext.
    + apply set_rows_ok; auto. apply (mgives_rgives Ct).
      apply (ATBT_kernel_ok add multA cb tc Ct); auto. apply lil_new_wf.
    + intros i j _ _. simpl. destruct (T i j); reflexivity.
  - apply ATBT_kernel_ok; auto.
Qed.

Lemma NoMask_Accum_ATBT_ok f :
  mgives C (accum_result tc zc f C T) (mxm_NoMask_Accum_ATBT add multA cb tc zc f C A B).
Proof.
  unfold mxm_NoMask_Accum_ATBT. apply short_NoMask_Accum_ok; auto; [apply zero_ATBT; auto|].
  apply merge_T_ok; auto. eapply rgives_ext.
  - apply (mgives_rgives Ct). apply (ATBT_kernel_ok add multA cb (fun x => x) Ct); auto. apply lil_new_wf.
  - intros i j _ _. simpl. destruct (T i j); reflexivity.
Qed.

Lemma fill_ATBT : rgives (nrows C) (ncols C) T
    (ATBT_fill add multA cb (fun x => x) Ct (now C A) (now C B)).
Proof.
  rewrite <- RA, N. eapply rgives_ext.
  - apply tgives_rgives. apply ATBT_fill_ok; auto.
  - intros i j _ _. simpl. destruct (T i j); reflexivity.
Qed.

Hypothesis WM : wfm (now C M).
Hypothesis RM : nrows (now C M) = nrows C.
Hypothesis CM : ncols (now C M) = ncols C.

Lemma Mask_NoAccum_ATBT_ok sf outp :
  mgives C (masked_result truthy tc C M sf false outp T)
    (mxm_Mask_NoAccum_ATBT add multA cb truthy tc sf outp C M A B).
Proof.
  unfold mxm_Mask_NoAccum_ATBT. apply short_Mask_NoAccum_ok; auto; [apply zero_ATBT; auto|].
  apply finish_ATBT_ok; auto. apply fill_ATBT.
Qed.
Lemma CompMask_NoAccum_ATBT_ok sf outp :
  mgives C (masked_result truthy tc C M sf true outp T)
    (mxm_CompMask_NoAccum_ATBT add multA cb truthy tc sf outp C M A B).
Proof.
  unfold mxm_CompMask_NoAccum_ATBT. apply short_Comp_NoAccum_ok; auto; [apply zero_ATBT; auto|].
  apply finish_ATBT_ok; auto. apply fill_ATBT.
Qed.
Lemma Mask_Accum_ATBT_ok f cz tz sf outp :
  mgives C (masked_accum_result truthy zc f cz tz C M sf false outp T)
    (mxm_Mask_Accum_ATBT add multA cb truthy zc f cz tz sf outp C M A B).
Proof.
  unfold mxm_Mask_Accum_ATBT. apply short_Mask_Accum_ok; auto.
  apply finish_accum_ATBT_ok; auto. apply fill_ATBT.
Qed.
Lemma CompMask_Accum_ATBT_ok f cz tz sf outp :
  (forall c, zc (cz c) = c) ->
  mgives C (masked_accum_result truthy zc f cz tz C M sf true outp T)
    (mxm_CompMask_Accum_ATBT add multA cb truthy zc f cz tz sf outp C M A B).
Proof.
  intro Hc. unfold mxm_CompMask_Accum_ATBT. apply short_Comp_Accum_ok; auto; [apply zero_ATBT; auto|].
  apply finish_accum_ATBT_ok; auto. apply fill_ATBT.
Qed.
End ATBT.
End Var.

(** ** The dispatch *)
Section Dispatch.
Context {TA TB TT TC TM TZ : Type}.
Context (add : TT -> TT -> TT) (mult : TA -> TB -> TT) (multA : TA -> TA -> TT) (cb : TB -> TA).
Context (truthy : TM -> bool) (tc : TT -> TC) (ct : TC -> TT) (zc : TZ -> TC).

Lemma written_ext (a : accum TC TT TZ) (m : mask (lil TM)) outp (C : lil TC) (T T' : smat TT) r :
  (forall i j, T i j = T' i j) ->
  written truthy zc a m outp C T r -> written truthy zc a m outp C T' r.
Proof.
  intros E (C' & H1 & H2 & H3 & H4 & H). exists C'. repeat (split; [assumption|]).
  intros. rewrite <- E. auto.
Qed.

Lemma written_mask_noacc tz (C : lil TC) (M : obj TC TM) sf cf outp (T : smat TT) r :
  (forall t, zc (tz t) = tc t) ->
  mgives C (masked_result truthy tc C M sf cf outp T) r ->
  written truthy zc (NoAcc tz) (mk sf cf (now C M)) outp C T r.
Proof.
  intros Ht H. apply (mgives_ext _ _ _ _ H). intros i j _ _. unfold masked_result, spec_write.
  rewrite allow_mk. destruct (mask_allows _ _ _ _); auto. simpl. destruct (T i j); simpl; auto.
  rewrite Ht; auto.
Qed.

Lemma written_mask_acc f cz tz (C : lil TC) (M : obj TC TM) sf cf outp (T : smat TT) r :
  mgives C (masked_accum_result truthy zc f cz tz C M sf cf outp T) r ->
  written truthy zc (Acc f cz tz) (mk sf cf (now C M)) outp C T r.
Proof.
  intros H. apply (mgives_ext _ _ _ _ H). intros i j _ _. unfold masked_accum_result.
  rewrite allow_mk. reflexivity.
Qed.

Lemma written_noacc tz (C : lil TC) outp (T : smat TT) r :
  (forall t, zc (tz t) = tc t) ->
  mgives C (fun i j => option_map tc (T i j)) r ->
  written truthy zc (NoAcc tz) NoMask outp C T r.
Proof.
  intros Ht H. apply (mgives_ext _ _ _ _ H). intros i j _ _. simpl. unfold spec_write.
  destruct (T i j); simpl; auto. rewrite Ht; auto.
Qed.

Lemma written_acc f cz tz (C : lil TC) outp (T : smat TT) r :
  (forall t, zc (tz t) = tc t) -> (forall c, zc (cz c) = c) ->
  mgives C (accum_result tc zc f C T) r ->
  written truthy zc (Acc f cz tz) NoMask outp C T r.
Proof.
  intros Ht Hc H. apply (mgives_ext _ _ _ _ H). intros i j _ _. unfold accum_result, spec_write. simpl.
  destruct (mget C i j), (T i j); simpl; auto; rewrite ?Ht, ?Hc; auto.
Qed.

Lemma row_none (X : lil TA) i : wfm X -> (forall k, mget X i k = None) -> nth i (data X) [] = [].
Proof.
  intros W H. apply (row_ext _ _ 0 (ncols X)); [apply wfm_row; auto|exact Logic.I|].
  intros j _. apply (H j).
Qed.

Lemma not_zero n : has_vals n = true -> n <> 0%Z.
Proof. unfold has_vals. intros H E. subst. discriminate. Qed.

Theorem opt_mxm_ok (a : accum TC TT TZ) (m : mask (obj TC TM)) outp (C : lil TC)
    (A : oview (TC := TC) TA) (B : oview (TC := TC) TB) :
  wfm C -> wfview (vnow C A) -> wfview (vnow C B) -> wfmask (mask_now C m) ->
  mxm_conforms (mask_now C m) C (vnow C A) (vnow C B) ->
  casts_agree tc zc a -> swap_agrees mult multA cb A B -> tmp_agrees tc ct a m A B ->
  no_stale_rows a m C A B ->
  written truthy zc a (mask_now C m) outp C
    (smul add mult (vcols (vnow C A)) (sview (vnow C A)) (sview (vnow C B)))
    (opt_mxm add mult multA cb truthy tc ct zc a m outp C A B).
Proof.
  intros WC WA WB Wm (Fm & R & Cc & K) HA HS HT HR. unfold opt_mxm.
  destruct (check_mask_ok (mask_now C m) _ _ Fm) as [-> ->]. cbn [bind].
  rewrite !check_eq_ok by auto. cbn [bind].
  assert (Q : forall M, m = MVal M \/ m = MComp M \/ m = MStruct M \/ m = MSComp M ->
     wfm (now C M) /\ nrows (now C M) = nrows C /\ ncols (now C M) = ncols C).
  { intros M H. destruct H as [->|[->|[->| ->]]]; simpl in Wm, Fm; tauto. }
  destruct A as [A|A], B as [B|B]; simpl in R, Cc, K, WA, WB, HS |- *.
  - (* A * B *)
    replace (smul add mult (ncols (now C A)) (mget (now C A)) (mget (now C B)))
      with (TAB add mult (now C A) (now C B)) by (unfold TAB; rewrite K; reflexivity).
    destruct m as [|M|M|M|M]; try (destruct (Q M) as (WM & RM & CM); [tauto|]);
      destruct a as [tz|f cz tz]; simpl in HA; try destruct HA as [HA HC]; simpl.
    + apply written_noacc; auto. apply NoMask_NoAccum_AB_ok; auto.
    + apply written_acc; auto. apply NoMask_Accum_AB_ok; auto.
      destruct B; simpl in *; [discriminate|auto].
    + apply (written_mask_noacc tz C M false false); auto. apply Mask_NoAccum_AB_ok; auto.
    + apply (written_mask_acc f cz tz C M false false); auto. apply Mask_Accum_AB_ok; auto.
    + apply (written_mask_noacc tz C M false true); auto. apply CompMask_NoAccum_AB_ok; auto.
    + apply (written_mask_acc f cz tz C M false true); auto. apply CompMask_Accum_AB_ok; auto.
    + apply (written_mask_noacc tz C M true false); auto. apply Mask_NoAccum_AB_ok; auto.
    + apply (written_mask_acc f cz tz C M true false); auto. apply Mask_Accum_AB_ok; auto.
    + apply (written_mask_noacc tz C M true true); auto. apply CompMask_NoAccum_AB_ok; auto.
    + apply (written_mask_acc f cz tz C M true true); auto. apply CompMask_Accum_AB_ok; auto.
  - (* A * B' *)
    replace (smul add mult (ncols (now C A)) (mget (now C A)) (stran (mget (now C B))))
      with (TABT add mult (now C A) (now C B)) by (unfold TABT; rewrite K; reflexivity).
    destruct m as [|M|M|M|M]; try (destruct (Q M) as (WM & RM & CM); [tauto|]);
      destruct a as [tz|f cz tz]; simpl in HA; try destruct HA as [HA HC]; simpl.
    + apply written_noacc; auto. eapply mgives_ext; [apply NoMask_NoAccum_ABT_exact; auto|].
      intros i j Hi Hj. simpl in HR |- *. destruct (_ && _) eqn:E; auto.
      apply andb_true_iff in E. destruct E as [E E1]. apply andb_true_iff in E. destruct E as [E E2].
      apply andb_true_iff in E. destruct E as [E E3]. apply empty_nil in E1.
      rewrite TABT_nil by auto. destruct B as [B|v]; simpl in E; [|discriminate].
      apply not_zero in E2, E3. simpl in HR, E2. rewrite HR; auto.
      intro k. unfold mget. rewrite E1. reflexivity.
    + apply written_acc; auto. apply NoMask_Accum_ABT_ok; auto.
      destruct B; simpl in *; [discriminate|auto].
    + apply (written_mask_noacc tz C M false false); auto. apply Mask_NoAccum_ABT_ok; auto.
    + apply (written_mask_acc f cz tz C M false false); auto. apply Mask_Accum_ABT_ok; auto.
    + apply (written_mask_noacc tz C M false true); auto. apply CompMask_NoAccum_ABT_ok; auto.
    + apply (written_mask_acc f cz tz C M false true); auto. apply CompMask_Accum_ABT_ok; auto.
    + apply (written_mask_noacc tz C M true false); auto. apply Mask_NoAccum_ABT_ok; auto.
    + apply (written_mask_acc f cz tz C M true false); auto. apply Mask_Accum_ABT_ok; auto.
    + apply (written_mask_noacc tz C M true true); auto. apply CompMask_NoAccum_ABT_ok; auto.
    + apply (written_mask_acc f cz tz C M true true); auto. apply CompMask_Accum_ABT_ok; auto.
  - (* A' * B *)
    change (smul add mult (nrows (now C A)) (stran (mget (now C A))) (mget (now C B)))
      with (TATB add mult (now C A) (now C B)).
    destruct m as [|M|M|M|M]; try (destruct (Q M) as (WM & RM & CM); [tauto|]);
      destruct a as [tz|f cz tz]; simpl in HA; try destruct HA as [HA HC]; simpl.
    + apply written_noacc; auto. apply NoMask_NoAccum_ATB_ok; auto.
    + apply written_acc; auto. apply NoMask_Accum_ATB_ok; auto.
    + apply (written_mask_noacc tz C M false false); auto. apply Mask_NoAccum_ATB_ok; auto.
    + apply (written_mask_acc f cz tz C M false false); auto. apply Mask_Accum_ATB_ok; auto.
    + apply (written_mask_noacc tz C M false true); auto. apply CompMask_NoAccum_ATB_ok; auto.
    + apply (written_mask_acc f cz tz C M false true); auto. apply CompMask_Accum_ATB_ok; auto.
    + apply (written_mask_noacc tz C M true false); auto. apply Mask_NoAccum_ATB_ok; auto.
    + apply (written_mask_acc f cz tz C M true false); auto. apply Mask_Accum_ATB_ok; auto.
    + apply (written_mask_noacc tz C M true true); auto. apply CompMask_NoAccum_ATB_ok; auto.
    + apply (written_mask_acc f cz tz C M true true); auto. apply CompMask_Accum_ATB_ok; auto.
  - (* A' * B' *)
    apply written_ext with (T := TATBT add multA cb (now C A) (now C B)).
    { intros i j. unfold TATBT, smul, stran. f_equal. apply map_ext. intro k.
      destruct (mget (now C A) k i), (mget (now C B) j k); simpl; auto. rewrite HS; auto. }
    destruct m as [|M|M|M|M]; try (destruct (Q M) as (WM & RM & CM); [tauto|]);
      destruct a as [tz|f cz tz]; simpl in HA; try destruct HA as [HA HC]; simpl.
    + apply written_noacc; auto. apply NoMask_NoAccum_ATBT_ok; auto.
    + apply written_acc; auto. apply NoMask_Accum_ATBT_ok; auto.
    + apply (written_mask_noacc tz C M false false); auto. apply Mask_NoAccum_ATBT_ok; auto.
    + apply (written_mask_acc f cz tz C M false false); auto. apply Mask_Accum_ATBT_ok; auto.
    + apply (written_mask_noacc tz C M false true); auto. apply CompMask_NoAccum_ATBT_ok; auto.
    + apply (written_mask_acc f cz tz C M false true); auto. apply CompMask_Accum_ATBT_ok; auto.
    + apply (written_mask_noacc tz C M true false); auto. apply Mask_NoAccum_ATBT_ok; auto.
    + apply (written_mask_acc f cz tz C M true false); auto. apply Mask_Accum_ATBT_ok; auto.
    + apply (written_mask_noacc tz C M true true); auto. apply CompMask_NoAccum_ATBT_ok; auto.
    + apply (written_mask_acc f cz tz C M true true); auto. apply CompMask_Accum_ATBT_ok; auto.
Qed.

Theorem opt_mxm_throws (a : accum TC TT TZ) (m : mask (obj TC TM)) outp (C : lil TC)
    (A : oview (TC := TC) TA) (B : oview (TC := TC) TB) :
  ~ mxm_conforms (mask_now C m) C (vnow C A) (vnow C B) ->
  opt_mxm add mult multA cb truthy tc ct zc a m outp C A B = Throw DimensionException.
Proof.
  intro H. unfold opt_mxm. apply check_mask_bind. intro. apply check_bind. intro.
  apply check_bind. intro. apply check_bind. intro. exfalso. apply H. unfold mxm_conforms. auto.
Qed.
End Dispatch.

(** ** The two platforms *)
Theorem opt_mxm_agrees :
  forall (TA TB TT TC TZ TM : Type) (add : TT -> TT -> TT) (mult : TA -> TB -> TT)
    (multS : TB -> TA -> TT) (multA : TA -> TA -> TT) (cb : TB -> TA) (truthy : TM -> bool)
    (tc : TT -> TC) (ct : TC -> TT) (zc : TZ -> TC) (a : accum TC TT TZ) (m : mask (obj TC TM))
    (outp : outmode) (C : lil TC) (A : oview (TC := TC) TA) (B : oview (TC := TC) TB),
    wfm C -> wfview (vnow C A) -> wfview (vnow C B) -> wfmask (mask_now C m) ->
    casts_agree tc zc a ->
    (match A, B with
     | OTrn _, OTrn _ => (forall x y, multA (cb y) x = multS y x) /\ (forall v, ct (tc v) = v)
     | _, _ => True
     end) ->
    tmp_agrees tc ct a m A B -> no_stale_rows a m C A B ->
    opt_mxm add mult multA cb truthy tc ct zc a m outp C A B =
    mxm add mult multS tc ct truthy zc a (mask_now C m) outp C (vnow C A) (vnow C B).
Proof.
  intros TA TB TT TC TZ TM add mult multS multA cb truthy tc ct zc a m outp C A B
    WC WA WB Wm HC HS HT HR.
  assert (D : mxm_conforms (mask_now C m) C (vnow C A) (vnow C B) \/
              ~ mxm_conforms (mask_now C m) C (vnow C A) (vnow C B)).
  { unfold mxm_conforms. destruct (mask_fits_dec (mask_now C m) (nrows C) (ncols C)); [|tauto].
    destruct (Nat.eq_dec (nrows C) (vrows (vnow C A))), (Nat.eq_dec (ncols C) (vcols (vnow C B))),
      (Nat.eq_dec (vcols (vnow C A)) (vrows (vnow C B))); tauto. }
  destruct D as [F|F].
  - set (mu := match A, B with OTrn _, OTrn _ => fun x y => multS y x | _, _ => mult end).
    assert (E1 : opt_mxm add mult multA cb truthy tc ct zc a m outp C A B =
                 opt_mxm add mu multA cb truthy tc ct zc a m outp C A B)
      by (subst mu; destruct A, B; reflexivity).
    assert (E2 : mxm add mult multS tc ct truthy zc a (mask_now C m) outp C (vnow C A) (vnow C B) =
                 mxm add mu multS tc ct truthy zc a (mask_now C m) outp C (vnow C A) (vnow C B))
      by (subst mu; destruct A, B; reflexivity).
    rewrite E1, E2.
    eapply written_unique;
      [apply opt_mxm_ok; auto; subst mu; destruct A, B; simpl; auto; intros; apply HS
      |destruct F as (? & ? & ? & ?); apply mxm_ok; auto; subst mu; destruct A, B; simpl; auto;
       split; [auto|apply HS]
      |reflexivity].
  - rewrite opt_mxm_throws, mxm_throws; auto.
Qed.

Theorem opt_ABT_exact :
  forall (TA TB TT TC TZ TM : Type) (add : TT -> TT -> TT) (mult : TA -> TB -> TT)
    (multA : TA -> TA -> TT) (cb : TB -> TA) (truthy : TM -> bool) (tc : TT -> TC) (ct : TC -> TT)
    (zc : TZ -> TC) (tz : TT -> TZ) (outp : outmode) (C : lil TC) (A : lil TA) (B : lil TB),
    wfm C -> wfm A -> wfm B ->
    nrows C = nrows A -> ncols C = nrows B -> ncols A = ncols B ->
    nvals A <> 0%Z -> nvals B <> 0%Z ->
    exists C' : lil TC,
      opt_mxm (TM := TM) add mult multA cb truthy tc ct zc (NoAcc tz) NoMask outp C
        (OMat (Other A)) (OTrn (Other B)) = Ok C' /\
      wfm C' /\ nrows C' = nrows C /\ ncols C' = ncols C /\
      forall i j, i < nrows C -> j < ncols C ->
        ((forall k, mget A i k = None) -> mget C' i j = mget C i j) /\
        (~ (forall k, mget A i k = None) ->
         mget C' i j = option_map tc
           (osum add (map (fun k => omap2 mult (mget A i k) (mget B j k)) (seq 0 (ncols A))))).
Proof.
  intros TA TB TT TC TZ TM add mult multA cb truthy tc ct zc tz outp C A B WC WA WB R K L NA NB.
  destruct (NoMask_NoAccum_ABT_exact add mult tc C (Other A) (Other B) WC WA WB (eq_sym R) L K)
    as (C' & E & W & R' & K' & G).
  exists C'. split; [|split; [auto|split; [auto|split; [auto|]]]].
  - unfold opt_mxm. simpl. rewrite !check_eq_ok by auto. exact E.
  - intros i j Hi Hj. simpl in *. rewrite G by auto.
    assert (HA : has_vals (nvals A) = true) by (unfold has_vals; apply negb_true_iff, Z.eqb_neq; auto).
    assert (HB : has_vals (nvals B) = true) by (unfold has_vals; apply negb_true_iff, Z.eqb_neq; auto).
    rewrite HA, HB. simpl. split; intro H.
    + rewrite (row_none A i WA H). reflexivity.
    + destruct (empty (nth i (data A) [])) eqn:E1; [|rewrite L; reflexivity].
      exfalso. apply H. intro k. unfold mget. rewrite (empty_nil _ E1). reflexivity.
Qed.
