(** The operations and whole programs over two related scalar types. *)
From Coq Require Import Lia.
From Verif Require Import Base ModelLil ModelVec ModelHelpers ModelViews ModelMul ModelElem ModelIndex ModelCalls ModelMachine.
From Verif Require Import SpecRel SpecSim ProofSim.

Section Sim.
Context {T T' : Type} (R : T -> T' -> Prop).
Notation rw := (same_row R).
Notation sl := (same_lil R).
Notation sv := (same_vec R).

Definition view_sim (A : mview T) (A' : mview T') : Prop :=
  match A, A' with Mat M, Mat M' | Trn M, Trn M' => sl M M' | _, _ => False end.

(** Steps shared by all operations. *)
Ltac dims :=
  repeat match goal with
  | H : sl ?M ?M' |- context [nrows ?M'] => replace (nrows M') with (nrows M) by apply H
  | H : sl ?M ?M' |- context [ncols ?M'] => replace (ncols M') with (ncols M) by apply H
  | H : sl ?M ?M' |- context [nvals ?M'] => replace (nvals M') with (nvals M) by apply H
  | H : sv ?M ?M' |- context [vsize ?M'] => replace (vsize M') with (vsize M) by apply H
  | H : sv ?M ?M' |- context [vnvals ?M'] => replace (vnvals M') with (vnvals M) by apply H
  | H : rw ?r ?r' |- context [empty ?r'] => rewrite <- (empty_sim _ _ _ H)
  end.
Ltac step :=
  match goal with
  | |- same_res _ (if ?b then _ else _) (if ?b then _ else _) => destruct b
  | |- same_res _ (bind (getrow _ _) _) (bind (getrow _ _) _) => eapply bind_sim; [apply getrow_sim; eassumption|intros]
  | |- same_res _ (bind (getContents _) _) (bind (getContents _) _) => eapply bind_sim; [apply contents_sim; eassumption|intros]
  | |- same_res _ (setRow (fun x => x) _ _ _) (setRow (fun y => y) _ _ _) => apply setRow_id_sim
  | |- same_res _ (setRow _ _ _ _) (setRow _ _ _ _) => apply setRow_sim
  | |- same_res _ (putrow _ _ _) (putrow _ _ _) => apply putrow_sim
  | |- same_res _ (pushcol (fun x => x) _ _ _) (pushcol (fun y => y) _ _ _) => apply pushcol_sim; [apply id_sim|..]
  | |- same_res _ (pushcol _ _ _ _) (pushcol _ _ _ _) => apply pushcol_sim
  | |- same_res _ (Ok _) (Ok _) => cbn [same_res]
  | |- sl (lil_new _ _) (lil_new _ _) => apply new_sim
  | |- rw [] [] => apply nil_sim
  | |- rw (axpy _ _ _ _ _) (axpy _ _ _ _ _) => apply axpy_sim
  | |- rw (ewise_or _ _ _ _ _) (ewise_or _ _ _ _ _) => apply ewise_or_sim
  | |- rw (ewise_or_stencil _ _ _ _ _) (ewise_or_stencil _ _ _ _ _) => apply ewise_or_stencil_sim
  | |- rw (ewise_and _ _ _) (ewise_and _ _ _) => apply ewise_and_sim
  | |- rw (cast_row _ _) (cast_row _ _) => eapply cast_row_sim
  | |- rw (_ ++ [_]) (_ ++ [_]) => apply push_sim
  | |- same_res _ (mfor (seq _ _) _ _) (mfor (seq _ _) _ _) => apply mfor_sim_eq; [|intros]
  | H : rw ?r ?r' |- same_res _ (mfor ?r _ _) (mfor ?r' _ _) =>
      eapply mfor_sim; [|exact H|intros [?j ?x] [?j ?x] ? ? [?E ?X] ?; cbn [fst snd] in *; subst]
  | |- rel1 _ _ (fun x => x) (fun y => y) => apply id_sim
  end.
Ltac go := repeat (dims; try step; try eassumption).

(** ** Accumulating and writing *)
Lemma sparse_copy_sim c c' D D' S S' : rel1 R R c c' -> sl D D' -> sl S S' -> same_res sl (sparse_copy c D S) (sparse_copy c' D' S').
Proof.
  intros. unfold sparse_copy. dims. apply mfor_sim_eq; [apply clear_sim; auto|]. intros i s s' HS. step.
  rename H2 into Hr. pose proof (cast_row_sim _ _ _ _ _ _ H Hr) as CR. destruct Hr; [auto|]. apply setRow_id_sim; auto.
Qed.
Lemma accum_sim a a' Z Z' C C' X X' : accrel R R R a a' -> sl Z Z' -> sl C C' -> sl X X' ->
  same_res sl (ewise_or_opt_accum a Z C X) (ewise_or_opt_accum a' Z' C' X').
Proof.
  intros Ha. destruct a as [tz|f cz tz], a' as [tz'|f' cz' tz']; cbn [accrel] in Ha; try contradiction; intros; unfold ewise_or_opt_accum.
  - apply sparse_copy_sim; auto.
  - destruct Ha as (? & ? & ?). go.
Qed.
Lemma stencil_accum_sim a a' z z' Z Z' C C' X X' ri ci : accrel R R R a a' -> rel1 R R z z' -> sl Z Z' -> sl C C' -> sl X X' ->
  same_res sl (ewise_or_stencil_opt_accum a z Z C X ri ci) (ewise_or_stencil_opt_accum a' z' Z' C' X' ri ci).
Proof.
  intros Ha. destruct a as [tz|f cz tz], a' as [tz'|f' cz' tz']; cbn [accrel] in Ha; try contradiction; intros; unfold ewise_or_stencil_opt_accum.
  - go.
  - destruct Ha as (? & ? & ?). go.
Qed.
Lemma accum_1D_sim a a' u u' t t' : accrel R R R a a' -> sv u u' -> rw t t' ->
  same_res rw (ewise_or_opt_accum_1D a u t) (ewise_or_opt_accum_1D a' u' t').
Proof.
  intros Ha. destruct a as [tz|f cz tz], a' as [tz'|f' cz' tz']; cbn [accrel] in Ha; try contradiction; intros; unfold ewise_or_opt_accum_1D.
  - go.
  - destruct Ha as (? & ? & ?). go.
Qed.
Lemma stencil_accum_1D_sim a a' z z' u u' t t' s : accrel R R R a a' -> rel1 R R z z' -> sv u u' -> rw t t' ->
  same_res rw (ewise_or_stencil_opt_accum_1D a z u t s) (ewise_or_stencil_opt_accum_1D a' z' u' t' s).
Proof.
  intros Ha. destruct a as [tz|f cz tz], a' as [tz'|f' cz' tz']; cbn [accrel] in Ha; try contradiction; intros; unfold ewise_or_stencil_opt_accum_1D.
  - go.
  - destruct Ha as (? & ? & ?). go.
Qed.
Lemma accum_scalar_sim a a' x x' t t' : accrel R R R a a' -> R x x' -> R t t' -> R (opt_accum_scalar a x t) (opt_accum_scalar a' x' t').
Proof.
  intros Ha. destruct a as [tz|f cz tz], a' as [tz'|f' cz' tz']; cbn [accrel] in Ha; try contradiction; intros; simpl; auto.
  destruct Ha as (? & ? & ?). auto.
Qed.

Definition truth_sim {X} (m : mask X) (tr : T -> bool) (tr' : T' -> bool) : Prop :=
  match m with MVal _ | MComp _ => rel1 R eq tr tr' | _ => True end.

Lemma mask_row_sim tr tr' m m' i : truth_sim m tr tr' -> maskrel sl m m' -> same_res eq (mask_row tr m i) (mask_row tr' m' i).
Proof.
  intros Ht Hm. destruct m, m'; simpl in Ht, Hm; try contradiction; simpl; auto; dims;
    (eapply bind_sim; [apply getrow_sim; eassumption|]; intros r r' F; simpl);
    match goal with
    | H : rel1 R eq tr tr' |- _ => rewrite (cast_row_flag _ _ _ _ _ H F); reflexivity
    | _ => rewrite (cast_row_flag R (fun _ => true) (fun _ => true) r r' (fun _ _ _ => eq_refl) F); reflexivity
    end.
Qed.
Lemma mask_contents_sim tr tr' m m' : truth_sim m tr tr' -> maskrel sv m m' -> same_res eq (mask_contents tr m) (mask_contents tr' m').
Proof.
  intros Ht Hm. destruct m, m'; simpl in Ht, Hm; try contradiction; simpl; auto; dims;
    (eapply bind_sim; [apply contents_sim; eassumption|]; intros r r' F; simpl);
    match goal with
    | H : rel1 R eq tr tr' |- _ => rewrite (cast_row_flag _ _ _ _ _ H F); reflexivity
    | _ => rewrite (cast_row_flag R (fun _ => true) (fun _ => true) r r' (fun _ _ _ => eq_refl) F); reflexivity
    end.
Qed.
Lemma write_1D_sim tr tr' zc zc' u u' z z' m m' outp : truth_sim m tr tr' -> rel1 R R zc zc' -> sv u u' -> rw z z' -> maskrel sv m m' ->
  same_res sv (write_with_opt_mask_1D tr zc u z m outp) (write_with_opt_mask_1D tr' zc' u' z' m' outp).
Proof.
  intros Ht Hz HU HZ Hm. unfold write_with_opt_mask_1D.
  assert (K : same_res sv (c <- getContents u ;; mr <- mask_contents tr m ;; setContents (fun x => x) u (apply_with_mask zc outp c z mr))
                          (c <- getContents u' ;; mr <- mask_contents tr' m' ;; setContents (fun x => x) u' (apply_with_mask zc' outp c z' mr))).
  { step. eapply bind_sim; [apply mask_contents_sim; eauto|]. intros mr ? <-. apply setContents_sim; auto. apply id_sim. apply apply_with_mask_sim; auto. }
  destruct m, m'; simpl in Hm; try contradiction; auto. apply setContents_sim; auto.
Qed.
Lemma accum_write_1D_sim tr tr' zc zc' a a' u u' t t' m m' outp : truth_sim m tr tr' -> rel1 R R zc zc' -> accrel R R R a a' -> sv u u' -> rw t t' -> maskrel sv m m' ->
  same_res sv (accum_write_1D tr zc a m outp u t) (accum_write_1D tr' zc' a' m' outp u' t').
Proof.
  intros. unfold accum_write_1D. eapply bind_sim; [apply accum_1D_sim; eassumption|]. intros. apply write_1D_sim; auto.
Qed.

(** ** Checks *)
Lemma check_mask_rows_sim m m' n : maskrel sl m m' -> check_mask_rows n m = check_mask_rows n m'.
Proof. destruct m, m'; simpl; try contradiction; auto; intros (-> & _); auto. Qed.
Lemma check_mask_cols_sim m m' n : maskrel sl m m' -> check_mask_cols n m = check_mask_cols n m'.
Proof. destruct m, m'; simpl; try contradiction; auto; intros (_ & -> & _); auto. Qed.
Lemma check_mask_size_sim m m' n : maskrel sv m m' -> check_mask_size n m = check_mask_size n m'.
Proof. destruct m, m'; simpl; try contradiction; auto; intros (-> & _); auto. Qed.
Lemma vrows_sim A A' : view_sim A A' -> vrows A = vrows A'.
Proof. destruct A, A'; simpl; try contradiction; intro H; apply H. Qed.
Lemma vcols_sim A A' : view_sim A A' -> vcols A = vcols A'.
Proof. destruct A, A'; simpl; try contradiction; intro H; apply H. Qed.
Lemma skip_sim {B B'} (RB : B -> B' -> Prop) (c : res unit) f f' :
  same_res RB f f' -> same_res RB (_ <- c ;; f) (_ <- c ;; f').
Proof. intro. destruct c; simpl; auto. Qed.

(** ** Products *)
Lemma mxm_T_sim add add' mult mult' mS mS' tc tc' ct ct' nr nc A A' B B' :
  rel2 R R R add add' -> rel2 R R R mult mult' -> rel2 R R R mS mS' -> rel1 R R tc tc' -> rel1 R R ct ct' -> view_sim A A' -> view_sim B B' ->
  same_res sl (mxm_T add mult mS tc ct nr nc A B) (mxm_T add' mult' mS' tc' ct' nr nc A' B').
Proof.
  intros Ha Hm HS Ht Hc. destruct A, A', B, B'; simpl; intros; try contradiction.
  - unfold mxm_AB. go.
  - unfold mxm_ABT. go.
    pose proof (dot_sim R add add' mult mult' a a' a0 a'0 Ha Hm H2 H4) as D.
    destruct (dot add mult a a0), (dot add' mult' a' a'0); simpl in D; try contradiction; auto. apply pushrow_sim; auto.
  - unfold mxm_ATB. go.
  - unfold mxm_ATBT. go. eapply (bind_sim rw).
    + go.
    + intros. apply pushcol_sim; auto. intros x x' X. auto.
Qed.
Lemma axpy_rows_sim add add' mult mult' A A' u u' : rel2 R R R add add' -> rel2 R R R mult mult' -> sl A A' -> sv u u' ->
  same_res rw (axpy_rows add mult A u) (axpy_rows add' mult' A' u').
Proof.
  intros. unfold axpy_rows. dims. step; [|go]. step; [apply nil_sim|].
  eapply bind_sim; [apply (vhas_sim R); eassumption|]. intros h ? <-. destruct h; [|auto]. step. dims. step; auto.
  eapply bind_sim; [apply vextract_sim; eassumption|]. intros. go.
Qed.
Lemma mxv_A_sim add add' mult mult' n A A' u u' : rel2 R R R add add' -> rel2 R R R mult mult' -> sl A A' -> sv u u' ->
  same_res rw (mxv_A add mult n A u) (mxv_A add' mult' n A' u').
Proof.
  intros Ha Hm ? ?. unfold mxv_A. go.
  pose proof (dot_rev_sim R add add' mult mult' a0 a'0 a a' Ha Hm H3 H1) as D.
  destruct (dot_rev add mult a0 a), (dot_rev add' mult' a'0 a'); simpl in D; try contradiction; auto. apply push_sim; auto.
Qed.
Lemma vxm_AT_sim add add' mult mult' n A A' u u' : rel2 R R R add add' -> rel2 R R R mult mult' -> sl A A' -> sv u u' ->
  same_res rw (vxm_AT add mult n u A) (vxm_AT add' mult' n u' A').
Proof.
  intros Ha Hm ? ?. unfold vxm_AT. go.
  pose proof (dot_sim R add add' mult mult' a a' a0 a'0 Ha Hm H1 H3) as D.
  destruct (dot add mult a a0), (dot add' mult' a' a'0); simpl in D; try contradiction; auto. apply push_sim; auto.
Qed.

(** ** Element-wise operations *)
Lemma transpose_T_sim A A' : sl A A' -> same_res sl (transpose_T A) (transpose_T A').
Proof. intro. unfold transpose_T. go. Qed.
Lemma staged_sim c c' A A' : rel1 R R c c' -> sl A A' -> same_res sl (staged_transpose c A) (staged_transpose c' A').
Proof.
  intros. unfold staged_transpose, transpose_backend, accum_write. eapply bind_sim; [apply transpose_T_sim; eassumption|]. intros X X' HX.
  cbn [write_with_opt_mask]. dims.
  eapply bind_sim; [apply accum_sim; [exact (id_sim R)|apply new_sim..|exact HX]|].
  intros. apply sparse_copy_sim; auto. apply new_sim.
Qed.
Lemma ewm_T_sim op op' A A' B B' : rel2 R R R op op' -> sl A A' -> sl B B' -> same_res sl (ewm_T op A B) (ewm_T op' A' B').
Proof.
  intros Ho ? ?. unfold ewm_T. dims. step; [|go]. step; [apply new_sim|]. go.
  pose proof (ewise_and_sim R op op' Ho _ _ H3 _ _ H2) as K. go.
Qed.
Lemma ewm_TT_sim op op' A A' B B' : rel2 R R R op op' -> sl A A' -> sl B B' -> same_res sl (ewm_TT op A B) (ewm_TT op' A' B').
Proof. intros Ho ? ?. unfold ewm_TT. go. Qed.
Lemma ewa_T_sim op op' c1 c1' c2 c2' A A' B B' : rel2 R R R op op' -> rel1 R R c1 c1' -> rel1 R R c2 c2' -> sl A A' -> sl B B' ->
  same_res sl (ewa_T op c1 c2 A B) (ewa_T op' c1' c2' A' B').
Proof.
  intros Ho Hc1 Hc2 ? ?. unfold ewa_T. dims. step; [|go]. step; [apply new_sim|]. step. step. dims. step; [go|]. dims. step; [go|].
  pose proof (ewise_or_sim R op op' c1 c1' c2 c2' Ho Hc1 Hc2 _ _ H3 _ _ H2) as K. go.
Qed.
Lemma ewa_TT_sim op op' c1 c1' c2 c2' A A' B B' : rel2 R R R op op' -> rel1 R R c1 c1' -> rel1 R R c2 c2' -> sl A A' -> sl B B' ->
  same_res sl (ewa_TT op c1 c2 A B) (ewa_TT op' c1' c2' A' B').
Proof. intros Ho Hc1 Hc2 ? ?. unfold ewa_TT. go. Qed.
Lemma apply_T_sim f f' A A' : rel1 R R f f' -> view_sim A A' -> same_res sl (apply_T f A) (apply_T f' A').
Proof. intros Hf. destruct A, A'; simpl; intros; try contradiction; go; apply pushrow_sim; auto. Qed.
Lemma reduce_T_sim c1 c1' op01 op01' op op' A A' : rel1 R R c1 c1' -> rel2 R R R op01 op01' -> rel2 R R R op op' -> view_sim A A' ->
  same_res rw (reduce_T c1 op01 op A) (reduce_T c1' op01' op' A').
Proof.
  intros H1 H2 H3. destruct A, A'; simpl; intros; try contradiction; go.
  - pose proof (reduction_sim R c1 c1' op01 op01' op op' _ _ _ _ H1 H2 H3 (id_sim R) H4) as D.
    destruct (reduction c1 op01 op _ a), (reduction c1' op01' op' _ a'); simpl in D; try contradiction; auto. apply push_sim; auto.
  - apply xpey_sim; auto.
Qed.
Lemma reduce_vs_sim id id' c1 c1' op01 op01' op op' zc zc' a a' v v' u u' :
  R id id' -> rel1 R R c1 c1' -> rel2 R R R op01 op01' -> rel2 R R R op op' -> rel1 R R zc zc' -> accrel R R R a a' -> R v v' -> sv u u' ->
  same_res R (reduce_vs id c1 op01 op zc a v u) (reduce_vs id' c1' op01' op' zc' a' v' u').
Proof.
  intros Hi H1 H2 H3 Hz Ha Hv HU. unfold reduce_vs. eapply (bind_sim R).
  - go; auto. rename a0 into r, a'0 into r'.
    pose proof (reduction_sim R c1 c1' op01 op01' op op' _ _ _ _ H1 H2 H3 (id_sim R) H) as D.
    destruct (reduction c1 op01 op _ r), (reduction c1' op01' op' _ r'); simpl in D; try contradiction; auto.
  - intros. apply Hz. apply accum_scalar_sim; auto.
Qed.
Lemma reduce_ms_sim id id' c1 c1' op01 op01' op op' op2 op2' zc zc' a a' v v' A A' :
  R id id' -> rel1 R R c1 c1' -> rel2 R R R op01 op01' -> rel2 R R R op op' -> rel2 R R R op2 op2' -> rel1 R R zc zc' -> accrel R R R a a' -> R v v' -> sl A A' ->
  same_res R (reduce_ms id c1 op01 op op2 zc a v A) (reduce_ms id' c1' op01' op' op2' zc' a' v' A').
Proof.
  intros Hi H1 H2 H3 H4 Hz Ha Hv HU. unfold reduce_ms. eapply (bind_sim R).
  - go; auto. rename a0 into r, a'0 into r'.
    pose proof (reduction_sim R c1 c1' op01 op01' op op' _ _ _ _ H1 H2 H3 (id_sim R) H0) as D.
    destruct (reduction c1 op01 op _ r), (reduction c1' op01' op' _ r'); simpl in D; try contradiction; simpl; auto.
  - intros. apply Hz. apply accum_scalar_sim; auto.
Qed.
Lemma kron_T_sim op op' nr nc A A' B B' : rel2 R R R op op' -> view_sim A A' -> view_sim B B' ->
  same_res sl (kron_T op nr nc A B) (kron_T op' nr nc A' B').
Proof.
  intros Ho. destruct A, A', B, B'; simpl; intros; try contradiction;
    unfold kron_AB, kron_ABT, kron_ATB, kron_ATBT; go; apply pushrow_sim; auto.
Qed.

(** ** Extract and assign *)
Lemma vectorExtract_sim r r' l : rw r r' -> rw (vectorExtract r l) (vectorExtract r' l).
Proof.
  intro F. unfold vectorExtract. apply (F2_fold eq rw _ _ _ _ (Forall2_same _)); [|apply nil_sim].
  intros s s' [o w] ? S <-. pose proof (drop_sim R _ _ w F) as D.
  destruct (rw_inv R _ _ D) as [[-> ->]|(j & v & v' & q & q' & -> & -> & V & Q)]; auto. destruct (j =? w); auto. apply push_sim; auto.
Qed.
Lemma matrixExtract_sim nr nc A A' ri ci : view_sim A A' -> same_res sl (matrixExtract nr nc A ri ci) (matrixExtract nr nc A' ri ci).
Proof.
  destruct A, A'; simpl; intros; try contradiction.
  - unfold matrixExtract_A. apply mfor_sim_eq; [apply new_sim|]. intros [o w] s s' S. step.
    pose proof (vectorExtract_sim _ _ ci H0) as K. go.
  - unfold matrixExtract_AT. apply mfor_sim_eq; [apply new_sim|]. intros [o w] s s' S.
    apply mfor_sim_eq; [auto|]. intros [o2 w2] t t' HT. step. pose proof (drop_sim R _ _ w2 H0) as D.
    destruct (rw_inv R _ _ D) as [[-> ->]|(j & v & v' & q & q' & -> & -> & V & Q)]; auto. destruct (j =? w2); auto. apply pushrow_sim; auto.
Qed.
Lemma scan_first_sim r r' j : rw r r' -> orel R (scan_first r j) (scan_first r' j).
Proof.
  induction 1 as [|[k x] [k0 x'] r r' [E X] F IH]; simpl; auto. cbn [fst snd] in E, X; subst k0.
  destruct (_ =? _); simpl; auto. destruct (_ <? _); simpl; auto.
Qed.
Lemma scan_all_sim r r' j : rw r r' -> Forall2 R (scan_all r j) (scan_all r' j).
Proof.
  induction 1 as [|[k x] [k0 x'] r r' [E X] F IH]; simpl; auto. cbn [fst snd] in E, X; subst k0.
  destruct (_ =? _); simpl; auto. destruct (_ <? _); simpl; auto.
Qed.
Lemma extractColumn_sim A A' ri c : view_sim A A' -> same_res rw (extractColumn A ri c) (extractColumn A' ri c).
Proof.
  destruct A, A'; simpl; intros; try contradiction.
  - apply mfor_sim_eq; [apply nil_sim|]. intros [o w] s s' S. step. simpl. pose proof (scan_first_sim _ _ c H0) as D.
    destruct (scan_first a c), (scan_first a' c); simpl in D; try contradiction; auto. apply push_sim; auto.
  - step. apply mfor_sim_eq; [apply nil_sim|]. intros [o w] s s' S. simpl. apply app_sim; auto.
    eapply F2_map; [apply (scan_all_sim _ _ w H0)|]. simpl. auto.
Qed.
Lemma expand_walk_sim r r' w : rw r r' -> rw (expand_walk r w) (expand_walk r' w).
Proof.
  induction 1 as [|[k x] [k0 x'] r r' [E X] F IH]; [apply nil_sim|]. cbn [fst snd] in E, X; subst k0. simpl.
  destruct (_ =? _); [apply cons_sim; auto|]. destruct (_ <? _); auto. apply cons_sim; auto.
Qed.
Lemma expand_loop_sim src src' ps : rw src src' -> forall it it' d d', rw it it' -> rw d d' -> rw (expand_loop src it ps d) (expand_loop src' it' ps d').
Proof.
  intro S. induction ps as [|[o i] ps IH]; intros it it' d d' I D; simpl; auto.
  pose proof (expand_walk_sim _ _ i I) as W. remember (expand_walk it i) as w. remember (expand_walk it' i) as w'. clear Heqw Heqw'.
  apply IH.
  - destruct (rw_inv R _ _ W) as [[-> ->]|(j & v & v' & q & q' & -> & -> & V & Q)]; destruct ps as [|[? ?] ?]; auto. destruct (_ <? _); auto.
  - destruct (rw_inv R _ _ W) as [[-> ->]|(j & v & v' & q & q' & -> & -> & V & Q)]; auto. destruct (_ =? _); auto. apply push_sim; auto.
Qed.
Lemma vectorExpand_sim r r' ps : rw r r' -> rw (vectorExpand r ps) (vectorExpand r' ps).
Proof. intro. apply expand_loop_sim; auto. apply nil_sim. Qed.
Lemma matrixExpand_sim nr nc A A' ri ci : view_sim A A' -> same_res sl (matrixExpand nr nc A ri ci) (matrixExpand nr nc A' ri ci).
Proof.
  destruct A, A'; simpl; intros; try contradiction.
  - apply mfor_sim_eq; [apply new_sim|]. intros i s s' S. step. dims. step; auto.
    eapply bind_sim; [apply refl_sim|]. intros o ? <-. pose proof (vectorExpand_sim _ _ (compute_outin_mapping ci) H0) as K. go.
  - apply mfor_sim_eq; [apply new_sim|]. intros [o w] s s' S. step. step; auto. apply vectorExpand_sim; auto.
Qed.
Lemma const_row_sim v v' (l : list nat) : R v v' -> rw (map (fun j => (j, v)) l) (map (fun j => (j, v')) l).
Proof. intro. apply F2_map_eq. simpl. auto. Qed.

Context (dflt : T) (dflt' : T') (HD : R dflt dflt').

Lemma assign_v_backend_sim cz cz' tr tr' zc zc' a a' m m' outp w w' u u' s :
  rel1 R R cz cz' -> truth_sim m tr tr' -> rel1 R R zc zc' -> accrel R R R a a' -> maskrel sv m m' -> sv w w' -> sv u u' ->
  same_res sv (assign_v_backend cz tr zc a m outp w u s) (assign_v_backend cz' tr' zc' a' m' outp w' u' s).
Proof.
  intros. unfold assign_v_backend. dims. apply skip_sim. cbv zeta. step.
  eapply bind_sim; [apply stencil_accum_1D_sim; [eassumption..|apply vectorExpand_sim; eassumption]|]. intros. apply write_1D_sim; auto.
Qed.

(** ** The operations of the machine *)
Definition mop_sim (o : mop T (mview T)) (o' : mop T' (mview T')) : Prop :=
  match o, o' with
  | OMxm add mult multS tc ct A B, OMxm add' mult' multS' tc' ct' A' B' =>
      rel2 R R R add add' /\ rel2 R R R mult mult' /\ rel2 R R R multS multS' /\ rel1 R R tc tc' /\ rel1 R R ct ct' /\ view_sim A A' /\ view_sim B B'
  | OEwiseMult op opA ba A B, OEwiseMult op' opA' ba' A' B' =>
      rel2 R R R op op' /\ rel2 R R R opA opA' /\ rel1 R R ba ba' /\ view_sim A A' /\ view_sim B B'
  | OEwiseAdd op c1 c2 opA c2A ba A B, OEwiseAdd op' c1' c2' opA' c2A' ba' A' B' =>
      rel2 R R R op op' /\ rel1 R R c1 c1' /\ rel1 R R c2 c2' /\ rel2 R R R opA opA' /\ rel1 R R c2A c2A' /\ rel1 R R ba ba' /\ view_sim A A' /\ view_sim B B'
  | OApply f A, OApply f' A' => rel1 R R f f' /\ view_sim A A'
  | OTranspose A, OTranspose A' => view_sim A A'
  | OKron op A B, OKron op' A' B' => rel2 R R R op op' /\ view_sim A A' /\ view_sim B B'
  | OExtract A rs cs, OExtract A' rs' cs' => view_sim A A' /\ rs = rs' /\ cs = cs'
  | OAssign A rs cs, OAssign A' rs' cs' => view_sim A A' /\ rs = rs' /\ cs = cs'
  | OAssignC v rs cs, OAssignC v' rs' cs' => R v v' /\ rs = rs' /\ cs = cs'
  | _, _ => False
  end.
Definition vop_sim (o : vop T (mview T) (bvec T)) (o' : vop T' (mview T') (bvec T')) : Prop :=
  match o, o' with
  | OMxv add mult multS A u, OMxv add' mult' multS' A' u' =>
      rel2 R R R add add' /\ rel2 R R R mult mult' /\ rel2 R R R multS multS' /\ view_sim A A' /\ sv u u'
  | OVxm add mult u A, OVxm add' mult' u' A' => rel2 R R R add add' /\ rel2 R R R mult mult' /\ view_sim A A' /\ sv u u'
  | OEwiseMultV op u v, OEwiseMultV op' u' v' => rel2 R R R op op' /\ sv u u' /\ sv v v'
  | OEwiseAddV op c1 c2 u v, OEwiseAddV op' c1' c2' u' v' =>
      rel2 R R R op op' /\ rel1 R R c1 c1' /\ rel1 R R c2 c2' /\ sv u u' /\ sv v v'
  | OApplyV f u, OApplyV f' u' => rel1 R R f f' /\ sv u u'
  | OReduce c1 op01 op A, OReduce c1' op01' op' A' => rel1 R R c1 c1' /\ rel2 R R R op01 op01' /\ rel2 R R R op op' /\ view_sim A A'
  | OExtractV u s, OExtractV u' s' => sv u u' /\ s = s'
  | OExtractCol A rs c, OExtractCol A' rs' c' => view_sim A A' /\ rs = rs' /\ c = c'
  | OAssignV u s, OAssignV u' s' => sv u u' /\ s = s'
  | OAssignCV v s, OAssignCV v' s' => R v v' /\ s = s'
  | _, _ => False
  end.
Definition rop_sim (o : rop (bvec T)) (o' : rop (bvec T')) : Prop :=
  match o, o' with
  | OAssignCol u rs c, OAssignCol u' rs' c' => sv u u' /\ rs = rs' /\ c = c'
  | OAssignRow u r cs, OAssignRow u' r' cs' => sv u u' /\ r = r' /\ cs = cs'
  | _, _ => False
  end.
Definition sop_sim (o : sop T (lil T) (bvec T)) (o' : sop T' (lil T') (bvec T')) : Prop :=
  match o, o' with
  | OReduceVS id c1 op01 op val u, OReduceVS id' c1' op01' op' val' u' =>
      R id id' /\ rel1 R R c1 c1' /\ rel2 R R R op01 op01' /\ rel2 R R R op op' /\ R val val' /\ sv u u'
  | OReduceMS id c1 op01 op op2 val A, OReduceMS id' c1' op01' op' op2' val' A' =>
      R id id' /\ rel1 R R c1 c1' /\ rel2 R R R op01 op01' /\ rel2 R R R op op' /\ rel2 R R R op2 op2' /\ R val val' /\ sl A A'
  | _, _ => False
  end.
Definition wargs_sim {X} (m : mask X) (w : wargs T) (w' : wargs T') : Prop :=
  truth_sim m (w_truthy w) (w_truthy w') /\ rel1 R R (w_cz w) (w_cz w') /\ rel1 R R (w_zc w) (w_zc w') /\
  accrel R R R (w_acc w) (w_acc w') /\ w_outp w = w_outp w'.

Ltac views :=
  repeat match goal with
  | H : view_sim ?A ?A' |- context [vrows ?A'] => rewrite <- (vrows_sim _ _ H)
  | H : view_sim ?A ?A' |- context [vcols ?A'] => rewrite <- (vcols_sim _ _ H)
  | H : maskrel sl ?m ?m' |- context [check_mask_rows _ ?m'] => rewrite <- (check_mask_rows_sim _ _ _ H)
  | H : maskrel sl ?m ?m' |- context [check_mask_cols _ ?m'] => rewrite <- (check_mask_cols_sim _ _ _ H)
  | H : maskrel sv ?m ?m' |- context [check_mask_size _ ?m'] => rewrite <- (check_mask_size_sim _ _ _ H)
  end; repeat apply skip_sim.

Lemma mopZ_sim w w' m m' C C' o o' : wargs_sim m w w' -> maskrel sl m m' -> sl C C' -> mop_sim o o' ->
  same_res sl (mopZ w m C o) (mopZ w' m' C' o').
Proof.
  intros (Ht & Hcz & Hzc & Ha & _) Hm HC.
  destruct o, o'; cbn [mop_sim]; try contradiction; intro Ho; repeat match type of Ho with _ /\ _ => let X := fresh in destruct Ho as [X Ho] end; subst;
    cbn [mopZ]; cbv zeta; dims.
  - views. eapply bind_sim; [apply mxm_T_sim; eassumption|]. intros. apply accum_sim; auto. apply new_sim.
  - unfold ewise_checks. dims. views.
    eapply (bind_sim sl); [|intros; apply accum_sim; auto; apply new_sim].
    destruct A, A0, B, B0; simpl in *; try contradiction.
    + apply ewm_T_sim; auto.
    + eapply bind_sim; [apply staged_sim; eassumption|]. intros. apply ewm_T_sim; auto.
    + eapply bind_sim; [apply staged_sim; [apply id_sim|eassumption]|]. intros. apply ewm_T_sim; auto.
    + apply ewm_TT_sim; auto.
  - unfold ewise_checks. dims. views.
    eapply (bind_sim sl); [|intros; apply accum_sim; auto; apply new_sim].
    destruct A, A0, B, B0; simpl in *; try contradiction.
    + apply ewa_T_sim; auto.
    + eapply bind_sim; [apply staged_sim; eassumption|]. intros. apply ewa_T_sim; auto.
    + eapply bind_sim; [apply staged_sim; [apply id_sim|eassumption]|]. intros. apply ewa_T_sim; auto.
    + apply ewa_TT_sim; auto.
  - views. eapply bind_sim; [apply apply_T_sim; eassumption|]. intros. apply accum_sim; auto. apply new_sim.
  - views. destruct A, A0; simpl in Ho; try contradiction.
    + eapply bind_sim; [apply transpose_T_sim; eassumption|]. intros. apply accum_sim; auto. apply new_sim.
    + apply accum_sim; auto. apply new_sim.
  - views. eapply bind_sim; [apply kron_T_sim; eassumption|]. intros. apply accum_sim; auto. apply new_sim.
  - views. eapply bind_sim; [apply matrixExtract_sim; eassumption|]. intros. apply accum_sim; auto. apply new_sim.
  - views. eapply bind_sim; [apply matrixExpand_sim; eassumption|]. intros. apply stencil_accum_sim; auto. apply new_sim.
  - views. eapply (bind_sim sl); [|intros; apply stencil_accum_sim; auto; apply new_sim].
    apply mfor_sim_eq; [apply new_sim|]. intros i s s' S.
    match goal with |- same_res _ (if empty (map _ ?l) then _ else _) _ => pose proof (const_row_sim _ _ l H) as K end. go.
Qed.

Lemma vop_fun_sim w w' m m' x x' o o' : wargs_sim m w w' -> maskrel sv m m' -> sv x x' -> vop_sim o o' ->
  same_res sv (vop_fun w m x o) (vop_fun w' m' x' o').
Proof.
  intros (Ht & Hcz & Hzc & Ha & Hp) Hm HX.
  destruct o, o'; cbn [vop_sim]; try contradiction; intro Ho; repeat match type of Ho with _ /\ _ => let X := fresh in destruct Ho as [X Ho] end; subst;
    cbn [vop_fun]; cbv zeta; rewrite <- Hp.
  - unfold mxv. dims. views. eapply (bind_sim rw); [|intros; apply accum_write_1D_sim; auto].
    destruct A, A0; simpl in *; try contradiction; [apply mxv_A_sim|apply axpy_rows_sim]; auto.
  - unfold vxm. dims. views. eapply (bind_sim rw); [|intros; apply accum_write_1D_sim; auto].
    destruct A, A0; simpl in *; try contradiction; [apply axpy_rows_sim|apply vxm_AT_sim]; auto.
  - unfold eWiseMult_v. dims. views. eapply (bind_sim rw); [|intros; apply accum_write_1D_sim; auto]. go.
  - unfold eWiseAdd_v. dims. views. eapply (bind_sim rw); [|intros; apply accum_write_1D_sim; auto]. go.
  - unfold apply_v. dims. views. eapply (bind_sim rw); [|intros; apply accum_write_1D_sim; auto]. go. auto.
  - unfold reduce. dims. views. eapply (bind_sim rw); [|intros; apply accum_write_1D_sim; auto]. apply reduce_T_sim; auto.
  - unfold extract_v. dims. views. go. apply accum_write_1D_sim; auto. apply vectorExtract_sim; auto.
  - unfold extract_col. dims. views. eapply (bind_sim rw); [|intros; apply accum_write_1D_sim; auto]. apply extractColumn_sim; auto.
  - unfold assign_v. dims. views. apply assign_v_backend_sim; auto.
  - unfold assign_const_v. dims. views. eapply (bind_sim rw); [|intros; apply write_1D_sim; auto].
    apply stencil_accum_1D_sim; auto. apply const_row_sim; auto.
Qed.

Lemma rop_fun_sim w w' m m' C C' o o' : wargs_sim m w w' -> maskrel sv m m' -> sl C C' -> rop_sim o o' ->
  same_res sl (rop_fun dflt w m C o) (rop_fun dflt' w' m' C' o').
Proof.
  intros (Ht & Hcz & Hzc & Ha & Hp) Hm HX.
  destruct o, o'; cbn [rop_sim]; try contradiction; intros (HU & -> & ->); cbn [rop_fun]; cbv zeta; rewrite <- Hp.
  - unfold assign_col. dims. views. eapply bind_sim; [apply getCol_sim; eassumption|]. intros.
    eapply bind_sim; [apply vec_of_row_sim; eassumption|]. intros.
    eapply bind_sim; [apply assign_v_backend_sim; eassumption|]. intros.
    eapply bind_sim; [apply row_of_vec_sim; eassumption|]. intros. apply setCol_sim; auto. apply id_sim.
  - unfold assign_row. dims. views. step.
    eapply bind_sim; [apply vec_of_row_sim; eassumption|]. intros.
    eapply bind_sim; [apply assign_v_backend_sim; eassumption|]. intros.
    eapply bind_sim; [apply row_of_vec_sim; eassumption|]. intros. apply setRow_id_sim; auto.
Qed.
Lemma sop_fun_sim w w' o o' : wargs_sim (@NoMask unit) w w' -> sop_sim o o' -> same_res R (sop_fun w o) (sop_fun w' o').
Proof.
  intros (Ht & Hcz & Hzc & Ha & Hp).
  destruct o, o'; cbn [sop_sim]; try contradiction; intro Ho; repeat match type of Ho with _ /\ _ => let X := fresh in destruct Ho as [X Ho] end;
    cbn [sop_fun]; [apply reduce_vs_sim|apply reduce_ms_sim]; auto.
Qed.
End Sim.
