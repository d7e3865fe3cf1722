(** Programs over two related scalar types. *)
From Coq Require Import Lia.
From Verif Require Import Base ModelLil ModelVec ModelHelpers ModelViews ModelMul ModelElem ModelIndex ModelCalls ModelMachine.
From Verif Require Import SpecRel SpecSim ProofSim ProofSimOps.

Section Sim.
Context {T T' : Type} (R : T -> T' -> Prop).
Notation rw := (same_row R).
Notation sl := (same_lil R).
Notation sv := (same_vec R).
Notation ls := (Forall2 sl).
Notation vs := (Forall2 sv).

(** ** Looking up containers *)
Lemma mlook_sim ms ms' r : ls ms ms' -> orel (view_sim R) (mlook ms r) (mlook ms' r).
Proof.
  intro F. destruct r as [k|k]; simpl; pose proof (F2_nth _ _ _ k F) as N;
    destruct (nth_error ms k), (nth_error ms' k); simpl in *; tauto.
Qed.
Lemma mask_look_sim {X X'} (P : X -> X' -> Prop) l l' m : Forall2 P l l' -> orel (maskrel P) (mask_look l m) (mask_look l' m).
Proof.
  intro F. destruct m as [|k|k|k|k]; simpl; auto; pose proof (F2_nth _ _ _ k F) as N;
    destruct (nth_error l k), (nth_error l' k); simpl in *; tauto.
Qed.
Ltac look :=
  repeat match goal with
  | F : ls ?ms ?ms' |- context [mlook ?ms ?r] =>
      let N := fresh "N" in pose proof (mlook_sim _ _ r F) as N; destruct (mlook ms r), (mlook ms' r); simpl in N; try contradiction
  | F : ls ?ms ?ms' |- context [nth_error ?ms ?k] =>
      let N := fresh "N" in pose proof (F2_nth _ _ _ k F) as N; destruct (nth_error ms k), (nth_error ms' k); simpl in N; try contradiction
  | F : vs ?ms ?ms' |- context [nth_error ?ms ?k] =>
      let N := fresh "N" in pose proof (F2_nth _ _ _ k F) as N; destruct (nth_error ms k), (nth_error ms' k); simpl in N; try contradiction
  end; simpl; auto.
Lemma mop_look_sim ms ms' o o' : ls ms ms' -> same_mop R o o' -> orel (mop_sim R) (mop_look ms o) (mop_look ms' o').
Proof.
  intros F. destruct o, o'; cbn [same_mop]; try contradiction; intro Ho;
    repeat match type of Ho with _ /\ _ => let X := fresh in destruct Ho as [X Ho] end; subst; cbn [mop_look]; look; repeat split; auto.
Qed.
Lemma vop_look_sim ms ms' us us' o o' : ls ms ms' -> vs us us' -> same_vop R o o' -> orel (vop_sim R) (vop_look ms us o) (vop_look ms' us' o').
Proof.
  intros F G. destruct o, o'; cbn [same_vop]; try contradiction; intro Ho;
    repeat match type of Ho with _ /\ _ => let X := fresh in destruct Ho as [X Ho] end; subst; cbn [vop_look]; look; repeat split; auto; apply N0 || apply N.
Qed.
Lemma rop_look_sim us us' o : vs us us' -> orel (rop_sim R) (rop_look us o) (rop_look us' o).
Proof. intros G. destruct o; cbn [rop_look]; look. Qed.
Lemma sop_look_sim ms ms' us us' o o' : ls ms ms' -> vs us us' -> same_sop R o o' -> orel (sop_sim R) (sop_look ms us o) (sop_look ms' us' o').
Proof.
  intros F G. destruct o, o'; cbn [same_sop]; try contradiction; intro Ho;
    repeat match type of Ho with _ /\ _ => let X := fresh in destruct Ho as [X Ho] end; subst; cbn [sop_look]; look; repeat split; auto; apply N.
Qed.

Lemma truth_look {X} (l : list X) m m' tr tr' : same_truth R m tr tr' -> mask_look l m = Some m' -> truth_sim R m' tr tr'.
Proof.
  destruct m as [|k|k|k|k]; simpl; intros H E; try destruct (nth_error l k); simpl in E; try discriminate; injection E as <-; simpl; auto.
Qed.

(** ** Writing in place *)
Notation outc := (fun p p' => ls (fst p) (fst p') /\ same_res eq (snd p) (snd p')).
Lemma poke_sim ms ms' c r r' : ls ms ms' -> same_res sl r r' -> outc (poke ms c r) (poke ms' c r').
Proof.
  intros F. destruct r, r'; simpl; try contradiction; intro H; split; auto. apply upd_sim; auto.
Qed.
Lemma hfor_sim l b b' : (forall i ms ms', ls ms ms' -> outc (b i ms) (b' i ms')) ->
  forall ms ms', ls ms ms' -> outc (hfor l b ms) (hfor l b' ms').
Proof.
  intro HB. induction l as [|i l IH]; intros ms ms' F; simpl; auto.
  pose proof (HB i _ _ F) as K. destruct (b i ms) as [m1 r1], (b' i ms') as [m2 r2]. destruct K as [K1 K2].
  cbn [fst snd] in K1, K2. destruct r1, r2; simpl in K2; try contradiction; subst; [apply IH; auto|split; simpl; auto..].
Qed.
Lemma hwrite_sim w w' ms ms' c Z Z' m :
  ls ms ms' -> sl Z Z' -> same_wargs R m w w' -> outc (hwrite w ms c Z m) (hwrite w' ms' c Z' m).
Proof.
  intros F HZ (Ht & _ & Hz & _ & Hp). unfold hwrite. pose proof (F2_nth _ _ _ c F) as N.
  destruct (nth_error ms c) as [C|], (nth_error ms' c) as [C'|]; simpl in N; try contradiction; [|simpl; auto].
  replace (nrows C') with (nrows C) by apply N. rewrite <- Hp.
  assert (K : outc
    (hfor (seq 0 (nrows C)) (fun i ms' => poke ms' c
       (C' <- vat ms' c ;; c_row <- getrow C' i ;; z_row <- getrow Z i ;;
        m_row <- match mask_look ms' m with Some m' => mask_row (w_truthy w) m' i | None => UB end ;;
        setRow (fun x => x) C' i (apply_with_mask (w_zc w) (w_outp w) c_row z_row m_row))) ms)
    (hfor (seq 0 (nrows C)) (fun i ms' => poke ms' c
       (C' <- vat ms' c ;; c_row <- getrow C' i ;; z_row <- getrow Z' i ;;
        m_row <- match mask_look ms' m with Some m' => mask_row (w_truthy w') m' i | None => UB end ;;
        setRow (fun x => x) C' i (apply_with_mask (w_zc w') (w_outp w) c_row z_row m_row))) ms')).
  { apply hfor_sim; auto. intros i m1 m2 G. apply poke_sim; auto.
    eapply bind_sim; [apply vat_sim; exact G|]. intros D D' HD.
    eapply bind_sim; [apply getrow_sim; exact HD|]. intros cr cr' HC.
    eapply bind_sim; [apply getrow_sim; exact HZ|]. intros zr zr' HR.
    eapply (bind_sim eq).
    - pose proof (mask_look_sim sl _ _ m G) as Q.
      destruct (mask_look m1 m) as [q|] eqn:E1, (mask_look m2 m) as [q'|]; simpl in Q; try contradiction; simpl; auto.
      apply (mask_row_sim R); auto. eapply truth_look; eauto.
    - intros mr ? <-. apply setRow_id_sim; auto. apply apply_with_mask_sim; auto. }
  destruct m; auto.
  apply hfor_sim; [|apply upd_sim; auto; apply clear_sim; auto]. intros i m1 m2 G. apply poke_sim; auto.
  eapply bind_sim; [apply vat_sim; exact G|]. intros D D' HD.
  eapply bind_sim; [apply getrow_sim; exact HZ|]. intros zr zr' HR.
  pose proof (cast_row_sim _ _ _ _ _ _ Hz HR) as CR. destruct HR; [auto|]. apply setRow_id_sim; auto.
Qed.

(** ** Container calls *)
Context (dflt : T) (dflt' : T') (HD : R dflt dflt') (eqb : T -> T -> bool) (eqb' : T' -> T' -> bool).
Notation outm P := (fun p p' => Forall2 P (fst p) (fst p') /\ same_res (same_answer R) (snd p) (snd p')).

Lemma push_res {X X'} (P : X -> X' -> Prop) l l' r r' : Forall2 P l l' -> same_res P r r' ->
  outm P (@push X T l r) (@push X' T' l' r').
Proof. intros F. destruct r, r'; simpl; try contradiction; intro; split; auto. apply Forall2_app; auto. Qed.
Lemma put_res {X X'} (P : X -> X' -> Prop) l l' k r r' : Forall2 P l l' -> same_res P r r' ->
  outm P (@put X T l k r) (@put X' T' l' k r').
Proof. intros F. destruct r, r'; simpl; try contradiction; intro; split; auto. apply upd_sim; auto. Qed.
Lemma mon_sim {X X'} (P : X -> X' -> Prop) l l' k f f' : Forall2 P l l' -> (forall x x', P x x' -> outm P (f x) (f' x')) ->
  outm P (@mon T X l k f) (@mon T' X' l' k f').
Proof.
  intros F H. unfold mon. pose proof (F2_nth _ _ _ k F) as N. destruct (nth_error l k), (nth_error l' k); simpl in N; try contradiction; auto.
Qed.
Lemma res_map_sim {A A' B B'} (RA : A -> A' -> Prop) (RB : B -> B' -> Prop) f f' r r' :
  same_res RA r r' -> (forall a a', RA a a' -> RB (f a) (f' a')) -> same_res RB (res_map f r) (res_map f' r').
Proof. destruct r, r'; simpl; try contradiction; auto. Qed.

Lemma zip3_sim is js : forall l l', Forall2 R l l' ->
  Forall2 (fun p p' => fst p = fst p' /\ R (snd p) (snd p')) (zip3 is js l) (zip3 is js l').
Proof.
  revert js. induction is as [|i is IH]; intros [|j js] l l' F; try (destruct F; constructor; fail).
  destruct F; simpl; constructor; simpl; auto.
Qed.

Lemma mstep_sim ms ms' c c' : ls ms ms' -> same_mcall R eqb eqb' c c' -> outm sl (mstep eqb ms c) (mstep eqb' ms' c').
Proof.
  intros F. destruct c, c'; cbn [same_mcall]; try contradiction; intro Hc;
    repeat match type of Hc with _ /\ _ => let X := fresh "K" in destruct Hc as [X Hc] end; subst; cbn [mstep].
  - apply push_res; auto. apply new_sim.
  - apply mon_sim; auto. intros. apply push_res; auto.
  - apply push_res; auto. apply dense_sim; auto.
  - apply push_res; auto. apply dense_sim; auto. intros v v' V. rewrite (Hc v v' zero zero0); auto.
  - apply mon_sim; auto. intros M M' HM. apply mon_sim; auto. intros N N' HN. apply put_res; auto. apply assign_sim; auto.
  - apply mon_sim; auto. intros M M' HM. apply mon_sim; auto. intros N N' HN. split; auto. simpl. apply (lil_eqb_sim R); auto.
  - apply mon_sim; auto. intros M M' HM. rewrite <- (F2_length _ _ _ Hc). destruct (_ || _); [simpl; auto|].
    pose proof (build_sim R dup dup0 K0 _ _ (zip3_sim is0 js0 _ _ Hc) _ _ HM) as [B1 B2].
    destruct (lil_build dup M _) as [X r], (lil_build dup0 M' _) as [X' r']. cbn [fst snd] in *. subst.
    split; [apply upd_sim; auto|]. destruct r'; simpl; auto.
  - apply mon_sim; auto. intros M M' HM. apply put_res; auto. apply clear_sim; auto.
  - apply mon_sim; auto. intros M M' HM. split; auto. simpl. apply HM.
  - apply mon_sim; auto. intros M M' HM. destruct (_ || _); [simpl; auto|]. apply put_res; auto. apply lil_resize_sim; auto.
  - apply mon_sim; auto. intros M M' HM. split; auto. eapply res_map_sim; [apply (has_sim R); eauto|]. simpl; auto.
  - apply mon_sim; auto. intros M M' HM. apply put_res; auto. apply setElement_sim; auto.
  - apply mon_sim; auto. intros M M' HM. apply put_res; auto. apply setElement_merge_sim; auto.
  - apply mon_sim; auto. intros M M' HM. apply put_res; auto. apply removeElement_sim; auto.
  - apply mon_sim; auto. intros M M' HM. split; auto. eapply res_map_sim; [apply (extractElement_sim R); eauto|]. simpl; auto.
  - apply mon_sim; auto. intros M M' HM. split; auto. simpl. apply tuples_sim; auto.
Qed.

Lemma combine_sim is : forall l l', Forall2 R l l' -> rw (combine is l) (combine is l').
Proof. induction is as [|i is IH]; intros l l' F; simpl; [constructor|]. destruct F; constructor; simpl; auto. apply IH; auto. Qed.

Lemma vstep_sim us us' c c' : vs us us' -> same_vcall R eqb eqb' c c' -> outm sv (vstep dflt eqb us c) (vstep dflt' eqb' us' c').
Proof.
  intros F. destruct c, c'; cbn [same_vcall]; try contradiction; intro Hc;
    repeat match type of Hc with _ /\ _ => let X := fresh "K" in destruct Hc as [X Hc] end; subst; cbn [vstep].
  - apply push_res; auto. apply vnew_sim; auto.
  - apply push_res; auto. apply mkv_sim, repeat_sim; auto.
  - apply push_res; auto. apply vdense_sim; auto.
  - apply push_res; auto. apply vdense_zero_sim; auto. intros v v' V. rewrite (Hc v v' zero zero0); auto.
  - apply mon_sim; auto. intros. apply push_res; auto.
  - apply mon_sim; auto. intros M M' HM. apply mon_sim; auto. intros N N' HN. apply put_res; auto. apply vassign_sim; auto.
  - apply mon_sim; auto. intros M M' HM. apply put_res; auto. apply vassign_dense_sim; auto.
  - apply mon_sim; auto. intros M M' HM. apply mon_sim; auto. intros N N' HN. split; auto.
    eapply res_map_sim; [apply (veqb_sim R); eauto|]. simpl; auto.
  - apply mon_sim; auto. intros M M' HM. rewrite <- (F2_length _ _ _ Hc). destruct (negb _); [simpl; auto|].
    apply put_res; auto. apply vbuild_sim; auto. apply combine_sim; auto.
  - apply mon_sim; auto. intros M M' HM. apply put_res; auto. apply vclear_sim; auto.
  - apply mon_sim; auto. intros M M' HM. split; auto. simpl. apply HM.
  - apply mon_sim; auto. intros M M' HM. destruct (_ =? _); [simpl; auto|]. apply put_res; auto. apply vresize_v_sim; auto.
  - apply mon_sim; auto. intros M M' HM. split; auto. eapply res_map_sim; [apply (vhas_sim R); eauto|]. simpl; auto.
  - apply mon_sim; auto. intros M M' HM. apply put_res; auto. apply vsetElement_sim; auto.
  - apply mon_sim; auto. intros M M' HM. apply put_res; auto. apply vremove_sim; auto.
  - apply mon_sim; auto. intros M M' HM. split; auto. eapply res_map_sim; [apply (vextract_sim R); eauto|]. simpl; auto.
  - apply mon_sim; auto. intros M M' HM. split; auto. eapply res_map_sim; [apply (contents_sim R); eauto|]. intros r r' RR. simpl.
    eapply F2_map; [exact RR|]. intros [i v] [i' v'] [E V]; simpl in *; subst; auto.
Qed.

(** ** Programs *)
Notation out := (fun p p' => same_store R (fst p) (fst p') /\ same_res (same_answer R) (snd p) (snd p')).

Lemma step_sim st st' c c' : same_store R st st' -> same_call R eqb eqb' c c' -> out (step dflt eqb st c) (step dflt' eqb' st' c').
Proof.
  intros [F G]. destruct c, c'; cbn [same_call]; try contradiction; intro Hc; unfold step.
  - pose proof (mstep_sim _ _ _ _ F Hc) as [K1 K2]. destruct (mstep eqb _ _), (mstep eqb' _ _). split; [split|]; auto.
  - pose proof (vstep_sim _ _ _ _ G Hc) as [K1 K2]. destruct (vstep dflt eqb _ _), (vstep dflt' eqb' _ _). split; [split|]; auto.
  - destruct Hc as (<- & <- & Hw & Ho).
    pose proof (F2_nth _ _ _ out F) as N1. pose proof (mask_look_sim sl _ _ m F) as N2. pose proof (mop_look_sim _ _ _ _ F Ho) as N3.
    destruct (nth_error (mats st) out) as [C|], (nth_error (mats st') out) as [C'|]; simpl in N1; try contradiction; [|split; [split|]; simpl; auto].
    destruct (mask_look (mats st) m) as [q|] eqn:Q, (mask_look (mats st') m) as [q'|]; simpl in N2; try contradiction; [|split; [split|]; simpl; auto].
    destruct (mop_look (mats st) o) as [p|], (mop_look (mats st') o0) as [p'|]; simpl in N3; try contradiction; [|split; [split|]; simpl; auto].
    assert (HW : wargs_sim R q w w0).
    { destruct Hw as (W1 & W2). split; auto. eapply truth_look; eauto. }
    pose proof (mopZ_sim R _ _ _ _ _ _ _ _ HW N2 N1 N3) as Z.
    destruct (mopZ w q C p) as [Z1| |], (mopZ w0 q' C' p') as [Z2| |]; simpl in Z; try contradiction; [|split; [split|]; simpl; auto..].
    pose proof (hwrite_sim _ _ _ _ out _ _ _ F Z Hw) as [K1 K2].
    destruct (hwrite w _ _ _ _) as [a r], (hwrite w0 _ _ _ _) as [a' r']. split; [split|]; auto.
    cbn [fst snd] in *. eapply res_map_sim; eauto. simpl; auto.
  - destruct Hc as (<- & <- & Hw & Ho).
    pose proof (F2_nth _ _ _ out G) as N1. pose proof (mask_look_sim sv _ _ m G) as N2. pose proof (vop_look_sim _ _ _ _ _ _ F G Ho) as N3.
    destruct (nth_error (vecs st) out) as [C|], (nth_error (vecs st') out) as [C'|]; simpl in N1; try contradiction; [|split; [split|]; simpl; auto].
    destruct (mask_look (vecs st) m) as [q|] eqn:Q, (mask_look (vecs st') m) as [q'|]; simpl in N2; try contradiction; [|split; [split|]; simpl; auto].
    destruct (vop_look _ _ o) as [p|], (vop_look _ _ o0) as [p'|]; simpl in N3; try contradiction; [|split; [split|]; simpl; auto].
    assert (HW : wargs_sim R q w w0).
    { destruct Hw as (W1 & W2). split; auto. eapply truth_look; eauto. }
    pose proof (vop_fun_sim R _ _ _ _ _ _ _ _ HW N2 N1 N3) as Z.
    destruct (vop_fun w q C p) as [Z1| |], (vop_fun w0 q' C' p') as [Z2| |]; simpl in Z; try contradiction; (split; [split|]; simpl; auto).
    apply upd_sim; auto.
  - destruct Hc as (<- & <- & Hw & <-).
    pose proof (F2_nth _ _ _ out F) as N1. pose proof (mask_look_sim sv _ _ m G) as N2. pose proof (rop_look_sim _ _ o G) as N3.
    destruct (nth_error (mats st) out) as [C|], (nth_error (mats st') out) as [C'|]; simpl in N1; try contradiction; [|split; [split|]; simpl; auto].
    destruct (mask_look (vecs st) m) as [q|] eqn:Q, (mask_look (vecs st') m) as [q'|]; simpl in N2; try contradiction; [|split; [split|]; simpl; auto].
    destruct (rop_look (vecs st) o) as [p|], (rop_look (vecs st') o) as [p'|]; simpl in N3; try contradiction; [|split; [split|]; simpl; auto].
    assert (HW : wargs_sim R q w w0).
    { destruct Hw as (W1 & W2). split; auto. eapply truth_look; eauto. }
    pose proof (rop_fun_sim R dflt dflt' HD _ _ _ _ _ _ _ _ HW N2 N1 N3) as Z.
    destruct (rop_fun dflt w q C p) as [Z1| |], (rop_fun dflt' w0 q' C' p') as [Z2| |]; simpl in Z; try contradiction; (split; [split|]; simpl; auto).
    apply upd_sim; auto.
  - destruct Hc as (Hw & Ho). pose proof (sop_look_sim _ _ _ _ _ _ F G Ho) as N3.
    destruct (sop_look _ _ o) as [p|], (sop_look _ _ o0) as [p'|]; simpl in N3; try contradiction; [|split; [split|]; simpl; auto]. split; [split; auto|].
    simpl. eapply res_map_sim; [apply (sop_fun_sim R)|]; eauto.
Qed.

Lemma exec_sim cs cs' : Forall2 (same_call R eqb eqb') cs cs' -> forall st st', same_store R st st' ->
  same_store R (fst (exec dflt eqb st cs)) (fst (exec dflt' eqb' st' cs')) /\
  Forall2 (same_res (same_answer R)) (snd (exec dflt eqb st cs)) (snd (exec dflt' eqb' st' cs')).
Proof.
  induction 1 as [|c c' cs cs' Hc F IH]; intros st st' H; simpl; auto.
  pose proof (step_sim _ _ _ _ H Hc) as [K1 K2].
  destruct (step dflt eqb st c) as [s r], (step dflt' eqb' st' c') as [s' r']. cbn [fst snd] in *.
  pose proof (IH _ _ K1) as [L1 L2].
  destruct (exec dflt eqb s cs), (exec dflt' eqb' s' cs'). simpl in *. split; auto.
Qed.
End Sim.
