(** The optimized products write the product of their specification. *)
From Coq Require Import Lia.
From Verif Require Import Base ModelLil ModelVec ModelHelpers ModelViews ModelMul ModelOptMxm Spec SpecOps.
From Verif Require Import ProofBase ProofRow ProofLil ProofVec ProofCalls ProofContainers ProofWrite ProofViews ProofMul.
From Verif Require Import ProofOptRow.

(** ** Row results *)

Lemma ounion_comb {D1 D2 D3} (op : D1 -> D2 -> D3) c1 c2 x y :
  comb_or op c1 c2 x y = ounion op c1 c2 x y.
Proof. reflexivity. Qed.

Section Rows.
Context {TM : Type} (truthy : TM -> bool) (sf cf : bool).

Definition allow (rm : row TM) (j : nat) : bool := xorb (mtest truthy sf rm j) cf.

(** A result restricted to the positions the mask allows. *)
Definition within {T} (al : nat -> bool) (f : svec T) : svec T :=
  fun j => if al j then f j else None.

Lemma within_In {T} al nc (f : svec T) t p :
  gives nc (within al f) t -> In p t -> al (fst p) = true.
Proof.
  intros [W G] Hp. destruct p as [j v]. pose proof (wfrow_In _ _ _ _ _ W Hp).
  apply (rget_In _ _ _ _ _ W) in Hp. rewrite G in Hp by lia. unfold within in Hp. simpl.
  destruct (al j); auto. discriminate.
Qed.

Lemma gives_masked_merge {TC TZ} (zc : TZ -> TC) nc rm c (z : row TZ) f :
  wfrow 0 nc rm -> wfrow 0 nc c -> gives nc (within (allow rm) f) z ->
  gives nc (fun j => if allow rm j then option_map zc (f j) else rget c j)
    (masked_merge truthy sf cf zc rm c z).
Proof.
  intros Wm Wc Gz.
  rewrite (masked_merge_filter truthy sf cf (mtest truthy sf rm) zc z rm c 0 nc); auto.
  2: { apply Gz. }
  2: { eapply mask_at_test; eauto. }
  2: { intros p Hp. apply (within_In (allow rm) nc f z p Gz Hp). }
  destruct (ewise_or_spec (fun _ x => zc x) (fun y : TC => y) zc
     (filter (fun p => negb (allow rm (fst p))) c) z 0 nc) as [W G].
  - apply filter_wf; auto.
  - apply Gz.
  - split; [exact W|]. intros j Hj. unfold allow in G at 2. rewrite G, ounion_comb.
    rewrite (filter_rget (fun j => negb (allow rm j)) c 0 nc) by auto.
    rewrite (proj2 Gz) by auto. unfold within.
    destruct (allow rm j); simpl; [destruct (f j); reflexivity|].
    destruct (rget c j); reflexivity.
Qed.

Lemma gives_masked_accum {TC TT TZ} (f : TC -> TT -> TZ) cz tz nc rm c (t : row TT) g :
  wfrow 0 nc rm -> wfrow 0 nc c -> gives nc (within (allow rm) g) t ->
  gives nc (within (allow rm) (fun j => ounion f cz tz (rget c j) (g j)))
    (masked_accum truthy sf cf f cz tz t rm c).
Proof.
  intros Wm Wc Gt.
  rewrite (masked_accum_filter truthy sf cf (mtest truthy sf rm) f cz tz t c rm 0 nc); auto.
  2: { apply Gt. }
  2: { eapply mask_at_test; eauto. }
  2: { intros p Hp. apply (within_In (allow rm) nc g t p Gt Hp). }
  destruct (ewise_or_spec f cz tz (filter (fun p => allow rm (fst p)) c) t 0 nc) as [W G].
  - apply filter_wf; auto.
  - apply Gt.
  - split; [exact W|]. intros j Hj. unfold allow in G at 2. rewrite G, ounion_comb.
    rewrite (filter_rget (allow rm) c 0 nc) by auto.
    rewrite (proj2 Gt) by auto. unfold within. destruct (allow rm j); reflexivity.
Qed.

Lemma gives_mask_row {TT TO} (g : TT -> TO) nc rm (t : row TT) f :
  wfrow 0 nc rm -> gives nc f t ->
  gives nc (within (allow rm) (fun j => option_map g (f j))) (mask_row_loop truthy sf cf g rm t).
Proof.
  intros Wm Gt.
  rewrite (mask_row_filter truthy sf cf (mtest truthy sf rm) g t rm 0 nc); auto.
  2: { apply Gt. }
  2: { eapply mask_at_test; eauto. }
  change (gives nc (within (allow rm) (fun j => option_map g (f j)))
            (cast_row g (filter (fun p => allow rm (fst p)) t))).
  eapply gives_ext; [apply gives_cast with (f := within (allow rm) f)|].
  - split; [apply filter_wf; apply Gt|]. intros j Hj.
    rewrite (filter_rget (allow rm) t 0 nc) by apply Gt. rewrite (proj2 Gt) by auto. reflexivity.
  - intros j Hj. unfold within. destruct (allow rm j); reflexivity.
Qed.

Lemma masked_axpy_eq {TA TB TT} (add : TT -> TT -> TT) (mult : TA -> TB -> TT) a c rm b nc :
  wfrow 0 nc rm -> wfrow 0 nc b ->
  masked_axpy truthy sf cf add mult a c rm b =
  axpy add mult a c (filter (fun p => allow rm (fst p)) b).
Proof.
  intros Wm Wb. unfold masked_axpy.
  destruct (empty rm && cf) eqn:E.
  - apply andb_true_iff in E. destruct E as [E1 E2]. apply empty_nil in E1. subst rm.
    rewrite filter_true; auto. intros p _. unfold allow, mtest. rewrite E2. reflexivity.
  - rewrite (masked_axpy_filter truthy sf cf (mtest truthy sf rm) add mult a b c rm 0 nc); auto.
    eapply mask_at_test; eauto.
Qed.

Lemma allow_nil j : allow [] j = cf.
Proof. unfold allow, mtest. simpl. destruct cf; reflexivity. Qed.
End Rows.

Lemma osum_within {TA TB TT} (add : TT -> TT -> TT) (mult : TA -> TB -> TT) (al : bool)
    (x : nat -> option TA) (y : nat -> option TB) l :
  osum add (map (fun k => omap2 mult (x k) (if al then y k else None)) l) =
  if al then osum add (map (fun k => omap2 mult (x k) (y k)) l) else None.
Proof.
  destruct al; auto. apply osum_none. intros k _. destruct (x k); reflexivity.
Qed.

(** ** One row of each product *)
Section Prod.
Context {TA TB TT TM : Type} (add : TT -> TT -> TT) (mult : TA -> TB -> TT) (truthy : TM -> bool).

(** Row [i] of [A*B], [ra] being row [i] of [A]. *)
Definition prow (ra : row TA) (K : nat) (B : smat TB) : svec TT :=
  fun j => osum add (map (fun k => omap2 mult (rget ra k) (B k j)) (seq 0 K)).

Lemma AB_row_ok (B : lil TB) ra :
  wfm B -> wfrow 0 (nrows B) ra ->
  exists t, AB_row add mult B ra = Ok t /\ gives (ncols B) (prow ra (nrows B) (mget B)) t.
Proof.
  intros WB Wr. unfold AB_row.
  rewrite (mfor_pure _ _ (fun t p => axpy add mult (snd p) t (nth (fst p) (data B) []))).
  - eexists. split; [reflexivity|].
    destruct (axpy_fold add mult ra (fun k => nth k (data B) []) (nrows B) (ncols B) []) as [W G]; auto.
    + intros; apply wfm_row; auto.
    + exact Logic.I.
    + split; [exact W|]. intros j Hj. rewrite G. reflexivity.
  - intros [k a] t Hp. pose proof (wfrow_In _ _ _ _ _ Wr Hp). cbn [fst snd].
    rewrite getrow_ok by (rewrite (wfm_len B WB); lia). cbn [bind].
    destruct (empty (nth k (data B) [])) eqn:Em; auto.
    apply empty_nil in Em. rewrite Em. reflexivity.
Qed.

Lemma AB_masked_row_ok sf cf (B : lil TB) rm ra :
  wfm B -> wfrow 0 (nrows B) ra -> wfrow 0 (ncols B) rm ->
  exists t, AB_masked_row add mult truthy sf cf B rm ra = Ok t /\
    gives (ncols B) (within (allow truthy sf cf rm) (prow ra (nrows B) (mget B))) t.
Proof.
  intros WB Wr Wm. unfold AB_masked_row.
  set (fl := fun k => filter (fun p => allow truthy sf cf rm (fst p)) (nth k (data B) [])).
  rewrite (mfor_pure _ _ (fun t p => axpy add mult (snd p) t (fl (fst p)))).
  - eexists. split; [reflexivity|].
    destruct (axpy_fold add mult ra fl (nrows B) (ncols B) []) as [W G]; auto.
    + intros; apply filter_wf; apply wfm_row; auto.
    + exact Logic.I.
    + split; [exact W|]. intros j Hj. rewrite G. simpl.
      unfold within, prow. rewrite <- osum_within. unfold osum. f_equal. apply map_ext. intro k.
      unfold fl. rewrite (filter_rget _ _ 0 (ncols B)) by (apply wfm_row; auto). reflexivity.
  - intros [k a] t Hp. pose proof (wfrow_In _ _ _ _ _ Wr Hp). cbn [fst snd].
    rewrite getrow_ok by (rewrite (wfm_len B WB); lia). cbn [bind].
    destruct (empty (nth k (data B) [])) eqn:Em.
    + apply empty_nil in Em. unfold fl. rewrite Em. reflexivity.
    + rewrite (masked_axpy_eq truthy sf cf add mult a t rm _ (ncols B)); auto. apply wfm_row; auto.
Qed.

Lemma prow_nil K B j : prow [] K B j = None.
Proof. unfold prow. apply osum_none. reflexivity. Qed.

Lemma ABT_row_ok (B : lil TB) ra :
  wfm B -> wfrow 0 (ncols B) ra ->
  exists t, ABT_row add mult B ra = Ok t /\
    gives (nrows B) (prow ra (ncols B) (stran (mget B))) t.
Proof.
  intros WB Wr. unfold ABT_row.
  set (f := fun c => dot add mult ra (nth c (data B) [])).
  rewrite (append_loop f).
  - eexists. split; [reflexivity|]. simpl. split; [apply genrow_wf0|].
    intros j Hj. rewrite genrow_get. ltb. unfold f.
    rewrite (dot_spec add mult _ _ (ncols B)); auto. apply wfm_row; auto.
  - intros j t Hj. rewrite getrow_ok by (rewrite (wfm_len B WB); lia). cbn [bind]. unfold f.
    destruct (empty (nth j (data B) [])) eqn:Em.
    + apply empty_nil in Em. rewrite Em. unfold dot. rewrite dot_loop_nil_r. simpl.
      rewrite app_nil_r. reflexivity.
    + destruct (dot add mult ra (nth j (data B) [])); simpl; auto. rewrite app_nil_r; auto.
Qed.

Lemma ABT_masked_row_ok sf cf (B : lil TB) rm ra :
  wfm B -> wfrow 0 (ncols B) ra -> wfrow 0 (nrows B) rm ->
  exists t, ABT_masked_row add mult truthy sf cf B rm ra = Ok t /\
    gives (nrows B) (within (allow truthy sf cf rm) (prow ra (ncols B) (stran (mget B)))) t.
Proof.
  intros WB Wr Wm. unfold ABT_masked_row.
  set (al := allow truthy sf cf rm).
  set (f := fun c => if al c then dot add mult ra (nth c (data B) []) else None).
  match goal with |- context [mfor _ ?b _] => set (body := b) end.
  destruct (mfor_seq_inv (fun k s => agree truthy sf (mtest truthy sf rm) k (fst s) /\
     snd s = genrow f 0 k) body (nrows B) (rm, [])) as (s & E & _ & G).
  - split; [eapply mask_at_test; eauto|reflexivity].
  - intros j [m t] Hj [A G]. simpl in A, G. unfold body.
    rewrite getrow_ok by (rewrite (wfm_len B WB); lia). cbn [bind].
    change (1 + j) with (S j).
    destruct (empty (nth j (data B) [])) eqn:Em.
    { exists (m, t). split; [auto|]. simpl. split; [eapply agree_weaken; eauto|].
      rewrite genrow_S, G. simpl. unfold f at 3. apply empty_nil in Em. rewrite Em.
      unfold dot. rewrite dot_loop_nil_r. destruct (al j); simpl; rewrite app_nil_r; auto. }
    rewrite A by lia.
    assert (A' : agree truthy sf (mtest truthy sf rm) (S j) (drop_below m j)).
    { apply agree_weaken with (lo := j); [|lia]. eapply agree_drop; eauto. }
    assert (Eq : Bool.eqb (mtest truthy sf rm j) cf = negb (al j)).
    { unfold al, allow. destruct (mtest truthy sf rm j), cf; reflexivity. }
    rewrite Eq. destruct (al j) eqn:Ea; simpl negb; cbv iota.
    2: { exists (drop_below m j, t). split; [auto|]. simpl. split; [auto|].
         rewrite genrow_S, G. simpl. unfold f at 3. rewrite Ea. simpl. rewrite app_nil_r; auto. }
    destruct (dot add mult ra (nth j (data B) [])) eqn:Ed; eexists; (split; [reflexivity|]); simpl;
      (split; [auto|]); rewrite genrow_S, G; simpl; unfold f at 3; rewrite Ea, Ed; simpl; auto.
    rewrite app_nil_r; auto.
  - rewrite E. simpl. eexists. split; [reflexivity|]. rewrite G. split; [apply genrow_wf0|].
    intros j Hj. rewrite genrow_get. ltb. unfold f, within. destruct (al j); auto.
    rewrite (dot_spec add mult _ _ (ncols B)); auto. apply wfm_row; auto.
Qed.
End Prod.

(** ** Loops over the rows of the output *)

Definition setgives {T} (C : lil T) (i nc : nat) (f : svec T) (r : res (lil T)) : Prop :=
  exists t, r = Ok (setrow_pure C i t) /\ gives nc f t.

Definition mgives {T} (C : lil T) (f : smat T) (r : res (lil T)) : Prop :=
  exists C', r = Ok C' /\ wfm C' /\ nrows C' = nrows C /\ ncols C' = ncols C /\
    forall i j, i < nrows C -> j < ncols C -> mget C' i j = f i j.

Lemma mgives_ext {T} (C : lil T) (f g : smat T) r :
  mgives C f r -> (forall i j, i < nrows C -> j < ncols C -> f i j = g i j) -> mgives C g r.
Proof.
  intros (C' & E & W & R & K & G) H. exists C'. repeat (split; [assumption|]).
  intros. rewrite <- H by auto. auto.
Qed.

Lemma setgives_ext {T} (C : lil T) i nc (f g : svec T) r :
  setgives C i nc f r -> (forall j, j < nc -> f j = g j) -> setgives C i nc g r.
Proof. intros (t & E & G) H. exists t. split; auto. eapply gives_ext; eauto. Qed.

(** The output while row [i] is being computed. *)
Definition at_row {T} (C : lil T) (i : nat) (C' : lil T) : Prop :=
  i < nrows C /\ nrows C' = nrows C /\ ncols C' = ncols C /\ length (data C') = nrows C /\
  nth i (data C') [] = nth i (data C) [].

Lemma loop_gives {T} (body : nat -> lil T -> res (lil T)) (C : lil T) (f : smat T) :
  wfm C -> (forall i C', at_row C i C' -> setgives C' i (ncols C) (f i) (body i C')) ->
  mgives C f (mfor (seq 0 (nrows C)) body C).
Proof.
  intros W H.
  assert (Q : forall i C', at_row C i C' ->
    body i C' = Ok (setrow_pure C' i (genrow (f i) 0 (ncols C))) ).
  { intros i C' A. destruct (H i C' A) as (t & E & G). rewrite E. do 2 f_equal.
    eapply gives_unique; [exact G|]. split; [apply genrow_wf0|].
    intros j Hj. rewrite genrow_get. ltb. reflexivity. }
  destruct (rows_loop_full body (fun i => genrow (f i) 0 (ncols C)) C W) as (C' & E & W' & R & K & G).
  - intros. apply Q. repeat (split; [assumption|]). assumption.
  - intros; apply genrow_wf0.
  - exists C'. repeat (split; [assumption|]). intros i j Hi Hj.
    rewrite G by auto. rewrite genrow_get. ltb. reflexivity.
Qed.

Section Fin.
Context {TC : Type}.

Lemma fin_set {T} (to : T -> TC) (C : lil TC) i nc f t :
  i < length (data C) -> gives nc f t ->
  setgives C i nc (fun j => option_map to (f j)) (setRow to C i t).
Proof.
  intros L G. rewrite setRow_ok by auto. eexists. split; [reflexivity|]. apply gives_cast; auto.
Qed.

Lemma fin_mergeRow {S} (cast : S -> TC) (op : TC -> S -> TC) (C : lil TC) i nc f t :
  i < length (data C) -> wfrow 0 nc (nth i (data C) []) -> gives nc f t ->
  setgives C i nc (fun j => ounion op (fun c => c) cast (rget (nth i (data C) []) j) (f j))
    (mergeRow cast op C i t).
Proof.
  intros L W [Wt Gt]. unfold mergeRow. destruct t as [|p t].
  - exists (nth i (data C) []). rewrite setrow_pure_self. split; [auto|]. split; [auto|].
    intros j Hj. rewrite <- Gt by auto. simpl. destruct (rget _ j); reflexivity.
  - rewrite getrow_ok by auto. cbn [bind].
    assert (Q : gives nc (fun j => ounion op (fun c => c) cast (rget (nth i (data C) []) j) (f j))
      (ewise_or op (fun c => c) cast (nth i (data C) []) (p :: t))).
    { destruct (ewise_or_spec op (fun c => c) cast (nth i (data C) []) (p :: t) 0 nc W Wt) as [W1 G1].
      split; [exact W1|]. intros j Hj. rewrite G1, ounion_comb, Gt by auto. reflexivity. }
    destruct (nth i (data C) []) as [|q c] eqn:Ec.
    + rewrite setRow_ok by auto. eexists. split; [reflexivity|].
      rewrite ewise_or_nil_l in Q. exact Q.
    + rewrite setRow_ok by auto. eexists. split; [reflexivity|].
      rewrite cast_id. rewrite (merge_rows_ewise_or _ _ _ _ 0 nc) by auto. exact Q.
Qed.

Context {TM : Type} (truthy : TM -> bool) (sf cf : bool).

Lemma fin_outp {T} (to : T -> TC) (rep : bool) outp (C : lil TC) i nc rm f t :
  i < length (data C) -> wfrow 0 nc rm -> wfrow 0 nc (nth i (data C) []) ->
  gives nc (within (allow truthy sf cf rm) f) t ->
  (rep = true -> outp = REPLACE \/ forall j, allow truthy sf cf rm j = true) ->
  (rep = false -> outp = MERGE) ->
  setgives C i nc
    (fun j => spec_write to (allow truthy sf cf rm j) outp (rget (nth i (data C) []) j) (f j))
    (if rep then setRow to C i t
     else c <- getrow C i ;; setRow (fun x => x) C i (masked_merge truthy sf cf to rm c t)).
Proof.
  intros L Wm Wc G Hr Hm. destruct rep.
  - eapply setgives_ext; [apply fin_set; eauto|]. intros j Hj. simpl. unfold within, spec_write.
    destruct (allow truthy sf cf rm j) eqn:E; simpl; auto.
    destruct (Hr eq_refl) as [->|A]; auto. congruence.
  - rewrite Hm by auto. rewrite getrow_ok by auto. cbn [bind].
    eapply setgives_ext; [apply fin_set; [auto|apply gives_masked_merge; eauto]|].
    intros j Hj. simpl. unfold spec_write.
    destruct (allow truthy sf cf rm j); [destruct (f j); reflexivity|].
    destruct (rget _ j); reflexivity.
Qed.

Lemma fin_accum {TT TZ} (zc : TZ -> TC) (f : TC -> TT -> TZ) cz tz (rep : bool) outp (C : lil TC)
    i nc rm g t :
  i < length (data C) -> wfrow 0 nc rm -> wfrow 0 nc (nth i (data C) []) ->
  gives nc (within (allow truthy sf cf rm) g) t ->
  (rep = true -> outp = REPLACE \/ forall j, allow truthy sf cf rm j = true) ->
  (rep = false -> outp = MERGE) ->
  setgives C i nc
    (fun j => spec_write zc (allow truthy sf cf rm j) outp (rget (nth i (data C) []) j)
                (ounion f cz tz (rget (nth i (data C) []) j) (g j)))
    (accum_row truthy zc f cz tz sf cf rep C i rm t).
Proof.
  intros L Wm Wc G Hr Hm. unfold accum_row. rewrite getrow_ok by auto. cbn [bind].
  pose proof (gives_masked_accum truthy sf cf f cz tz nc rm _ t g Wm Wc G) as Q.
  pose proof (fin_outp zc rep outp C i nc rm _ _ L Wm Wc Q Hr Hm) as F.
  rewrite getrow_ok in F by auto. cbn [bind] in F. exact F.
Qed.
End Fin.

(** ** The operands while row [i] is being computed *)
Section Now.
Context {TC TX : Type} (C : lil TC) (o : obj TC TX).

Lemma now_dims C' : nrows C' = nrows C -> ncols C' = ncols C ->
  nrows (now C' o) = nrows (now C o) /\ ncols (now C' o) = ncols (now C o).
Proof. destruct o; simpl; auto. Qed.

Lemma now_row i C' : nth i (data C') [] = nth i (data C) [] ->
  nth i (data (now C' o)) [] = nth i (data (now C o)) [].
Proof.
  intro H. destruct o; simpl; auto.
  change (@nil (nat * TX)) with (cast_row v []). rewrite !map_nth, H. reflexivity.
Qed.

Lemma now_len C' : length (data C') = length (data C) ->
  length (data (now C' o)) = length (data (now C o)).
Proof. intro H. destruct o; simpl; auto. rewrite !map_length. auto. Qed.

Lemma now_getrow i C' : wfm C -> wfm (now C o) -> at_row C i C' -> i < nrows (now C o) ->
  getrow (now C' o) i = Ok (nth i (data (now C o)) []).
Proof.
  intros W Wo (Hi & R & K & L & N) Ho.
  rewrite getrow_ok.
  - rewrite (now_row i C') by auto. reflexivity.
  - rewrite (now_len C') by (rewrite L, (wfm_len C W); auto). rewrite (wfm_len _ Wo). auto.
Qed.
End Now.

(** The mask a pair of flags stands for. *)
Definition mk {M : Type} (sf cf : bool) (m : M) : mask M :=
  match sf, cf with
  | false, false => MVal m
  | true, false => MStruct m
  | false, true => MComp m
  | true, true => MSComp m
  end.

Lemma allow_mk {TM} (truthy : TM -> bool) sf cf (M : lil TM) i j :
  allow truthy sf cf (nth i (data M) []) j = mask_allows truthy (mk sf cf M) i j.
Proof.
  unfold allow, mtest. fold (mget M i j). destruct sf, cf; simpl;
    (destruct (mget M i j); simpl; [try (destruct (truthy t)); reflexivity|reflexivity]).
Qed.

Lemma is_replace_true outp : is_replace outp = true -> outp = REPLACE.
Proof. destruct outp; auto; discriminate. Qed.
Lemma is_replace_false outp : is_replace outp = false -> outp = MERGE.
Proof. destruct outp; auto; discriminate. Qed.
