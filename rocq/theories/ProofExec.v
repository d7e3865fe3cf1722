(** Calls and programs on a store: outcomes, aliasing, preservation of well-formedness. *)
From Coq Require Import Lia.
From Verif Require Import Base ModelLil ModelVec ModelHelpers ModelViews ModelMul ModelElem
  ModelIndex ModelCalls ModelMachine.
From Verif Require Import Spec SpecOps SpecIndex SpecCalls SpecMachine.
From Verif Require Import ProofBase ProofRow ProofLil ProofVec ProofCalls ProofWrite ProofViews
  ProofMask ProofMul ProofElem ProofReduce ProofKron ProofIndex ProofAssign ProofAssignRC
  ProofIndexMore ProofMachine.

Lemma Forall_nth_error {X} (P : X -> Prop) l k x :
  Forall P l -> nth_error l k = Some x -> P x.
Proof. intros F H. rewrite Forall_forall in F. apply F. eapply nth_error_In; eauto. Qed.

Lemma Forall_upd {X} (P : X -> Prop) l k x : Forall P l -> P x -> Forall P (upd l k x).
Proof.
  intros F Hx. revert k. induction F; intros [|k]; simpl; auto.
Qed.

Section E.
Context {T : Type}.

Lemma wfm_at ms k (M : lil T) : Forall wfm ms -> nth_error ms k = Some M -> wfm M.
Proof. apply Forall_nth_error. Qed.
Lemma wfv_at vs k (u : bvec T) : Forall wfv vs -> nth_error vs k = Some u -> wfv u.
Proof. apply Forall_nth_error. Qed.

Lemma mlook_wf ms r A : Forall wfm ms -> mlook ms r = Some A -> @wfview T A.
Proof.
  intros F H. destruct r; simpl in H; destruct (nth_error ms k) eqn:E; try discriminate;
    injection H as <-; exact (Forall_nth_error _ _ _ _ F E).
Qed.

Lemma oapp_some {A B} (f : option (A -> B)) x y :
  oapp f x = Some y -> exists g a, f = Some g /\ x = Some a /\ y = g a.
Proof. destruct f, x; simpl; try discriminate. intro H; injection H as <-. eauto. Qed.
Lemma omap_some {A B} (f : A -> B) x y :
  option_map f x = Some y -> exists a, x = Some a /\ y = f a.
Proof. destruct x; simpl; try discriminate. intro H; injection H as <-. eauto. Qed.

Ltac look := repeat match goal with
  | H : oapp _ _ = Some _ |- _ =>
      apply oapp_some in H; destruct H as (? & ? & ? & ? & ?); subst
  | H : option_map _ _ = Some _ |- _ =>
      apply omap_some in H; destruct H as (? & ? & ?); subst
  | H : Some _ = Some _ |- _ => injection H as <-
  end.

Lemma mop_look_wf ms o o' :
  Forall wfm ms -> mop_look ms o = Some o' -> Forall (@wfview T) (mop_views o').
Proof.
  intros F H. destruct o; simpl in H; look; simpl; repeat apply Forall_cons; try apply Forall_nil;
    eauto using mlook_wf.
Qed.
Lemma vop_look_wf ms vs o o' :
  Forall wfm ms -> Forall wfv vs -> vop_look ms vs o = Some o' ->
  Forall (@wfview T) (vop_views o') /\ Forall (@wfv T) (vop_vecs o').
Proof.
  intros F G H. destruct o; simpl in H; look; simpl; split; repeat apply Forall_cons; try apply Forall_nil;
    eauto using mlook_wf, wfv_at.
Qed.
Lemma rop_look_wf vs o o' :
  Forall (@wfv T) vs -> rop_look vs o = Some o' -> wfv (rop_vec o').
Proof. intros F H. destruct o; simpl in H; look; simpl; eauto using wfv_at. Qed.

Lemma mask_look_wf ms m m' : Forall (@wfm T) ms -> mask_look ms m = Some m' -> wfmask m'.
Proof.
  intros F H. destruct m; simpl in H; look; simpl; auto; eauto using wfm_at.
Qed.
Lemma vmask_look_wf vs m m' : Forall (@wfv T) vs -> mask_look vs m = Some m' -> wfvmask m'.
Proof.
  intros F H. destruct m; simpl in H; look; simpl; auto;
    match goal with H : nth_error _ _ = Some ?x |- _ =>
      pose proof (Forall_nth_error _ _ _ _ F H) as [W _]; auto end.
Qed.

Context (dflt : T) (eqb : T -> T -> bool).

(** A matrix operation in place. *)
Lemma mop_step_ok st out m w o C m' o' :
  wfstore st -> nth_error (mats st) out = Some C -> mask_look (mats st) m = Some m' ->
  mop_look (mats st) o = Some o' -> mop_pre C o' ->
  mop_shape m' C o' -> mop_inrange C o' ->
  exists C', mop_fun w m' C o' = Ok C' /\ wfm C' /\ nrows C' = nrows C /\ ncols C' = ncols C /\
    step dflt eqb st (CMop out m w o) = (mkStore (upd (mats st) out C') (vecs st), Ok ADone).
Proof.
  intros [Wm Wv] HC Hm Ho P F I.
  destruct (mop_good w m' C o') as (C' & E & W & R & K); auto.
  - eapply Forall_nth_error; eauto.
  - eapply mop_look_wf; eauto.
  - eapply mask_look_wf; eauto.
  - exists C'. do 4 (split; [auto|]). simpl. rewrite HC, Hm, Ho.
    rewrite mop_fun_Z in E. destruct (mopZ w m' C o') as [Z| |] eqn:EZ; try discriminate.
    cbn [bind] in E. rewrite (hwrite_ok w (mats st) out C Z m m' C'); auto.
Qed.

Lemma mop_fun_throws w m C o e : mopZ w m C o = Throw e -> @mop_fun T w m C o = Throw e.
Proof. intro H. rewrite mop_fun_Z, H. reflexivity. Qed.

Theorem mop_step st out m w o C m' o' :
  wfstore st -> nth_error (mats st) out = Some C -> mask_look (mats st) m = Some m' ->
  mop_look (mats st) o = Some o' -> mop_pre C o' ->
  (mop_shape m' C o' /\ mop_inrange C o' /\
   exists C', mop_fun w m' C o' = Ok C' /\ wfm C' /\ nrows C' = nrows C /\ ncols C' = ncols C /\
     step dflt eqb st (CMop out m w o) = (mkStore (upd (mats st) out C') (vecs st), Ok ADone)) \/
  (~ mop_shape m' C o' /\ mop_fun w m' C o' = Throw DimensionException /\
   step dflt eqb st (CMop out m w o) = (st, Throw DimensionException)) \/
  (mop_shape m' C o' /\ ~ mop_inrange C o' /\ mop_fun w m' C o' = Throw IndexOutOfBoundsException /\
   step dflt eqb st (CMop out m w o) = (st, Throw IndexOutOfBoundsException)).
Proof.
  intros W HC Hm Ho P.
  destruct (mop_shape_dec m' C o') as [F|F]; [destruct (mop_inrange_dec C o') as [I|I]|].
  - left. split; [auto|]. split; [auto|]. apply mop_step_ok; auto.
  - right; right. pose proof (mop_throws_idx w m' C o' P F I) as E.
    split; [auto|]. split; [auto|]. split; [apply mop_fun_throws; auto|].
    simpl. rewrite HC, Hm, Ho, E. reflexivity.
  - right; left. pose proof (mop_throws_dim w m' C o' P F) as E.
    split; [auto|]. split; [apply mop_fun_throws; auto|].
    simpl. rewrite HC, Hm, Ho, E. reflexivity.
Qed.

Theorem vop_step st out m w o x m' o' :
  wfstore st -> nth_error (vecs st) out = Some x -> mask_look (vecs st) m = Some m' ->
  vop_look (mats st) (vecs st) o = Some o' -> vop_pre x o' ->
  (vop_shape m' x o' /\ vop_single o' /\ vop_inrange x o' /\
   exists x', vop_fun w m' x o' = Ok x' /\ wfv x' /\ vsize x' = vsize x /\
     step dflt eqb st (CVop out m w o) = (mkStore (mats st) (upd (vecs st) out x'), Ok ADone)) \/
  (~ vop_shape m' x o' /\ vop_fun w m' x o' = Throw DimensionException /\
   step dflt eqb st (CVop out m w o) = (st, Throw DimensionException)) \/
  (vop_shape m' x o' /\ ~ vop_single o' /\ vop_fun w m' x o' = Throw InvalidIndexException /\
   step dflt eqb st (CVop out m w o) = (st, Throw InvalidIndexException)) \/
  (vop_shape m' x o' /\ vop_single o' /\ ~ vop_inrange x o' /\
   vop_fun w m' x o' = Throw IndexOutOfBoundsException /\
   step dflt eqb st (CVop out m w o) = (st, Throw IndexOutOfBoundsException)).
Proof.
  intros [Wm Wv] HC Hm Ho P. simpl. rewrite HC, Hm, Ho.
  destruct (vop_shape_dec m' x o') as [F|F];
    [destruct (vop_single_dec o') as [G|G]; [destruct (vop_inrange_dec x o') as [I|I]|]|].
  - left. do 3 (split; [auto|]).
    destruct (vop_look_wf _ _ _ _ Wm Wv Ho).
    destruct (vop_good w m' x o') as (x' & E & W & R); auto.
    + exact (proj1 (Forall_nth_error _ _ _ _ Wv HC)).
    + exact (vmask_look_wf _ _ _ Wv Hm).
    + exists x'. rewrite E. auto.
  - do 3 right. do 3 (split; [auto|]). rewrite (vop_throws_idx w m' x o' P F G I). auto.
  - do 2 right. left. do 2 (split; [auto|]). rewrite (vop_throws_single w m' x o' P F G). auto.
  - right; left. split; [auto|]. rewrite (vop_throws_dim w m' x o' P F). auto.
Qed.

Theorem rop_step st out m w o C m' o' :
  wfstore st -> nth_error (mats st) out = Some C -> mask_look (vecs st) m = Some m' ->
  rop_look (vecs st) o = Some o' -> rop_pre C o' ->
  (rop_shape m' C o' /\ rop_single C o' /\ rop_inrange C o' /\
   exists C', rop_fun dflt w m' C o' = Ok C' /\ wfm C' /\ nrows C' = nrows C /\ ncols C' = ncols C /\
     step dflt eqb st (CRop out m w o) = (mkStore (upd (mats st) out C') (vecs st), Ok ADone)) \/
  (~ rop_shape m' C o' /\ rop_fun dflt w m' C o' = Throw DimensionException /\
   step dflt eqb st (CRop out m w o) = (st, Throw DimensionException)) \/
  (rop_shape m' C o' /\ ~ rop_single C o' /\ rop_fun dflt w m' C o' = Throw InvalidIndexException /\
   step dflt eqb st (CRop out m w o) = (st, Throw InvalidIndexException)) \/
  (rop_shape m' C o' /\ rop_single C o' /\ ~ rop_inrange C o' /\
   rop_fun dflt w m' C o' = Throw IndexOutOfBoundsException /\
   step dflt eqb st (CRop out m w o) = (st, Throw IndexOutOfBoundsException)).
Proof.
  intros [Wm Wv] HC Hm Ho P. simpl. rewrite HC, Hm, Ho.
  destruct (rop_shape_dec m' C o') as [F|F];
    [destruct (rop_single_dec C o') as [G|G]; [destruct (rop_inrange_dec C o') as [I|I]|]|].
  - left. do 3 (split; [auto|]).
    destruct (rop_good dflt w m' C o') as (C' & E & W & R & K); auto.
    + eapply Forall_nth_error; eauto.
    + eapply rop_look_wf; eauto.
    + exact (vmask_look_wf _ _ _ Wv Hm).
    + exists C'. rewrite E. auto.
  - do 3 right. do 3 (split; [auto|]). rewrite (rop_throws_idx dflt w m' C o' P F G I). auto.
  - do 2 right. left. do 2 (split; [auto|]). rewrite (rop_throws_single dflt w m' C o' P F G). auto.
  - right; left. split; [auto|]. rewrite (rop_throws_dim dflt w m' C o' P F). auto.
Qed.

(** Reductions to a scalar return. *)
Lemma sop_ok st w o o' :
  wfstore st -> sop_look (mats st) (vecs st) o = Some o' -> exists v, @sop_fun T w o' = Ok v.
Proof.
  intros [Wm Wv] H. destruct o; simpl in H; look; simpl.
  - match goal with H : nth_error _ _ = Some ?x |- _ =>
      pose proof (Forall_nth_error _ _ _ _ Wv H) as [W _] end.
    unfold reduce_vs. destruct (has_vals (vnvals x)); cbn [bind]; eauto.
    destruct (getContents_ok x W) as (c & E & _). rewrite E. cbn [bind]. eauto.
  - match goal with H : nth_error _ _ = Some ?x |- _ =>
      pose proof (Forall_nth_error _ _ _ _ Wm H) as W end.
    unfold reduce_ms. destruct (has_vals (nvals x)); cbn [bind]; eauto.
    destruct (mfor_seq_inv (fun _ (_ : T) => True)
      (fun i t => ra <- getrow x i ;;
         if negb (empty ra) then
           match reduction c1 op01 op (fun x => x) ra with
           | Some tmp => Ok (op2 t tmp)
           | None => Ok t
           end
         else Ok t) (nrows x) ident) as (t & E & _); auto.
    + intros i t Hi _. rewrite getrow_ok by (rewrite (wfm_len x W); auto). cbn [bind].
      destruct (negb _); [destruct (reduction _ _ _ _ _)|]; eauto.
    + rewrite E. cbn [bind]. eauto.
Qed.

(** Container calls. *)
Lemma mats_rel (ms : list (lil T)) : Forall wfm ms -> exists ss, Forall2 mrel ms ss.
Proof.
  induction 1 as [|M ms W F [ss IH]]; [exists []; constructor|].
  exists (SM (nrows M) (ncols M) (mget M) :: ss). constructor; auto.
  split; [auto|]. auto.
Qed.
Lemma vecs_rel (vs : list (bvec T)) : Forall wfv vs -> exists ss, Forall2 (vr true) vs ss.
Proof.
  induction 1 as [|u vs W F [ss IH]]; [exists []; constructor|].
  exists (SV (vsize u) (vget u) :: ss). constructor; auto.
  split; [auto|]. auto.
Qed.
Lemma rel_mats (ms : list (lil T)) ss : Forall2 mrel ms ss -> Forall wfm ms.
Proof. induction 1 as [|? ? ? ? [W _]]; constructor; auto. Qed.
Lemma rel_vecs (vs : list (bvec T)) ss : Forall2 (vr true) vs ss -> Forall wfv vs.
Proof. induction 1 as [|? ? ? ? [W _]]; constructor; auto. Qed.

Lemma ub_mon {X} st k (f : X -> list X * res (answer T)) :
  (forall x, snd (f x) <> UB) -> snd (mon st k f) <> UB.
Proof. intro H. unfold mon. destruct (nth_error st k); auto. discriminate. Qed.
Lemma ub_put {X} (st : list X) k (r : res X) : r <> UB -> snd (put (T:=T) st k r) <> UB.
Proof. destruct r; simpl; auto; discriminate. Qed.
Lemma ub_push {X} (st : list X) (r : res X) : r <> UB -> snd (push (T:=T) st r) <> UB.
Proof. destruct r; simpl; auto; discriminate. Qed.

Ltac ubs := repeat first
  [ apply ub_mon; intro | apply ub_put | apply ub_push
  | match goal with |- context [if ?b then _ else _] => destruct b end
  | match goal with |- context [match ?o with Some _ => _ | None => _ end] => destruct o end
  | discriminate ].

Lemma sbuild_ub dup ts : forall M, snd (@sbuild T dup M ts) <> UB.
Proof.
  induction ts as [|[[i j] v] ts IH]; intro M; simpl; [discriminate|].
  destruct (inb M i j); simpl; auto; discriminate.
Qed.

Lemma sstep_ub ss c : mcall_pre c -> snd (sstep eqb ss c) <> @UB (answer T).
Proof.
  intro P. destruct c; cbn [sstep mcall_pre] in *.
  all: try solve [ubs; simpl; discriminate].
  - apply ub_push. destruct vs; [contradiction|]. cbn [sdense]. ubs.
  - apply ub_push. destruct vs; [contradiction|]. cbn [sdense]. ubs.
  - apply ub_mon. intro M. destruct (_ && _); [|discriminate].
    pose proof (sbuild_ub dup (zip3 is js vs) M) as H.
    destruct (sbuild dup M (zip3 is js vs)) as [M' [| |]]; simpl in *; auto; discriminate.
Qed.
Lemma svstep_ub ss c : snd (svstep eqb ss c) <> @UB (answer T).
Proof.
  destruct c; cbn [svstep]; try solve [ubs; simpl; discriminate].
Qed.

Lemma vec_eqb_total (u v : bvec T) : wfv0 u -> wfv0 v -> exists b, vec_eqb eqb u v = Ok b.
Proof.
  intros (Lu & Bu) (Lv & Bv). unfold vec_eqb.
  destruct (Nat.eqb_spec (vsize u) (vsize v)) as [E|]; cbn [negb orb]; eauto.
  destruct (negb _); eauto.
  destruct (mfor_seq_inv (fun _ (_ : bool) => True)
    (fun i ans => if negb ans then Ok false else
       bu <- vat (vbits u) i ;;
       bv <- vat (vbits v) i ;;
       if negb (Bool.eqb bu bv) then Ok false
       else if bu then
         xu <- vat (vvals u) i ;;
         xv <- vat (vvals v) i ;;
         Ok (eqb xu xv)
       else Ok true) (vsize u) true) as (b & Eb & _); eauto.
  intros i ans Hi _. destruct (negb ans); eauto.
  destruct (vat (vbits u) i) eqn:E1; cbn [bind].
  - destruct (vat (vbits v) i) eqn:E2; cbn [bind].
    + destruct (negb _); eauto. destruct a; eauto.
      destruct (vat (vvals u) i) eqn:E3; cbn [bind].
      * destruct (vat (vvals v) i) eqn:E4; cbn [bind]; eauto.
        all: exfalso; unfold vat in E4; destruct (nth_error (vvals v) i) eqn:X; try discriminate;
          apply nth_error_None in X; lia.
      * exfalso; unfold vat in E3; destruct (nth_error (vvals u) i) eqn:X; try discriminate.
      * exfalso; unfold vat in E3; destruct (nth_error (vvals u) i) eqn:X; try discriminate;
          apply nth_error_None in X; lia.
    + exfalso; unfold vat in E2; destruct (nth_error (vbits v) i) eqn:X; discriminate.
    + exfalso; unfold vat in E2; destruct (nth_error (vbits v) i) eqn:X; try discriminate;
        apply nth_error_None in X; lia.
  - exfalso; unfold vat in E1; destruct (nth_error (vbits u) i) eqn:X; discriminate.
  - exfalso; unfold vat in E1; destruct (nth_error (vbits u) i) eqn:X; try discriminate;
      apply nth_error_None in X; lia.
Qed.

Lemma mstep_good ms c :
  Forall wfm ms ->
  Forall wfm (fst (mstep eqb ms c)) /\ (mcall_pre c -> snd (mstep eqb ms c) <> UB).
Proof.
  intro W. destruct (mats_rel ms W) as [ss F]. split.
  - eapply rel_mats. apply mstep_wf. eauto.
  - intro P. destruct (is_meq c) eqn:E.
    + destruct c; try discriminate. simpl. unfold mon.
      destruct (nth_error ms a); [destruct (nth_error ms b)|]; discriminate.
    + destruct (mstep_same eqb ms ss c) as [_ ->]; auto; [congruence|]. apply sstep_ub; auto.
Qed.

Lemma vstep_good vs c :
  Forall wfv vs -> vclean_call c ->
  Forall wfv (fst (vstep dflt eqb vs c)) /\ snd (vstep dflt eqb vs c) <> UB.
Proof.
  intros W P. destruct (vecs_rel vs W) as [ss F]. split.
  - eapply rel_vecs. apply (vstep_wf dflt eqb true vs ss c); auto. destruct c; auto.
  - destruct (is_veq c) eqn:E.
    + destruct c; try discriminate. simpl. unfold mon.
      destruct (nth_error vs a) as [u|] eqn:Ea; [|discriminate].
      destruct (nth_error vs b) as [v|] eqn:Eb; [|discriminate]. simpl.
      destruct (vec_eqb_total u v) as [r ->].
      * exact (proj1 (Forall_nth_error _ _ _ _ W Ea)).
      * exact (proj1 (Forall_nth_error _ _ _ _ W Eb)).
      * discriminate.
    + destruct (vstep_same dflt eqb true vs ss c) as [_ ->]; auto; [congruence|]. apply svstep_ub.
Qed.

(** One call. *)
Theorem step_good st c :
  wfstore st -> call_pre st c ->
  wfstore (fst (step dflt eqb st c)) /\ snd (step dflt eqb st c) <> UB.
Proof.
  intros W P. pose proof W as [Wm Wv]. destruct c; cbn [call_pre] in P.
  - simpl. destruct (mstep_good (mats st) c Wm) as [A B].
    destruct (mstep eqb (mats st) c); simpl in *. split; [split; auto|auto].
  - simpl. destruct (vstep_good (vecs st) c Wv P) as [A B].
    destruct (vstep dflt eqb (vecs st) c); simpl in *. split; [split; auto|auto].
  - destruct (nth_error (mats st) out) as [C|] eqn:HC;
      [|simpl; rewrite HC; split; [auto|discriminate]].
    destruct (mask_look (mats st) m) as [m'|] eqn:Hm;
      [|simpl; rewrite HC, Hm; split; [auto|discriminate]].
    destruct (mop_look (mats st) o) as [o'|] eqn:Ho;
      [|simpl; rewrite HC, Hm, Ho; split; [auto|discriminate]].
    destruct (mop_step st out m w o C m' o' W HC Hm Ho (P _ _ eq_refl eq_refl))
      as [(_ & _ & C' & _ & WC & _ & _ & ->)|[(_ & _ & ->)|(_ & _ & _ & ->)]];
      simpl; (split; [auto|discriminate]).
    split; simpl; auto. apply Forall_upd; auto.
  - destruct (nth_error (vecs st) out) as [C|] eqn:HC;
      [|simpl; rewrite HC; split; [auto|discriminate]].
    destruct (mask_look (vecs st) m) as [m'|] eqn:Hm;
      [|simpl; rewrite HC, Hm; split; [auto|discriminate]].
    destruct (vop_look (mats st) (vecs st) o) as [o'|] eqn:Ho;
      [|simpl; rewrite HC, Hm, Ho; split; [auto|discriminate]].
    destruct (vop_step st out m w o C m' o' W HC Hm Ho (P _ _ eq_refl eq_refl))
      as [(_ & _ & _ & C' & _ & WC & _ & ->)|[(_ & _ & ->)|[(_ & _ & _ & ->)|(_ & _ & _ & _ & ->)]]];
      simpl; (split; [auto|discriminate]).
    split; simpl; auto. apply Forall_upd; auto.
  - destruct (nth_error (mats st) out) as [C|] eqn:HC;
      [|simpl; rewrite HC; split; [auto|discriminate]].
    destruct (mask_look (vecs st) m) as [m'|] eqn:Hm;
      [|simpl; rewrite HC, Hm; split; [auto|discriminate]].
    destruct (rop_look (vecs st) o) as [o'|] eqn:Ho;
      [|simpl; rewrite HC, Hm, Ho; split; [auto|discriminate]].
    destruct (rop_step st out m w o C m' o' W HC Hm Ho (P _ _ eq_refl eq_refl))
      as [(_ & _ & _ & C' & _ & WC & _ & _ & ->)|[(_ & _ & ->)|[(_ & _ & _ & ->)|(_ & _ & _ & _ & ->)]]];
      simpl; (split; [auto|discriminate]).
    split; simpl; auto. apply Forall_upd; auto.
  - simpl. destruct (sop_look (mats st) (vecs st) o) as [o'|] eqn:Ho; [|split; [auto|discriminate]].
    destruct (sop_ok st w o o' W Ho) as [v ->]. simpl. split; [auto|discriminate].
Qed.

(** Programs. *)
Theorem exec_good cs : forall st,
  wfstore st -> program_pre dflt eqb st cs ->
  wfstore (fst (exec dflt eqb st cs)) /\ ~ In UB (snd (exec dflt eqb st cs)).
Proof.
  induction cs as [|c cs IH]; intros st W P; simpl; auto.
  destruct P as [Pc P]. destruct (step_good st c W Pc) as [W' U].
  destruct (step dflt eqb st c) as [st' r]; simpl in *.
  destruct (IH st' W' P) as [W'' U']. destruct (exec dflt eqb st' cs) as [st'' rs]; simpl in *.
  split; auto. intros [E|E]; auto.
Qed.
End E.

(** ** Aliasing *)
Section A.
Context {T : Type} (dflt : T) (eqb : T -> T -> bool).

Lemma mop_step_fun (st : store T) out m w o C m' o' :
  wfstore st -> nth_error (mats st) out = Some C -> mask_look (mats st) m = Some m' ->
  mop_look (mats st) o = Some o' -> mop_pre C o' ->
  step dflt eqb st (CMop out m w o) =
    match mop_fun w m' C o' with
    | Ok C' => (mkStore (upd (mats st) out C') (vecs st), Ok ADone)
    | Throw e => (st, Throw e)
    | UB => (st, UB)
    end.
Proof.
  intros W HC Hm Ho P.
  destruct (mop_step dflt eqb st out m w o C m' o' W HC Hm Ho P)
    as [(_ & _ & C' & -> & _ & _ & _ & ->)|[(_ & -> & ->)|(_ & _ & -> & ->)]]; reflexivity.
Qed.

Lemma upd_other {X} (l : list X) k k' x :
  k' <> k -> nth_error (upd l k x) k' = nth_error l k'.
Proof.
  revert k k'. induction l as [|y l IH]; intros [|k] [|k'] H; simpl; auto; try congruence.
Qed.
Lemma upd_here {X} (l : list X) k x y :
  nth_error l k = Some y -> nth_error (upd l k x) k = Some x.
Proof. revert k. induction l as [|z l IH]; intros [|k]; simpl; try discriminate; auto. Qed.

Theorem alias_mop (st1 st2 : store T) out1 out2 m1 m2 w o1 o2 C m' o' :
  wfstore st1 -> wfstore st2 ->
  nth_error (mats st1) out1 = Some C -> nth_error (mats st2) out2 = Some C ->
  mask_look (mats st1) m1 = Some m' -> mask_look (mats st2) m2 = Some m' ->
  mop_look (mats st1) o1 = Some o' -> mop_look (mats st2) o2 = Some o' ->
  mop_pre C o' ->
  let r1 := step dflt eqb st1 (CMop out1 m1 w o1) in
  let r2 := step dflt eqb st2 (CMop out2 m2 w o2) in
  snd r1 = snd r2 /\
  nth_error (mats (fst r1)) out1 = nth_error (mats (fst r2)) out2 /\
  (forall k, k <> out1 -> nth_error (mats (fst r1)) k = nth_error (mats st1) k) /\
  vecs (fst r1) = vecs st1.
Proof.
  intros W1 W2 H1 H2 M1 M2 O1 O2 P. cbv zeta.
  rewrite (mop_step_fun st1 out1 m1 w o1 C m' o'), (mop_step_fun st2 out2 m2 w o2 C m' o') by auto.
  destruct (mop_fun w m' C o') as [C'| |]; simpl.
  - rewrite (upd_here _ _ _ _ H1), (upd_here _ _ _ _ H2).
    repeat split; auto. intros; apply upd_other; auto.
  - rewrite H1, H2. repeat split; auto.
  - rewrite H1, H2. repeat split; auto.
Qed.

Theorem alias_vop (st1 st2 : store T) out1 out2 m1 m2 w o1 o2 x m' o' :
  nth_error (vecs st1) out1 = Some x -> nth_error (vecs st2) out2 = Some x ->
  mask_look (vecs st1) m1 = Some m' -> mask_look (vecs st2) m2 = Some m' ->
  vop_look (mats st1) (vecs st1) o1 = Some o' -> vop_look (mats st2) (vecs st2) o2 = Some o' ->
  let r1 := step dflt eqb st1 (CVop out1 m1 w o1) in
  let r2 := step dflt eqb st2 (CVop out2 m2 w o2) in
  snd r1 = snd r2 /\
  nth_error (vecs (fst r1)) out1 = nth_error (vecs (fst r2)) out2 /\
  (forall k, k <> out1 -> nth_error (vecs (fst r1)) k = nth_error (vecs st1) k) /\
  mats (fst r1) = mats st1.
Proof.
  intros H1 H2 M1 M2 O1 O2. cbv zeta. simpl. rewrite H1, H2, M1, M2, O1, O2.
  destruct (vop_fun w m' x o') as [C'| |]; simpl.
  - rewrite (upd_here _ _ _ _ H1), (upd_here _ _ _ _ H2).
    repeat split; auto. intros; apply upd_other; auto.
  - rewrite H1, H2. repeat split; auto.
  - rewrite H1, H2. repeat split; auto.
Qed.

Theorem alias_rop (st1 st2 : store T) out1 out2 m1 m2 w o1 o2 C m' o' :
  nth_error (mats st1) out1 = Some C -> nth_error (mats st2) out2 = Some C ->
  mask_look (vecs st1) m1 = Some m' -> mask_look (vecs st2) m2 = Some m' ->
  rop_look (vecs st1) o1 = Some o' -> rop_look (vecs st2) o2 = Some o' ->
  let r1 := step dflt eqb st1 (CRop out1 m1 w o1) in
  let r2 := step dflt eqb st2 (CRop out2 m2 w o2) in
  snd r1 = snd r2 /\
  nth_error (mats (fst r1)) out1 = nth_error (mats (fst r2)) out2 /\
  (forall k, k <> out1 -> nth_error (mats (fst r1)) k = nth_error (mats st1) k) /\
  vecs (fst r1) = vecs st1.
Proof.
  intros H1 H2 M1 M2 O1 O2. cbv zeta. simpl. rewrite H1, H2, M1, M2, O1, O2.
  destruct (rop_fun dflt w m' C o') as [C'| |]; simpl.
  - rewrite (upd_here _ _ _ _ H1), (upd_here _ _ _ _ H2).
    repeat split; auto. intros; apply upd_other; auto.
  - rewrite H1, H2. repeat split; auto.
  - rewrite H1, H2. repeat split; auto.
Qed.
End A.
