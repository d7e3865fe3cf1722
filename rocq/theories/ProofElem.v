(** transpose, eWiseAdd, eWiseMult, apply and reduce compute their specification. *)
From Coq Require Import Lia.
From Verif Require Import Base ModelLil ModelVec ModelHelpers ModelViews ModelElem Spec SpecOps.
From Verif Require Import ProofBase ProofRow ProofLil ProofVec ProofCalls ProofWrite ProofViews ProofMul.

Lemma option_map_id' {A} (o : option A) : option_map (fun v => v) o = o.
Proof. destruct o; reflexivity. Qed.

(** ** A result filled column by column *)
Lemma pushcols_gives {X T} (g : X -> T) (body : nat -> lil T -> res (lil T)) (R : nat -> row X)
    nr nc :
  (forall i, i < nc -> wfrow 0 nr (R i)) ->
  (forall i M, i < nc -> length (data M) = nr -> body i M = pushcol g i (R i) M) ->
  tgives nr nc (fun i j => option_map g (rget (R j) i)) (mfor (seq 0 nc) body (lil_new nr nc)).
Proof.
  intros HR Hb. destruct (pushcol_loop g body R nr nc nc HR Hb) as (M' & E & L & G).
  rewrite E.
  apply (tgives_rows nr nc M' (fun i => genrow (fun j => option_map g (rget (R j) i)) 0 nc)); auto.
  - intros i Hi. apply genrow_wf0.
  - intros i j Hi Hj. simpl. rewrite genrow_get. ltb; auto.
Qed.

(** ... and one filled row by row with [setRow]. *)
Lemma setrows_gives {T} (body : nat -> lil T -> res (lil T)) (F : nat -> row T) nr nc :
  (forall i, i < nr -> wfrow 0 nc (F i)) ->
  (forall i M, i < nr -> length (data M) = nr -> nth i (data M) [] = [] ->
     body i M = Ok (setrow_pure M i (F i))) ->
  tgives nr nc (fun i j => rget (F i) j) (mfor (seq 0 nr) body (lil_new nr nc)).
Proof.
  intros HF Hb.
  destruct (rows_loop_full body F (lil_new nr nc) (lil_new_wf nr nc)) as (M' & E & W & R & K & G).
  - simpl. intros i M Hi _ _ L N. apply Hb; auto. rewrite N, nth_repeat'. ltb; auto.
  - exact HF.
  - simpl in *. exists M'. split; [auto|]. split.
    + rewrite <- R, <- K. apply W.
    + intros. apply G; auto.
Qed.

Lemma setrow_pure_nil {T} (M : lil T) i : nth i (data M) [] = [] -> setrow_pure M i [] = M.
Proof. intro H. rewrite <- H at 1. apply setrow_pure_self. Qed.

(** ** transpose *)
Lemma transpose_T_ok {TA} (A : lil TA) :
  wfm A -> tgives (ncols A) (nrows A) (stran (mget A)) (transpose_T A).
Proof.
  intro W. unfold transpose_T. destruct (has_vals (nvals A)) eqn:H.
  - eapply tgives_ext; [|apply (pushcols_gives (fun v => v) _ (fun i => nth i (data A) []))].
    + intros i j _ _. simpl. rewrite option_map_id'. reflexivity.
    + intros i Hi. apply wfm_row; auto.
    + intros i M Hi L. rewrite getrow_ok by (rewrite (wfm_len A W); auto). reflexivity.
  - apply tgives_new. intros. unfold stran. apply has_vals_false_m; auto.
Qed.

Theorem transpose_backend_ok {TA TC TZ TM} (truthy : TM -> bool) (zc : TZ -> TC)
    (a : accum TC TA TZ) (m : mask (lil TM)) outp (C : lil TC) (A : mview TA) :
  wfm C -> wfview A -> wfmask m -> transpose_conforms m C A ->
  written truthy zc a m outp C (stran (sview A)) (transpose_backend truthy zc a m outp C A).
Proof.
  intros WC WA Wm (Fm & R & K). destruct A as [A|A]; simpl in *.
  - destruct (transpose_T_ok A WA) as (T & E & W & G). rewrite E. cbn [bind].
    apply accum_write_ok; auto.
    + rewrite R, K. auto.
    + intros i j Hi Hj. rewrite G by lia. reflexivity.
  - apply accum_write_ok; auto. rewrite R, K. apply WA.
Qed.

Theorem transpose_ok {TA TC TZ TM} (truthy : TM -> bool) (zc : TZ -> TC)
    (a : accum TC TA TZ) (m : mask (lil TM)) outp (C : lil TC) (A : mview TA) :
  wfm C -> wfview A -> wfmask m -> transpose_conforms m C A ->
  written truthy zc a m outp C (stran (sview A)) (transpose truthy zc a m outp C A).
Proof.
  intros WC WA Wm (Fm & R & K). unfold transpose.
  destruct (check_mask_ok m _ _ Fm) as [-> ->]. cbn [bind].
  rewrite !check_eq_ok by auto. cbn [bind]. apply transpose_backend_ok; auto. repeat split; auto.
Qed.

Theorem transpose_throws {TA TC TZ TM} (truthy : TM -> bool) (zc : TZ -> TC)
    (a : accum TC TA TZ) (m : mask (lil TM)) outp (C : lil TC) (A : mview TA) :
  ~ transpose_conforms m C A -> transpose truthy zc a m outp C A = Throw DimensionException.
Proof.
  intro H. unfold transpose. apply check_mask_bind. intro. apply check_bind. intro.
  apply check_bind. intro. exfalso. apply H. unfold transpose_conforms. auto.
Qed.

Lemma staged_transpose_ok {S X} (cast : S -> X) (B : lil S) :
  wfm B ->
  exists Bt, staged_transpose cast B = Ok Bt /\ wfm Bt /\
    nrows Bt = ncols B /\ ncols Bt = nrows B /\
    forall i j, mget Bt i j = option_map cast (mget B j i).
Proof.
  intro W. unfold staged_transpose.
  destruct (transpose_backend_ok (fun b : bool => b) cast (NoAcc (fun v => v)) (@NoMask (lil bool))
    REPLACE (lil_new (ncols B) (nrows B)) (Mat B)) as (Bt & E & WB & R & K & G); auto.
  - apply lil_new_wf.
  - exact I.
  - repeat split.
  - exists Bt. simpl in R, K, G. split; [auto|]. split; [auto|]. split; [auto|]. split; [auto|].
    intros i j. destruct (Nat.lt_ge_cases i (ncols B)), (Nat.lt_ge_cases j (nrows B)).
    1: { rewrite G by auto. unfold spec_write, stran. simpl.
         destruct (mget B j i); reflexivity. }
    all: rewrite (mget_oob Bt) by (auto; lia); rewrite (mget_oob B) by (auto; lia); reflexivity.
Qed.

(** ** Element-wise operations *)
Lemma ewm_T_ok {TA TB TT} (op : TA -> TB -> TT) (A : lil TA) (B : lil TB) :
  wfm A -> wfm B -> nrows A = nrows B -> ncols A = ncols B ->
  tgives (nrows A) (ncols A) (fun i j => omap2 op (mget A i j) (mget B i j)) (ewm_T op A B).
Proof.
  intros WA WB R K. unfold ewm_T.
  destruct (has_vals (nvals A)) eqn:HA; simpl.
  2: { apply tgives_new. intros. rewrite (has_vals_false_m A) by auto. reflexivity. }
  destruct (has_vals (nvals B)) eqn:HB.
  2: { apply tgives_new. intros. rewrite (has_vals_false_m B) by auto.
       destruct (mget A i j); reflexivity. }
  assert (S : forall i, wfrow 0 (ncols A) (ewise_and op (nth i (data A) []) (nth i (data B) [])) /\
    forall j, rget (ewise_and op (nth i (data A) []) (nth i (data B) [])) j =
      omap2 op (mget A i j) (mget B i j)).
  { intro i. apply ewise_and_spec; [apply wfm_row; auto|rewrite K; apply wfm_row; auto]. }
  eapply tgives_ext; [|apply (setrows_gives _
    (fun i => ewise_and op (nth i (data A) []) (nth i (data B) [])))].
  - intros i j _ _. apply S.
  - intros i _. apply S.
  - intros i M Hi L N. rewrite getrow_ok by (rewrite (wfm_len B WB); lia). cbn [bind].
    destruct (empty (nth i (data B) [])) eqn:EB; cbn [negb].
    { apply empty_nil in EB. rewrite EB, ewise_and_nil_r, setrow_pure_nil by auto. reflexivity. }
    rewrite getrow_ok by (rewrite (wfm_len A WA); lia). cbn [bind].
    destruct (empty (nth i (data A) [])) eqn:EA; cbn [negb].
    { apply empty_nil in EA. rewrite EA, ewise_and_nil_l, setrow_pure_nil by auto. reflexivity. }
    destruct (empty (ewise_and _ _ _)) eqn:ET; cbn [negb].
    { apply empty_nil in ET. rewrite ET, setrow_pure_nil by auto. reflexivity. }
    rewrite setRow_ok by lia. rewrite cast_id. reflexivity.
Qed.

Lemma ewm_TT_ok {TA TB TT} (op : TA -> TB -> TT) (A : lil TA) (B : lil TB) :
  wfm A -> wfm B -> nrows A = nrows B -> ncols A = ncols B ->
  tgives (ncols A) (nrows A) (fun i j => omap2 op (mget A j i) (mget B j i)) (ewm_TT op A B).
Proof.
  intros WA WB R K. unfold ewm_TT.
  destruct (has_vals (nvals A)) eqn:HA; simpl.
  2: { apply tgives_new. intros. rewrite (has_vals_false_m A) by auto. reflexivity. }
  destruct (has_vals (nvals B)) eqn:HB.
  2: { apply tgives_new. intros. rewrite (has_vals_false_m B) by auto.
       destruct (mget A j i); reflexivity. }
  assert (S : forall i, wfrow 0 (ncols A) (ewise_and op (nth i (data A) []) (nth i (data B) [])) /\
    forall j, rget (ewise_and op (nth i (data A) []) (nth i (data B) [])) j =
      omap2 op (mget A i j) (mget B i j)).
  { intro i. apply ewise_and_spec; [apply wfm_row; auto|rewrite K; apply wfm_row; auto]. }
  eapply tgives_ext; [|apply (pushcols_gives (fun v => v) _
    (fun i => ewise_and op (nth i (data A) []) (nth i (data B) [])))].
  - intros i j _ _. simpl. rewrite option_map_id'. apply S.
  - intros i _. apply S.
  - intros i M Hi L. rewrite getrow_ok by (rewrite (wfm_len B WB); lia). cbn [bind].
    destruct (empty (nth i (data B) [])) eqn:EB; cbn [negb].
    { apply empty_nil in EB. rewrite EB, ewise_and_nil_r. reflexivity. }
    rewrite getrow_ok by (rewrite (wfm_len A WA); lia). cbn [bind].
    destruct (empty (nth i (data A) [])) eqn:EA; cbn [negb]; auto.
    apply empty_nil in EA. rewrite EA, ewise_and_nil_l. reflexivity.
Qed.

Lemma or_false_none {TA TB} (A : lil TA) (B : lil TB) :
  wfm A -> wfm B -> has_vals (nvals A) || has_vals (nvals B) = false ->
  forall i j, mget A i j = None /\ mget B i j = None.
Proof.
  intros WA WB H i j. apply orb_false_iff in H as [H1 H2].
  split; apply has_vals_false_m; auto.
Qed.

Lemma ewa_T_ok {TA TB TT} (op : TA -> TB -> TT) (c1 : TA -> TT) (c2 : TB -> TT)
    (A : lil TA) (B : lil TB) :
  wfm A -> wfm B -> nrows A = nrows B -> ncols A = ncols B ->
  tgives (nrows A) (ncols A) (fun i j => ounion op c1 c2 (mget A i j) (mget B i j))
    (ewa_T op c1 c2 A B).
Proof.
  intros WA WB R K. unfold ewa_T.
  destruct (has_vals (nvals A) || has_vals (nvals B)) eqn:H.
  2: { apply tgives_new. intros i j _ _.
       destruct (or_false_none A B WA WB H i j) as [-> ->]. reflexivity. }
  assert (S : forall i, wfrow 0 (ncols A) (ewise_or op c1 c2 (nth i (data A) []) (nth i (data B) [])) /\
    forall j, rget (ewise_or op c1 c2 (nth i (data A) []) (nth i (data B) [])) j =
      ounion op c1 c2 (mget A i j) (mget B i j)).
  { intro i. apply ewise_or_spec; [apply wfm_row; auto|rewrite K; apply wfm_row; auto]. }
  eapply tgives_ext; [|apply (setrows_gives _
    (fun i => ewise_or op c1 c2 (nth i (data A) []) (nth i (data B) [])))].
  - intros i j _ _. apply S.
  - intros i _. apply S.
  - intros i M Hi L N. rewrite getrow_ok by (rewrite (wfm_len B WB); lia). cbn [bind].
    rewrite getrow_ok by (rewrite (wfm_len A WA); lia). cbn [bind].
    destruct (empty (nth i (data B) [])) eqn:EB.
    { apply empty_nil in EB. rewrite EB, ewise_or_nil_r. apply setRow_ok. lia. }
    destruct (empty (nth i (data A) [])) eqn:EA.
    { apply empty_nil in EA. rewrite EA, ewise_or_nil_l. apply setRow_ok. lia. }
    destruct (empty (ewise_or _ _ _ _ _)) eqn:ET; cbn [negb].
    { apply empty_nil in ET. rewrite ET, setrow_pure_nil by auto. reflexivity. }
    rewrite setRow_ok by lia. rewrite cast_id. reflexivity.
Qed.

Lemma pushcol_cast {X T} (g : X -> T) i r (M : lil T) :
  pushcol (fun v => v) i (cast_row g r) M = pushcol g i r M.
Proof.
  unfold pushcol, cast_row. revert M. induction r as [|[k v] r IH]; intro M; simpl; auto.
  destruct (pushrow M k (i, g v)); simpl; auto.
Qed.

Lemma ewa_TT_ok {TA TB TT} (op : TA -> TB -> TT) (c1 : TA -> TT) (c2 : TB -> TT)
    (A : lil TA) (B : lil TB) :
  wfm A -> wfm B -> nrows A = nrows B -> ncols A = ncols B ->
  tgives (ncols A) (nrows A) (fun i j => ounion op c1 c2 (mget A j i) (mget B j i))
    (ewa_TT op c1 c2 A B).
Proof.
  intros WA WB R K. unfold ewa_TT.
  destruct (has_vals (nvals A) || has_vals (nvals B)) eqn:H.
  2: { apply tgives_new. intros i j _ _.
       destruct (or_false_none A B WA WB H j i) as [-> ->]. reflexivity. }
  assert (S : forall i, wfrow 0 (ncols A) (ewise_or op c1 c2 (nth i (data A) []) (nth i (data B) [])) /\
    forall j, rget (ewise_or op c1 c2 (nth i (data A) []) (nth i (data B) [])) j =
      ounion op c1 c2 (mget A i j) (mget B i j)).
  { intro i. apply ewise_or_spec; [apply wfm_row; auto|rewrite K; apply wfm_row; auto]. }
  eapply tgives_ext; [|apply (pushcols_gives (fun v => v) _
    (fun i => ewise_or op c1 c2 (nth i (data A) []) (nth i (data B) [])))].
  - intros i j _ _. simpl. rewrite option_map_id'. apply S.
  - intros i _. apply S.
  - intros i M Hi L. rewrite getrow_ok by (rewrite (wfm_len B WB); lia). cbn [bind].
    rewrite getrow_ok by (rewrite (wfm_len A WA); lia). cbn [bind].
    destruct (empty (nth i (data B) [])) eqn:EB.
    { apply empty_nil in EB. rewrite EB, ewise_or_nil_r, pushcol_cast. reflexivity. }
    destruct (empty (nth i (data A) [])) eqn:EA; auto.
    apply empty_nil in EA. rewrite EA, ewise_or_nil_l, pushcol_cast. reflexivity.
Qed.

Lemma ewise_checks_ok {TA TB TC TM} (m : mask (lil TM)) (C : lil TC) (A : mview TA) (B : mview TB) :
  ewise_conforms m C A B -> ewise_checks m C A B = Ok tt.
Proof.
  intros (Fm & R & K & R' & K'). unfold ewise_checks.
  destruct (check_mask_ok m _ _ Fm) as [-> ->]. cbn [bind]. rewrite !check_eq_ok by auto. reflexivity.
Qed.

Lemma check_mask_bind' {TM A} (m : mask (lil TM)) nr nc (k : unit -> res A) :
  (mask_fits m nr nc -> k tt = Throw DimensionException) ->
  bind (check_mask_cols nc m) (fun _ => bind (check_mask_rows nr m) k) = Throw DimensionException.
Proof.
  intro H. destruct (mask_fits_dec m nr nc) as [F|F].
  - destruct (check_mask_ok m nr nc F) as [-> ->]. cbn [bind]. auto.
  - destruct m as [|M|M|M|M]; simpl in *; [tauto| | | |];
      (destruct (Nat.eq_dec nc (ncols M));
       [rewrite (check_eq_ok nc) by auto; cbn [bind]; rewrite check_eq_throw by (intuition auto); reflexivity
       |rewrite check_eq_throw by auto; reflexivity]).
Qed.

Lemma ewise_checks_throw {TA TB TC TM X} (m : mask (lil TM)) (C : lil TC) (A : mview TA) (B : mview TB)
    (k : unit -> res X) :
  ~ ewise_conforms m C A B -> bind (ewise_checks m C A B) k = Throw DimensionException.
Proof.
  intro H. unfold ewise_checks.
  assert (E : (_ <- check_mask_cols (ncols C) m;;
    _ <- check_mask_rows (nrows C) m;;
    _ <- check_eq (ncols C) (vcols A);;
    _ <- check_eq (nrows C) (vrows A);;
    _ <- check_eq (vcols A) (vcols B);; check_eq (vrows A) (vrows B)) = Throw DimensionException).
  { apply check_mask_bind'. intro. apply check_bind. intro. apply check_bind. intro.
    apply check_bind. intro. apply check_eq_throw. intro. apply H. unfold ewise_conforms. auto. }
  rewrite E. reflexivity.
Qed.


Theorem eWiseMult_ok {TA TB TT TC TZ TM} (op : TA -> TB -> TT) (opA : TA -> TA -> TT)
    (ba : TB -> TA) (truthy : TM -> bool) (zc : TZ -> TC) (a : accum TC TT TZ)
    (m : mask (lil TM)) outp (C : lil TC) (A : mview TA) (B : mview TB) :
  wfm C -> wfview A -> wfview B -> wfmask m -> ewise_conforms m C A B ->
  written truthy zc a m outp C
    (fun i j => match A, B with
                | Mat _, Trn _ => omap2 opA (sview A i j) (option_map ba (sview B i j))
                | _, _ => omap2 op (sview A i j) (sview B i j)
                end)
    (eWiseMult op opA ba truthy zc a m outp C A B).
Proof.
  intros WC WA WB Wm F. unfold eWiseMult. rewrite ewise_checks_ok by auto. cbn [bind].
  destruct F as (Fm & R & K & R' & K').
  match goal with |- written _ _ _ _ _ _ ?f (bind ?t _) =>
    assert (T : tgives (nrows C) (ncols C) f t) end.
  { destruct A as [A|A], B as [B|B]; simpl in *.
    - rewrite R, K. apply ewm_T_ok; auto.
    - destruct (staged_transpose_ok ba B WB) as (Bt & E & W & RB & KB & G). rewrite E. cbn [bind].
      rewrite R, K. eapply tgives_ext; [|apply ewm_T_ok; auto; lia].
      intros i j _ _. simpl. rewrite G. reflexivity.
    - destruct (staged_transpose_ok (fun v => v) A WA) as (At & E & W & RA & KA & G).
      rewrite E. cbn [bind].
      rewrite R, K, <- RA, <- KA. eapply tgives_ext; [|apply ewm_T_ok; auto; lia].
      intros i j _ _. simpl. rewrite G, option_map_id'. reflexivity.
    - rewrite R, K. apply ewm_TT_ok; auto. }
  destruct T as (T & E & WT & GT). rewrite E. cbn [bind]. apply accum_write_ok; auto.
Qed.

Theorem eWiseAdd_ok {TA TB TT TC TZ TM} (op : TA -> TB -> TT) (c1 : TA -> TT) (c2 : TB -> TT)
    (opA : TA -> TA -> TT) (c2A : TA -> TT)
    (ba : TB -> TA) (truthy : TM -> bool) (zc : TZ -> TC) (a : accum TC TT TZ)
    (m : mask (lil TM)) outp (C : lil TC) (A : mview TA) (B : mview TB) :
  wfm C -> wfview A -> wfview B -> wfmask m -> ewise_conforms m C A B ->
  written truthy zc a m outp C
    (fun i j => match A, B with
                | Mat _, Trn _ => ounion opA c1 c2A (sview A i j) (option_map ba (sview B i j))
                | _, _ => ounion op c1 c2 (sview A i j) (sview B i j)
                end)
    (eWiseAdd op c1 c2 opA c2A ba truthy zc a m outp C A B).
Proof.
  intros WC WA WB Wm F. unfold eWiseAdd. rewrite ewise_checks_ok by auto. cbn [bind].
  destruct F as (Fm & R & K & R' & K').
  match goal with |- written _ _ _ _ _ _ ?f (bind ?t _) =>
    assert (T : tgives (nrows C) (ncols C) f t) end.
  { destruct A as [A|A], B as [B|B]; simpl in *.
    - rewrite R, K. apply ewa_T_ok; auto.
    - destruct (staged_transpose_ok ba B WB) as (Bt & E & W & RB & KB & G). rewrite E. cbn [bind].
      rewrite R, K. eapply tgives_ext; [|apply ewa_T_ok; auto; lia].
      intros i j _ _. simpl. rewrite G. reflexivity.
    - destruct (staged_transpose_ok (fun v => v) A WA) as (At & E & W & RA & KA & G).
      rewrite E. cbn [bind].
      rewrite R, K, <- RA, <- KA. eapply tgives_ext; [|apply ewa_T_ok; auto; lia].
      intros i j _ _. simpl. rewrite G, option_map_id'. reflexivity.
    - rewrite R, K. apply ewa_TT_ok; auto. }
  destruct T as (T & E & WT & GT). rewrite E. cbn [bind]. apply accum_write_ok; auto.
Qed.

Theorem eWiseMult_throws {TA TB TT TC TZ TM} (op : TA -> TB -> TT) (opA : TA -> TA -> TT)
    (ba : TB -> TA) (truthy : TM -> bool) (zc : TZ -> TC) (a : accum TC TT TZ)
    (m : mask (lil TM)) outp (C : lil TC) (A : mview TA) (B : mview TB) :
  ~ ewise_conforms m C A B ->
  eWiseMult op opA ba truthy zc a m outp C A B = Throw DimensionException.
Proof. intro. apply ewise_checks_throw; auto. Qed.

Theorem eWiseAdd_throws {TA TB TT TC TZ TM} (op : TA -> TB -> TT) (c1 : TA -> TT) (c2 : TB -> TT)
    (opA : TA -> TA -> TT) (c2A : TA -> TT)
    (ba : TB -> TA) (truthy : TM -> bool) (zc : TZ -> TC) (a : accum TC TT TZ)
    (m : mask (lil TM)) outp (C : lil TC) (A : mview TA) (B : mview TB) :
  ~ ewise_conforms m C A B ->
  eWiseAdd op c1 c2 opA c2A ba truthy zc a m outp C A B = Throw DimensionException.
Proof. intro. apply ewise_checks_throw; auto. Qed.

(** Vectors. *)
Theorem eWiseMult_v_ok {TU TV TT TW TZ TM} (op : TU -> TV -> TT)
    (truthy : TM -> bool) (zc : TZ -> TW) (a : accum TW TT TZ)
    (m : mask (bvec TM)) outp (w : bvec TW) (u : bvec TU) (v : bvec TV) :
  wfv0 w -> wfvn u -> wfvn v -> wfvmask m -> vewise_conforms m w u v ->
  vwritten truthy zc a m outp w (fun i => omap2 op (vget u i) (vget v i))
    (eWiseMult_v op truthy zc a m outp w u v).
Proof.
  intros Ww Wu Wv Wm (Fm & R & K). unfold eWiseMult_v.
  rewrite (check_mask_size_ok m _ Fm). cbn [bind]. rewrite !check_eq_ok by auto. cbn [bind].
  match goal with |- vwritten _ _ _ _ _ _ ?f (bind ?t _) =>
    assert (T : vgives (vsize w) f t) end.
  { destruct (has_vals (vnvals u)) eqn:HU; simpl.
    2: { apply vgives_nil. intros. rewrite (has_vals_false_v u) by auto. reflexivity. }
    destruct (has_vals (vnvals v)) eqn:HV.
    2: { apply vgives_nil. intros i Hi. rewrite (has_vals_false_v v) by auto.
         destruct (vget u i); reflexivity. }
    destruct (getContents_ok u (proj1 Wu)) as (uc & -> & Wuc & Gu). cbn [bind].
    destruct (getContents_ok v (proj1 Wv)) as (vc & -> & Wvc & Gv). cbn [bind].
    destruct (ewise_and_spec op uc vc 0 (vsize w)) as [W G]; [congruence|congruence|].
    eexists. split; [reflexivity|]. split; [auto|]. intros i Hi. rewrite G, Gu, Gv. auto. }
  destruct T as (t & Et & Wt & Gt). rewrite Et. cbn [bind]. apply accum_write_1D_ok; auto.
Qed.

Theorem eWiseAdd_v_ok {TU TV TT TW TZ TM} (op : TU -> TV -> TT) (c1 : TU -> TT) (c2 : TV -> TT)
    (truthy : TM -> bool) (zc : TZ -> TW) (a : accum TW TT TZ)
    (m : mask (bvec TM)) outp (w : bvec TW) (u : bvec TU) (v : bvec TV) :
  wfv0 w -> wfvn u -> wfvn v -> wfvmask m -> vewise_conforms m w u v ->
  vwritten truthy zc a m outp w (fun i => ounion op c1 c2 (vget u i) (vget v i))
    (eWiseAdd_v op c1 c2 truthy zc a m outp w u v).
Proof.
  intros Ww Wu Wv Wm (Fm & R & K). unfold eWiseAdd_v.
  rewrite (check_mask_size_ok m _ Fm). cbn [bind]. rewrite !check_eq_ok by auto. cbn [bind].
  match goal with |- vwritten _ _ _ _ _ _ ?f (bind ?t _) =>
    assert (T : vgives (vsize w) f t) end.
  { destruct (has_vals (vnvals u) || has_vals (vnvals v)) eqn:H.
    2: { apply orb_false_iff in H as [H1 H2]. apply vgives_nil. intros.
         rewrite (has_vals_false_v u), (has_vals_false_v v) by auto. reflexivity. }
    destruct (getContents_ok u (proj1 Wu)) as (uc & -> & Wuc & Gu). cbn [bind].
    destruct (getContents_ok v (proj1 Wv)) as (vc & -> & Wvc & Gv). cbn [bind].
    destruct (ewise_or_spec op c1 c2 uc vc 0 (vsize w)) as [W G]; [congruence|congruence|].
    eexists. split; [reflexivity|]. split; [auto|]. intros i Hi. rewrite G, Gu, Gv. auto. }
  destruct T as (t & Et & Wt & Gt). rewrite Et. cbn [bind]. apply accum_write_1D_ok; auto.
Qed.

Theorem eWiseMult_v_throws {TU TV TT TW TZ TM} (op : TU -> TV -> TT)
    (truthy : TM -> bool) (zc : TZ -> TW) (a : accum TW TT TZ)
    (m : mask (bvec TM)) outp (w : bvec TW) (u : bvec TU) (v : bvec TV) :
  ~ vewise_conforms m w u v -> eWiseMult_v op truthy zc a m outp w u v = Throw DimensionException.
Proof.
  intro H. unfold eWiseMult_v. apply check_vmask_bind. intro. apply check_bind. intro.
  apply check_bind. intro. exfalso. apply H. unfold vewise_conforms. auto.
Qed.

Theorem eWiseAdd_v_throws {TU TV TT TW TZ TM} (op : TU -> TV -> TT) (c1 : TU -> TT) (c2 : TV -> TT)
    (truthy : TM -> bool) (zc : TZ -> TW) (a : accum TW TT TZ)
    (m : mask (bvec TM)) outp (w : bvec TW) (u : bvec TU) (v : bvec TV) :
  ~ vewise_conforms m w u v ->
  eWiseAdd_v op c1 c2 truthy zc a m outp w u v = Throw DimensionException.
Proof.
  intro H. unfold eWiseAdd_v. apply check_vmask_bind. intro. apply check_bind. intro.
  apply check_bind. intro. exfalso. apply H. unfold vewise_conforms. auto.
Qed.
