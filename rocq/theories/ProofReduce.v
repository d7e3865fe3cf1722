(** apply and reduce compute their specification. *)
From Coq Require Import Lia Permutation.
From Verif Require Import Base ModelLil ModelVec ModelHelpers ModelViews ModelElem Spec SpecOps.
From Verif Require Import ProofBase ProofRow ProofLil ProofVec ProofCalls ProofWrite ProofViews ProofMul
  ProofElem.

(** ** apply *)
Lemma fold_push_cast {TA TT} (f : TA -> TT) r t0 :
  fold_left (fun t (p : nat * TA) => t ++ [(fst p, f (snd p))]) r t0 = t0 ++ cast_row f r.
Proof.
  revert t0. induction r as [|[k v] r IH]; intro t0; simpl.
  - rewrite app_nil_r; auto.
  - rewrite IH, <- app_assoc. reflexivity.
Qed.

Lemma apply_T_ok {TA TT} (f : TA -> TT) (A : mview TA) :
  wfview A ->
  tgives (vrows A) (vcols A) (fun i j => option_map f (sview A i j)) (apply_T f A).
Proof.
  intro W. destruct A as [A|A]; simpl in *.
  - destruct (fill_loop (fun i T => ra <- getrow A i ;;
           mfor ra (fun p T' => pushrow T' i (fst p, f (snd p))) T)
      (fun i => cast_row f (nth i (data A) [])) (nrows A) (ncols A) (nrows A)) as (M & E & L & G);
      [lia| |].
    + intros i M Hi L N. rewrite getrow_ok by (rewrite (wfm_len A W); auto). cbn [bind].
      rewrite (rowfold_loop (fun t p => t ++ [(fst p, f (snd p))]) _ _ i).
      * rewrite N, fold_push_cast. reflexivity.
      * lia.
      * intros p M' _ L'. apply pushrow_ok. lia.
    + rewrite E. apply (tgives_rows _ _ M (fun i => cast_row f (nth i (data A) []))); auto.
      * intros i Hi. rewrite G. ltb; auto.
      * intros i Hi. apply wfrow_cast, wfm_row; auto.
      * intros i j Hi Hj. rewrite rget_cast. reflexivity.
  - eapply tgives_ext; [|apply (pushcols_gives f _ (fun i => nth i (data A) []))].
    + intros i j _ _. reflexivity.
    + intros i Hi. apply wfm_row; auto.
    + intros i M Hi L. rewrite getrow_ok by (rewrite (wfm_len A W); auto). reflexivity.
Qed.

Theorem apply_ok {TA TT TC TZ TM} (f : TA -> TT) (truthy : TM -> bool) (zc : TZ -> TC)
    (a : accum TC TT TZ) (m : mask (lil TM)) outp (C : lil TC) (A : mview TA) :
  wfm C -> wfview A -> wfmask m -> apply_conforms m C A ->
  written truthy zc a m outp C (fun i j => option_map f (sview A i j))
    (apply f truthy zc a m outp C A).
Proof.
  intros WC WA Wm (Fm & R & K). unfold apply.
  destruct (check_mask_ok m _ _ Fm) as [-> ->]. cbn [bind].
  rewrite !check_eq_ok by auto. cbn [bind].
  destruct (apply_T_ok f A WA) as (T & E & WT & G). rewrite E. cbn [bind].
  apply accum_write_ok; auto.
  - rewrite R, K; auto.
  - intros. apply G; lia.
Qed.

Theorem apply_throws {TA TT TC TZ TM} (f : TA -> TT) (truthy : TM -> bool) (zc : TZ -> TC)
    (a : accum TC TT TZ) (m : mask (lil TM)) outp (C : lil TC) (A : mview TA) :
  ~ apply_conforms m C A -> apply f truthy zc a m outp C A = Throw DimensionException.
Proof.
  intro H. unfold apply. apply check_mask_bind'. intro. apply check_bind. intro.
  apply check_bind. intro. exfalso. apply H. unfold apply_conforms. auto.
Qed.

Theorem apply_v_ok {TU TT TW TZ TM} (f : TU -> TT) (truthy : TM -> bool) (zc : TZ -> TW)
    (a : accum TW TT TZ) (m : mask (bvec TM)) outp (w : bvec TW) (u : bvec TU) :
  wfv0 w -> wfvn u -> wfvmask m -> vapply_conforms m w u ->
  vwritten truthy zc a m outp w (fun i => option_map f (vget u i))
    (apply_v f truthy zc a m outp w u).
Proof.
  intros Ww Wu Wm (Fm & R). unfold apply_v.
  rewrite (check_mask_size_ok m _ Fm). cbn [bind]. rewrite !check_eq_ok by auto. cbn [bind].
  match goal with |- vwritten _ _ _ _ _ _ ?f (bind ?t _) =>
    assert (T : vgives (vsize w) f t) end.
  { destruct (has_vals (vnvals u)) eqn:HU.
    2: { apply vgives_nil. intros. rewrite (has_vals_false_v u) by auto. reflexivity. }
    destruct (getContents_ok u (proj1 Wu)) as (uc & -> & Wuc & Gu). cbn [bind].
    rewrite (mfor_pure _ _ (fun t p => t ++ [(fst p, f (snd p))])) by reflexivity.
    rewrite fold_push_cast. simpl. eexists. split; [reflexivity|].
    split; [apply wfrow_cast; congruence|].
    intros i Hi. rewrite rget_cast, Gu. reflexivity. }
  destruct T as (t & Et & Wt & Gt). rewrite Et. cbn [bind]. apply accum_write_1D_ok; auto.
Qed.

Theorem apply_v_throws {TU TT TW TZ TM} (f : TU -> TT) (truthy : TM -> bool) (zc : TZ -> TW)
    (a : accum TW TT TZ) (m : mask (bvec TM)) outp (w : bvec TW) (u : bvec TU) :
  ~ vapply_conforms m w u -> apply_v f truthy zc a m outp w u = Throw DimensionException.
Proof.
  intro H. unfold apply_v. apply check_vmask_bind. intro. apply check_bind. intro.
  exfalso. apply H. unfold vapply_conforms. auto.
Qed.

(** ** reduce *)
Section Reduction.
Context {TA TT : Type} (c1 : TA -> TT) (op01 : TA -> TA -> TT) (op : TT -> TA -> TT).
Hypothesis coh : forall x y, op01 x y = op (c1 x) y.

Let ostep (acc : option TT) (x : option TA) : option TT :=
  match acc, x with
  | None, Some v => Some (c1 v)
  | Some a, Some v => Some (op a v)
  | _, None => acc
  end.

Lemma fold_ostep_row (r : row TA) t :
  fold_left (fun acc (p : nat * TA) => ostep acc (Some (snd p))) r (Some t) =
  Some (fold_left (fun t p => op t (snd p)) r t).
Proof. revert t. induction r as [|p r IH]; intro t; simpl; auto. Qed.

Lemma reduction_row (r : row TA) :
  reduction c1 op01 op (fun x => x) r =
  fold_left (fun acc (p : nat * TA) => ostep acc (Some (snd p))) r None.
Proof.
  destruct r as [|[k x] [|[k' y] r]]; simpl; auto.
  rewrite coh. rewrite fold_ostep_row. reflexivity.
Qed.

Lemma reduction_spec (r : row TA) n :
  wfrow 0 n r ->
  reduction c1 op01 op (fun x => x) r = ofold c1 op (map (rget r) (seq 0 n)).
Proof.
  intro W. rewrite reduction_row. rewrite (fold_row_seq _ r 0 n) by auto.
  unfold ofold. rewrite fold_map, Nat.sub_0_r. apply fold_left_ext_in. intros acc k _.
  simpl. destruct acc, (rget r k); reflexivity.
Qed.
End Reduction.

Lemma ofold_snoc {TA TT} (c1 : TA -> TT) (op : TT -> TA -> TT) l x :
  ofold c1 op (l ++ [x]) = ounion op (fun t => t) c1 (ofold c1 op l) x.
Proof.
  unfold ofold. rewrite fold_left_app. simpl. destruct (fold_left _ l None), x; reflexivity.
Qed.

Lemma ofold_none {TA TT X} (c1 : TA -> TT) (op : TT -> TA -> TT) (f : X -> option TA) l :
  (forall x, In x l -> f x = None) -> ofold c1 op (map f l) = None.
Proof.
  intro H. unfold ofold. induction l as [|x l IH]; simpl; auto.
  rewrite (H x) by (left; auto). apply IH. intros; apply H; right; auto.
Qed.

Lemma reduce_T_ok {TA TT} (c1 : TA -> TT) (op01 : TA -> TA -> TT) (op : TT -> TA -> TT)
    (A : mview TA) :
  (forall x y, op01 x y = op (c1 x) y) -> wfview A ->
  vgives (vrows A) (fun i => ofold c1 op (map (fun j => sview A i j) (seq 0 (vcols A))))
    (reduce_T c1 op01 op A).
Proof.
  intros coh W. destruct A as [A|A]; simpl in *.
  - destruct (has_vals (nvals A)) eqn:H.
    2: { apply vgives_nil. intros. apply ofold_none. intros. apply has_vals_false_m; auto. }
    rewrite (append_loop (fun i => ofold c1 op (map (fun j => mget A i j) (seq 0 (ncols A))))).
    + simpl. eexists. split; [reflexivity|]. split; [apply genrow_wf0|].
      intros i Hi. rewrite genrow_get. ltb; auto.
    + intros i t Hi. rewrite getrow_ok by (rewrite (wfm_len A W); auto). cbn [bind].
      rewrite (reduction_spec c1 op01 op coh _ (ncols A)) by (apply wfm_row; auto).
      change (map (rget (nth i (data A) [])) (seq 0 (ncols A)))
        with (map (fun j => mget A i j) (seq 0 (ncols A))).
      destruct (ofold c1 op _); simpl; auto. rewrite app_nil_r. auto.
  - destruct (has_vals (nvals A)) eqn:H.
    2: { apply vgives_nil. intros. apply ofold_none. intros. apply has_vals_false_m; auto. }
    destruct (mfor_seq_inv (fun k t => wfrow 0 (ncols A) t /\
      forall j, rget t j = ofold c1 op (map (fun i => mget A i j) (seq 0 k)))
      (fun i t => ra <- getrow A i ;; if negb (empty ra) then Ok (xpey op c1 t ra) else Ok t)
      (nrows A) []) as (t & E & Wt & G).
    + split; [exact I|]. reflexivity.
    + intros i t Hi (Wt & G). rewrite getrow_ok by (rewrite (wfm_len A W); auto). cbn [bind].
      rewrite seq_S. simpl.
      destruct (xpey_spec op c1 (nth i (data A) []) t 0 (ncols A) Wt (wfm_row A i W)) as [W1 G1].
      exists (xpey op c1 t (nth i (data A) [])). split.
      * destruct (empty (nth i (data A) [])) eqn:Em; simpl; auto.
        apply empty_nil in Em. rewrite Em. reflexivity.
      * split; auto. intro j. rewrite G1, G, map_app. cbn [map]. rewrite ofold_snoc. reflexivity.
    + exists t. split; [auto|]. split; [auto|]. intros j Hj. apply G.
Qed.

Theorem reduce_ok {TA TT TW TZ TM} (c1 : TA -> TT) (op01 : TA -> TA -> TT) (op : TT -> TA -> TT)
    (truthy : TM -> bool) (zc : TZ -> TW) (a : accum TW TT TZ)
    (m : mask (bvec TM)) outp (w : bvec TW) (A : mview TA) :
  (forall x y, op01 x y = op (c1 x) y) ->
  wfv0 w -> wfview A -> wfvmask m -> reduce_conforms m w A ->
  vwritten truthy zc a m outp w
    (fun i => ofold c1 op (map (fun j => sview A i j) (seq 0 (vcols A))))
    (reduce c1 op01 op truthy zc a m outp w A).
Proof.
  intros coh Ww WA Wm (Fm & R). unfold reduce.
  rewrite (check_mask_size_ok m _ Fm). cbn [bind]. rewrite !check_eq_ok by auto. cbn [bind].
  destruct (reduce_T_ok c1 op01 op A coh WA) as (t & Et & Wt & Gt). rewrite Et. cbn [bind].
  apply accum_write_1D_ok; auto.
  - rewrite R; auto.
  - intros i Hi. apply Gt. lia.
Qed.

Theorem reduce_throws {TA TT TW TZ TM} (c1 : TA -> TT) (op01 : TA -> TA -> TT) (op : TT -> TA -> TT)
    (truthy : TM -> bool) (zc : TZ -> TW) (a : accum TW TT TZ)
    (m : mask (bvec TM)) outp (w : bvec TW) (A : mview TA) :
  ~ reduce_conforms m w A -> reduce c1 op01 op truthy zc a m outp w A = Throw DimensionException.
Proof.
  intro H. unfold reduce. apply check_vmask_bind. intro. apply check_bind. intro.
  exfalso. apply H. unfold reduce_conforms. auto.
Qed.

(** Scalars. *)
Theorem reduce_vs_ok {TU TT TV TZ} (ident : TT) (c1 : TU -> TT) (op01 : TU -> TU -> TT)
    (op : TT -> TU -> TT) (zc : TZ -> TV) (a : accum TV TT TZ) (val : TV) (u : bvec TU) :
  (forall x y, op01 x y = op (c1 x) y) -> wfvn u ->
  let s := match ofold c1 op (map (vget u) (seq 0 (vsize u))) with Some x => x | None => ident end in
  reduce_vs ident c1 op01 op zc a val u =
  Ok (zc (match a with NoAcc tz => tz s | Acc f _ _ => f val s end)).
Proof.
  intros coh Wu s. unfold reduce_vs.
  assert (E : (if has_vals (vnvals u) then
          uc <- getContents u ;;
          Ok match reduction c1 op01 op (fun x => x) uc with Some t => t | None => ident end
        else Ok ident) = Ok s).
  { unfold s. destruct (has_vals (vnvals u)) eqn:HU.
    - destruct (getContents_ok u (proj1 Wu)) as (uc & -> & Wuc & Gu). cbn [bind].
      rewrite (reduction_spec c1 op01 op coh uc (vsize u)) by auto.
      rewrite (map_ext (rget uc) (vget u)) by auto. reflexivity.
    - rewrite ofold_none; auto. intros. apply has_vals_false_v; auto. }
  rewrite E. cbn [bind]. destruct a; reflexivity.
Qed.

(** The sum of the rows' reductions, no law assumed. *)
Definition rows_sum {TA TT} (ident : TT) (c1 : TA -> TT) (op : TT -> TA -> TT)
    (op2 : TT -> TT -> TT) (nr nc : nat) (A : smat TA) : TT :=
  fold_left (fun t i => match ofold c1 op (map (A i) (seq 0 nc)) with
                        | Some x => op2 t x
                        | None => t
                        end) (seq 0 nr) ident.

Theorem reduce_ms_rows {TA TT TV TZ} (ident : TT) (c1 : TA -> TT) (op01 : TA -> TA -> TT)
    (op : TT -> TA -> TT) (op2 : TT -> TT -> TT) (zc : TZ -> TV) (a : accum TV TT TZ)
    (val : TV) (A : lil TA) :
  (forall x y, op01 x y = op (c1 x) y) -> wfm A ->
  let s := rows_sum ident c1 op op2 (nrows A) (ncols A) (mget A) in
  reduce_ms ident c1 op01 op op2 zc a val A =
  Ok (zc (match a with NoAcc tz => tz s | Acc f _ _ => f val s end)).
Proof.
  intros coh W s. unfold reduce_ms.
  match goal with |- (bind ?e _) = _ => assert (E : e = Ok s) end.
  { unfold s, rows_sum. destruct (has_vals (nvals A)) eqn:H.
    - rewrite (mfor_pure _ _ (fun t i =>
        match ofold c1 op (map (mget A i) (seq 0 (ncols A))) with
        | Some x => op2 t x | None => t end)); auto.
      intros i t Hi. apply in_seq in Hi.
      rewrite getrow_ok by (rewrite (wfm_len A W); lia). cbn [bind].
      rewrite (reduction_spec c1 op01 op coh _ (ncols A)) by (apply wfm_row; auto).
      change (map (rget (nth i (data A) [])) (seq 0 (ncols A)))
        with (map (mget A i) (seq 0 (ncols A))).
      destruct (empty (nth i (data A) [])) eqn:Em; simpl.
      + apply empty_nil in Em. rewrite ofold_none; auto.
        intros. unfold mget. rewrite Em. reflexivity.
      + destruct (ofold c1 op _); auto.
    - f_equal. symmetry.
      rewrite (fold_left_ext_in _ (fun t _ => t)).
      + induction (seq 0 (nrows A)); auto.
      + intros t i _. rewrite ofold_none; auto. intros. apply has_vals_false_m; auto. }
  rewrite E. cbn [bind]. destruct a; reflexivity.
Qed.

(** ** Sums under algebraic laws *)
Section Sum.
Context {T : Type} (add : T -> T -> T).
Hypothesis assoc : forall x y z, add (add x y) z = add x (add y z).

Lemma oadd_assoc x y z : oadd add (oadd add x y) z = oadd add x (oadd add y z).
Proof. destruct x, y, z; simpl; auto. rewrite assoc; auto. Qed.

Lemma fold_oadd_acc l x : fold_left (oadd add) l x = oadd add x (osum add l).
Proof.
  unfold osum. revert x. induction l as [|y l IH]; intro x; simpl.
  - symmetry; apply oadd_none_r.
  - rewrite IH, (IH y), oadd_assoc. reflexivity.
Qed.

Lemma osum_cons x l : osum add (x :: l) = oadd add x (osum add l).
Proof. unfold osum at 1. simpl. apply fold_oadd_acc. Qed.

Lemma osum_app l1 l2 : osum add (l1 ++ l2) = oadd add (osum add l1) (osum add l2).
Proof. unfold osum at 1. rewrite fold_left_app. apply fold_oadd_acc. Qed.

Lemma osum_flat_map {X} (f : X -> list (option T)) l :
  osum add (flat_map f l) = osum add (map (fun x => osum add (f x)) l).
Proof.
  induction l as [|x l IH]; simpl; auto. rewrite osum_app, osum_cons, IH. reflexivity.
Qed.

Hypothesis comm : forall x y, add x y = add y x.

Lemma oadd_comm x y : oadd add x y = oadd add y x.
Proof. destruct x, y; simpl; auto. rewrite comm; auto. Qed.

Lemma osum_perm l1 l2 : Permutation l1 l2 -> osum add l1 = osum add l2.
Proof.
  induction 1; auto.
  - rewrite !osum_cons. congruence.
  - rewrite !osum_cons, <- !oadd_assoc, (oadd_comm x y). reflexivity.
  - congruence.
Qed.
End Sum.

Lemma list_prod_swap {X Y} (l1 : list X) (l2 : list Y) :
  Permutation (map (fun '(x, y) => (y, x)) (list_prod l1 l2)) (list_prod l2 l1).
Proof.
  revert l2. induction l1 as [|x l1 IH]; intro l2; simpl.
  - induction l2; simpl; auto.
  - rewrite map_app, map_map. simpl.
    assert (P : Permutation (list_prod l2 (x :: l1)) (map (fun y => (y, x)) l2 ++ list_prod l2 l1)).
    { clear IH. induction l2 as [|y l2 IH2]; simpl; auto.
      apply perm_skip. rewrite IH2. rewrite !app_assoc. apply Permutation_app_tail.
      apply Permutation_app_comm. }
    rewrite P. apply Permutation_app_head. apply IH.
Qed.

(** A fold of conversions is a sum of converted values. *)
Lemma ofold_osum {TA TT} (c1 : TA -> TT) (op : TT -> TA -> TT) (op2 : TT -> TT -> TT) l :
  (forall t x, op t x = op2 t (c1 x)) ->
  ofold c1 op l = osum op2 (map (option_map c1) l).
Proof.
  intro H. unfold ofold, osum. rewrite fold_map. apply fold_left_ext_in.
  intros acc x _. destruct acc, x; simpl; auto. rewrite H; auto.
Qed.

Lemma map_list_prod {X Y Z} (f : X * Y -> Z) l1 l2 :
  map f (list_prod l1 l2) = flat_map (fun x => map (fun y => f (x, y)) l2) l1.
Proof. induction l1 as [|x l1 IH]; simpl; auto. rewrite map_app, map_map, IH. reflexivity. Qed.

(** Sum of the stored elements in row-major order, [ident] when there are none. *)
Definition total {TA TT} (ident : TT) (c1 : TA -> TT) (op2 : TT -> TT -> TT) (nr nc : nat)
    (A : smat TA) : TT :=
  match osum op2 (map (fun '(i, j) => option_map c1 (A i j))
                    (list_prod (seq 0 nr) (seq 0 nc))) with
  | Some s => s
  | None => ident
  end.

Lemma rows_sum_total {TA TT} (ident : TT) (c1 : TA -> TT) (op : TT -> TA -> TT)
    (op2 : TT -> TT -> TT) nr nc (A : smat TA) :
  (forall t x, op t x = op2 t (c1 x)) ->
  (forall x y z, op2 (op2 x y) z = op2 x (op2 y z)) -> (forall x, op2 ident x = x) ->
  rows_sum ident c1 op op2 nr nc A = total ident c1 op2 nr nc A.
Proof.
  intros H assoc lid. unfold rows_sum, total.
  rewrite map_list_prod, osum_flat_map by auto.
  rewrite (fold_left_ext_in _ (fun t i =>
    match osum op2 (map (fun j => option_map c1 (A i j)) (seq 0 nc)) with
    | Some x => op2 t x | None => t end)).
  2: { intros t i _. rewrite (ofold_osum c1 op op2) by auto. rewrite map_map. reflexivity. }
  set (g := fun i => osum op2 (map (fun j => option_map c1 (A i j)) (seq 0 nc))).
  change (fold_left (fun t i => match g i with Some x => op2 t x | None => t end) (seq 0 nr) ident
    = match osum op2 (map g (seq 0 nr)) with Some s => s | None => ident end).
  generalize (seq 0 nr). intro l.
  assert (G : forall t, fold_left (fun t i => match g i with Some x => op2 t x | None => t end) l t =
    match osum op2 (map g l) with Some s => op2 t s | None => t end).
  { induction l as [|i l IH]; intro t; simpl; auto.
    rewrite osum_cons by auto. rewrite IH. destruct (g i), (osum op2 (map g l)); simpl; auto. }
  rewrite G. destruct (osum op2 (map g l)); auto.
Qed.

Lemma total_tran {TA TT} (ident : TT) (c1 : TA -> TT) (op2 : TT -> TT -> TT) nr nc (A : smat TA) :
  (forall x y z, op2 (op2 x y) z = op2 x (op2 y z)) -> (forall x y, op2 x y = op2 y x) ->
  total ident c1 op2 nr nc A = total ident c1 op2 nc nr (stran A).
Proof.
  intros assoc comm. unfold total.
  rewrite (osum_perm op2 assoc comm _
    (map (fun '(i, j) => option_map c1 (stran A i j)) (list_prod (seq 0 nc) (seq 0 nr)))); auto.
  rewrite <- (list_prod_swap (seq 0 nr) (seq 0 nc)). rewrite map_map.
  erewrite map_ext; [apply Permutation_refl|]. intros [i j]. reflexivity.
Qed.
