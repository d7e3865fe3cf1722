(** The products compute the sums of products of their specification. *)
From Coq Require Import Lia.
From Verif Require Import Base ModelLil ModelVec ModelHelpers ModelViews ModelMul Spec SpecOps.
From Verif Require Import ProofBase ProofRow ProofLil ProofVec ProofCalls ProofWrite ProofViews.

Lemma empty_nil {X} (l : list X) : empty l = true -> l = [].
Proof. destruct l; [auto|discriminate]. Qed.

Lemma omap2_swap {A B C} (f : A -> B -> C) (g : B -> A -> C) x y :
  (forall a b, g b a = f a b) -> omap2 g y x = omap2 f x y.
Proof. intro H. destruct x, y; simpl; auto. rewrite H; auto. Qed.

(** Repeated [axpy] over a sorted row of coefficients. *)
Lemma axpy_fold {TA TB TT} (add : TT -> TT -> TT) (mult : TA -> TB -> TT) ra (B : nat -> row TB) K nc t0 :
  wfrow 0 K ra -> (forall k, k < K -> wfrow 0 nc (B k)) -> wfrow 0 nc t0 ->
  let t := fold_left (fun t p => axpy add mult (snd p) t (B (fst p))) ra t0 in
  wfrow 0 nc t /\
  forall j, rget t j =
    fold_left (oadd add) (map (fun k => omap2 mult (rget ra k) (rget (B k) j)) (seq 0 K)) (rget t0 j).
Proof.
  intros Wr WB W0 t.
  assert (G : forall ra lo t0, wfrow lo K ra -> wfrow 0 nc t0 ->
    let t := fold_left (fun t p => axpy add mult (snd p) t (B (fst p))) ra t0 in
    wfrow 0 nc t /\ forall j, rget t j =
      fold_left (fun acc p => oadd add acc (option_map (mult (snd p)) (rget (B (fst p)) j)))
        ra (rget t0 j)).
  { clear - WB. intros ra; induction ra as [|[k a] ra IH]; intros lo t0 Wr W0; simpl.
    - split; auto.
    - destruct Wr as [Hk Wr].
      destruct (axpy_spec add mult a t0 (B k) 0 nc W0) as [W1 G1]; [apply WB; lia|].
      destruct (IH (S k) (axpy add mult a t0 (B k)) Wr W1) as [W2 G2].
      split; auto. intro j. rewrite G2, G1. reflexivity. }
  destruct (G ra 0 t0 Wr W0) as [W1 G1]. split; [exact W1|].
  intro j. unfold t. rewrite G1. rewrite (fold_row_seq _ ra 0 K) by auto.
  rewrite Nat.sub_0_r, fold_map. apply fold_left_ext_in. intros x k Hk.
  destruct (rget ra k) eqn:E; simpl; [destruct (rget (B k) j); reflexivity|].
  rewrite oadd_none_r. reflexivity.
Qed.

Section P.
Context {TA TB TT TC : Type}.
Context (add : TT -> TT -> TT).

Lemma mxm_AB_ok (mult : TA -> TB -> TT) (A : lil TA) (B : lil TB) :
  wfm A -> wfm B -> ncols A = nrows B ->
  tgives (nrows A) (ncols B) (smul add mult (ncols A) (mget A) (mget B))
    (mxm_AB add mult (nrows A) (ncols B) A B).
Proof.
  intros WA WB E. unfold mxm_AB.
  set (F := fun i => fold_left (fun t p => axpy add mult (snd p) t (nth (fst p) (data B) []))
                       (nth i (data A) []) []).
  destruct (fill_loop
    (fun i T => ra <- getrow A i ;;
       mfor ra (fun p T' => rb <- getrow B (fst p) ;;
            if empty rb then Ok T'
            else t <- getrow T' i ;; putrow T' i (axpy add mult (snd p) t rb)) T)
    F (nrows A) (ncols B) (nrows A)) as (M & EM & L & G); auto.
  - intros i M Hi L N. rewrite getrow_ok by (rewrite (wfm_len A WA); auto). cbn [bind].
    unfold F. rewrite <- N. apply rowfold_loop; [lia|].
    intros [k a] M' Hp L'.
    assert (Hk : k < nrows B).
    { pose proof (wfrow_In _ _ _ _ _ (wfm_row A i WA) Hp). lia. }
    rewrite getrow_ok by (rewrite (wfm_len B WB); auto). cbn [bind fst snd].
    destruct (empty (nth k (data B) [])) eqn:Em.
    + apply empty_nil in Em. rewrite Em. simpl. rewrite setraw_self. reflexivity.
    + rewrite getrow_ok by lia. cbn [bind]. apply putrow_ok. lia.
  - rewrite EM.
    assert (S : forall i, i < nrows A ->
      wfrow 0 (ncols B) (F i) /\ forall j, rget (F i) j = smul add mult (ncols A) (mget A) (mget B) i j).
    { intros i Hi.
      destruct (axpy_fold add mult (nth i (data A) []) (fun k => nth k (data B) []) (ncols A) (ncols B) [])
        as [W1 G1].
      - apply wfm_row; auto.
      - intros; apply wfm_row; auto.
      - exact I.
      - split; [exact W1|]. intro j. unfold F. rewrite G1. reflexivity. }
    apply tgives_rows with (F := F); auto.
    + intros i Hi. rewrite G. ltb; auto.
    + intros; apply S; auto.
    + intros; apply S; auto.
Qed.

Lemma mxm_ATB_ok (mult : TA -> TB -> TT) (A : lil TA) (B : lil TB) :
  wfm A -> wfm B -> nrows A = nrows B ->
  tgives (ncols A) (ncols B) (smul add mult (nrows A) (stran (mget A)) (mget B))
    (mxm_ATB add mult (ncols A) (ncols B) A B).
Proof.
  intros WA WB E. unfold mxm_ATB.
  destruct (mfor_seq_inv (fun k (T : lil TT) => wfrows (ncols A) (ncols B) (data T) /\
     forall i j, i < ncols A ->
       mget T i j = osum add (map (fun k => omap2 mult (mget A k i) (mget B k j)) (seq 0 k)))
    (fun k T =>
       ra <- getrow A k ;;
       if empty ra then Ok T else
       rb <- getrow B k ;;
       if empty rb then Ok T else
       mfor ra
         (fun p T' => t <- getrow T' (fst p) ;; putrow T' (fst p) (axpy add mult (snd p) t rb))
         T) (nrows A) (lil_new (ncols A) (ncols B))) as (M & EM & W & G).
  - split; [exact (proj1 (lil_new_wf _ _))|]. intros. apply mget_new.
  - intros k T Hk [W G].
    assert (KA : wfrow 0 (ncols A) (nth k (data A) [])) by (apply wfm_row; auto).
    assert (KB : wfrow 0 (ncols B) (nth k (data B) [])) by (apply wfm_row; auto).
    assert (Step : forall i j, osum add (map (fun k => omap2 mult (mget A k i) (mget B k j)) (seq 0 (1 + k))) =
       oadd add (osum add (map (fun k => omap2 mult (mget A k i) (mget B k j)) (seq 0 k)))
         (omap2 mult (mget A k i) (mget B k j))).
    { intros i j. unfold osum. change (1 + k) with (S k). rewrite seq_S, map_app, fold_left_app.
      reflexivity. }
    rewrite getrow_ok by (rewrite (wfm_len A WA); auto). cbn [bind].
    destruct (empty (nth k (data A) [])) eqn:Em.
    { exists T. split; auto. split; auto. intros i j Hi. rewrite Step, G by auto.
      apply empty_nil in Em.
      assert (N : mget A k i = None) by (unfold mget; rewrite Em; reflexivity).
      rewrite N. simpl. rewrite oadd_none_r. auto. }
    rewrite getrow_ok by (rewrite (wfm_len B WB); lia). cbn [bind].
    destruct (empty (nth k (data B) [])) eqn:Em'.
    { exists T. split; auto. split; auto. intros i j Hi. rewrite Step, G by auto.
      apply empty_nil in Em'.
      assert (N : mget B k j = None) by (unfold mget; rewrite Em'; reflexivity).
      rewrite N.
      destruct (mget A k i); simpl; rewrite oadd_none_r; auto. }
    destruct W as [L W].
    destruct (scatter_loop (fun a t => axpy add mult a t (nth k (data B) []))
      (fun p T' => t <- getrow T' (fst p) ;;
         putrow T' (fst p) (axpy add mult (snd p) t (nth k (data B) [])))
      (nth k (data A) []) 0 T) as (M1 & E1 & L1 & G1).
    + rewrite L. auto.
    + intros [i a] T' Hp L'. pose proof (wfrow_In _ _ _ _ _ KA Hp). cbn [fst snd].
      rewrite getrow_ok by lia. cbn [bind]. apply putrow_ok. lia.
    + exists M1. split; auto.
      assert (R : forall i, i < ncols A -> wfrow 0 (ncols B) (nth i (data M1) []) /\
        forall j, rget (nth i (data M1) []) j =
          oadd add (mget T i j) (omap2 mult (mget A k i) (mget B k j))).
      { intros i Hi. rewrite G1.
        assert (Wi : wfrow 0 (ncols B) (nth i (data T) [])) by (apply (wfrows_nth (ncols A)); split; auto).
        fold (mget A k i).
        change (rget (nth k (data A) []) i) with (mget A k i).
        destruct (mget A k i) as [a|]; simpl.
        - destruct (axpy_spec add mult a _ _ _ _ Wi KB) as [W2 G2]. split; auto.
        - split; auto. intro j. rewrite oadd_none_r. reflexivity. }
      split.
      * split; [lia|]. apply Forall_of_nth with (d := []). intros i Hi. apply R. lia.
      * intros i j Hi. unfold mget at 1. rewrite (proj2 (R i Hi)), Step, G by auto. reflexivity.
  - exists M. split; auto. split; auto. intros i j Hi Hj. rewrite G by auto. reflexivity.
Qed.

Lemma mxm_ABT_ok (mult : TA -> TB -> TT) (A : lil TA) (B : lil TB) :
  wfm A -> wfm B -> ncols A = ncols B ->
  tgives (nrows A) (nrows B) (smul add mult (ncols A) (mget A) (stran (mget B)))
    (mxm_ABT add mult (nrows A) (nrows B) A B).
Proof.
  intros WA WB E. unfold mxm_ABT.
  destruct (has_vals (nvals A)) eqn:HA; simpl.
  2: { apply tgives_new. intros. unfold smul. apply osum_none. intros k _.
       rewrite (has_vals_false_m A) by auto. reflexivity. }
  destruct (has_vals (nvals B)) eqn:HB.
  2: { apply tgives_new. intros. unfold smul. apply osum_none. intros k _. unfold stran.
       rewrite (has_vals_false_m B) by auto. destruct (mget A i k); reflexivity. }
  set (f := fun i c => dot add mult (nth i (data A) []) (nth c (data B) [])).
  destruct (fill_loop
    (fun row_idx T =>
         ra <- getrow A row_idx ;;
         if empty ra then Ok T else
         mfor (seq 0 (nrows B))
           (fun col_idx T' =>
              rb <- getrow B col_idx ;;
              if empty rb then Ok T' else
              match dot add mult ra rb with
              | Some t => pushrow T' row_idx (col_idx, t)
              | None => Ok T'
              end)
           T)
    (fun i => genrow (f i) 0 (nrows B)) (nrows A) (nrows B) (nrows A)) as (M & EM & L & G); auto.
  - intros i M Hi L N. rewrite getrow_ok by (rewrite (wfm_len A WA); auto). cbn [bind].
    destruct (empty (nth i (data A) [])) eqn:Em.
    { apply empty_nil in Em.
      replace (genrow (f i) 0 (nrows B)) with (@nil (nat * TT)).
      - rewrite <- N. rewrite setraw_self. reflexivity.
      - symmetry. unfold genrow, f. rewrite Em. generalize (seq 0 (nrows B)).
        induction l; simpl; auto. destruct (nth a (data B) []) as [|[? ?] ?]; simpl; auto. }
    rewrite (rowfold_loop (fun t c => t ++ opt1 c (f i c)) _ _ i); [|lia|].
    + f_equal. f_equal. rewrite N. unfold genrow.
      assert (Q : forall l (t : row TT), fold_left (fun t c => t ++ opt1 c (f i c)) l t =
                t ++ flat_map (fun c => opt1 c (f i c)) l).
      { induction l as [|c l IH]; intro t; simpl; [rewrite app_nil_r; auto|].
        rewrite IH, app_assoc; auto. }
      rewrite Q. reflexivity.
    + intros c M' Hc L'. apply in_seq in Hc.
      rewrite getrow_ok by (rewrite (wfm_len B WB); lia). cbn [bind]. unfold f.
      destruct (empty (nth c (data B) [])) eqn:Em'.
      * apply empty_nil in Em'. rewrite Em'. unfold dot. rewrite dot_loop_nil_r. simpl.
        rewrite app_nil_r, setraw_self. reflexivity.
      * destruct (dot add mult (nth i (data A) []) (nth c (data B) [])); simpl.
        -- rewrite pushrow_ok by lia. reflexivity.
        -- rewrite app_nil_r, setraw_self. reflexivity.
  - rewrite EM. apply tgives_rows with (F := fun i => genrow (f i) 0 (nrows B)); auto.
    + intros i Hi. rewrite G. ltb; auto.
    + intros i Hi. apply genrow_wf0.
    + intros i j Hi Hj. rewrite genrow_get. ltb. unfold f.
      rewrite (dot_spec add mult _ _ (ncols A)); [reflexivity|apply wfm_row; auto|].
      rewrite E. apply wfm_row; auto.
Qed.

Lemma mxm_ATBT_ok (mult : TA -> TB -> TT) (multS : TB -> TA -> TT) (tc : TT -> TC) (ct : TC -> TT)
    (A : lil TA) (B : lil TB) :
  wfm A -> wfm B -> nrows A = ncols B ->
  tgives (ncols A) (nrows B)
    (fun i j => option_map (fun v => ct (tc v))
       (smul add multS (nrows A) (mget B) (mget A) j i))
    (mxm_ATBT add multS tc ct (ncols A) (nrows B) A B).
Proof.
  intros WA WB E. unfold mxm_ATBT.
  set (R := fun i => fold_left (fun t p => axpy add multS (snd p) t (nth (fst p) (data A) []))
                       (nth i (data B) []) []).
  assert (S : forall i, wfrow 0 (ncols A) (R i) /\
      forall j, rget (R i) j = smul add multS (nrows A) (mget B) (mget A) i j).
  { intros i.
    destruct (axpy_fold add multS (nth i (data B) []) (fun k => nth k (data A) []) (nrows A) (ncols A) [])
      as [W1 G1].
    - rewrite E. apply wfm_row; auto.
    - intros; apply wfm_row; auto.
    - exact I.
    - split; [exact W1|]. intro j. unfold R. rewrite G1. reflexivity. }
  destruct (pushcol_loop (fun v => ct (tc v))
    (fun i T =>
       rb <- getrow B i ;;
       trow <- mfor rb
                 (fun p t =>
                    ra <- getrow A (fst p) ;;
                    if empty ra then Ok t else Ok (axpy add multS (snd p) t ra))
                 [] ;;
       pushcol (fun v => ct (tc v)) i trow T)
    R (ncols A) (nrows B) (nrows B)) as (M & EM & L & G).
  - intros; apply S.
  - intros i M Hi L. rewrite getrow_ok by (rewrite (wfm_len B WB); auto). cbn [bind].
    rewrite (mfor_pure _ _ (fun t p => axpy add multS (snd p) t (nth (fst p) (data A) []))).
    + reflexivity.
    + intros [k b] t Hp. pose proof (wfrow_In _ _ _ _ _ (wfm_row B i WB) Hp). cbn [fst snd].
      rewrite getrow_ok by (rewrite (wfm_len A WA); lia). cbn [bind].
      destruct (empty (nth k (data A) [])) eqn:Em; auto.
      apply empty_nil in Em. rewrite Em. reflexivity.
  - rewrite EM.
    apply tgives_rows with (F := fun j => genrow (fun i => option_map (fun v => ct (tc v)) (rget (R i) j)) 0 (nrows B)); auto.
    + intros; apply genrow_wf0.
    + intros i j Hi Hj. rewrite genrow_get. ltb. rewrite (proj2 (S j)). reflexivity.
Qed.
End P.

Theorem mxm_ok {TA TB TT TC TZ TM} (add : TT -> TT -> TT) (mult : TA -> TB -> TT)
    (multS : TB -> TA -> TT) (tc : TT -> TC) (ct : TC -> TT)
    (truthy : TM -> bool) (zc : TZ -> TC) (a : accum TC TT TZ) (m : mask (lil TM)) outp
    (C : lil TC) (A : mview TA) (B : mview TB) :
  wfm C -> wfview A -> wfview B -> wfmask m -> mask_fits m (nrows C) (ncols C) ->
  nrows C = vrows A -> ncols C = vcols B -> vcols A = vrows B ->
  (match A, B with
   | Trn _, Trn _ => (forall x y, multS y x = mult x y) /\ (forall v, ct (tc v) = v)
   | _, _ => True
   end) ->
  written truthy zc a m outp C (smul add mult (vcols A) (sview A) (sview B))
    (mxm add mult multS tc ct truthy zc a m outp C A B).
Proof.
  intros WC WA WB Wm Fm R Cc K HS. unfold mxm.
  destruct (check_mask_ok m _ _ Fm) as [-> ->]. cbn [bind].
  rewrite !check_eq_ok by auto. cbn [bind].
  assert (T : tgives (nrows C) (ncols C) (smul add mult (vcols A) (sview A) (sview B))
    (mxm_T add mult multS tc ct (nrows C) (ncols C) A B)).
  { rewrite R, Cc. destruct A as [A|A], B as [B|B]; simpl in *.
    - apply mxm_AB_ok; auto.
    - apply mxm_ABT_ok; auto.
    - apply mxm_ATB_ok; auto.
    - destruct HS as [HS HC]. eapply tgives_ext; [|apply mxm_ATBT_ok; auto].
      intros i j Hi Hj. simpl. unfold smul, stran.
      rewrite (map_ext _ (fun k => omap2 mult (mget A k i) (mget B j k))).
      + destruct (osum add _); simpl; auto. rewrite HC; auto.
      + intro k. apply omap2_swap; auto. }
  destruct T as (T & ET & WT & GT). rewrite ET. cbn [bind]. apply accum_write_ok; auto.
Qed.

(** ** Matrix-vector products *)
Section V.
Context {TA TU TT : Type} (add : TT -> TT -> TT).

Lemma axpy_rows_ok (mult : TU -> TA -> TT) (A : lil TA) (u : bvec TU) :
  wfm A -> wfvn u -> vsize u = nrows A ->
  vgives (ncols A) (svmul add mult (nrows A) (vget u) (mget A)) (axpy_rows add mult A u).
Proof.
  intros WA Wu E. unfold axpy_rows.
  destruct (has_vals (nvals A)) eqn:HA; simpl.
  2: { apply vgives_nil. intros. apply osum_none. intros k _.
       rewrite (has_vals_false_m A) by auto. destruct (vget u k); reflexivity. }
  destruct (has_vals (vnvals u)) eqn:HU.
  2: { apply vgives_nil. intros. apply osum_none. intros k _.
       rewrite (has_vals_false_v u) by auto. reflexivity. }
  destruct Wu as [Wu _].
  match goal with |- vgives _ _ (mfor _ ?b _) =>
    destruct (mfor_seq_inv (fun k (t : row TT) => wfrow 0 (ncols A) t /\
      forall j, rget t j = osum add (map (fun k => omap2 mult (vget u k) (mget A k j)) (seq 0 k)))
      b (vsize u) []) as (t & Et & W & G) end.
  - split; [exact I|]. reflexivity.
  - intros k t Hk [W G].
    assert (Step : forall j, osum add (map (fun k => omap2 mult (vget u k) (mget A k j)) (seq 0 (1 + k))) =
       oadd add (rget t j) (omap2 mult (vget u k) (mget A k j))).
    { intros j. rewrite G. unfold osum. change (1 + k) with (S k).
      rewrite seq_S, map_app, fold_left_app. reflexivity. }
    rewrite vec_hasElement_ok by auto. ltb. cbn [bind].
    destruct (vget u k) as [x|] eqn:Ex; cbn [is_some].
    + rewrite getrow_ok by (rewrite (wfm_len A WA); lia). cbn [bind].
      destruct (empty (nth k (data A) [])) eqn:Em.
      * apply empty_nil in Em. exists t. split; auto. split; auto. intro j. rewrite Step.
        unfold mget. rewrite Em. simpl. rewrite oadd_none_r; auto.
      * rewrite vec_extractElement_ok by auto. ltb. rewrite Ex. cbn [bind].
        destruct (axpy_spec add mult x t (nth k (data A) []) 0 (ncols A) W) as [W1 G1].
        { apply wfm_row; auto. }
        eexists. split; [reflexivity|]. split; auto. intro j. rewrite G1, Step. reflexivity.
    + exists t. split; auto. split; auto. intro j. rewrite Step. simpl. rewrite oadd_none_r; auto.
  - exists t. split; auto. split; auto. intros i Hi. rewrite G, E. reflexivity.
Qed.

Lemma mxv_A_ok (mult : TA -> TU -> TT) (A : lil TA) (u : bvec TU) :
  wfm A -> wfvn u -> vsize u = ncols A ->
  vgives (nrows A) (smulv add mult (ncols A) (mget A) (vget u)) (mxv_A add mult (nrows A) A u).
Proof.
  intros WA Wu E. unfold mxv_A.
  destruct (has_vals (nvals A)) eqn:HA; simpl.
  2: { apply vgives_nil. intros. apply osum_none. intros k _.
       rewrite (has_vals_false_m A) by auto. reflexivity. }
  destruct (has_vals (vnvals u)) eqn:HU.
  2: { apply vgives_nil. intros. apply osum_none. intros k _.
       rewrite (has_vals_false_v u) by auto. destruct (mget A i k); reflexivity. }
  destruct Wu as [Wu _].
  destruct (getContents_ok u Wu) as (c & Ec & Wc & Gc). rewrite Ec. cbn [bind].
  rewrite (append_loop (fun i => dot_rev add mult (nth i (data A) []) c)).
  - simpl. eexists. split; [reflexivity|]. split; [apply genrow_wf0|].
    intros i Hi. rewrite genrow_get. ltb.
    rewrite (dot_rev_spec add mult _ _ (ncols A)); [|apply wfm_row; auto|rewrite <- E; auto].
    unfold smulv. f_equal. apply map_ext. intro k. rewrite Gc. reflexivity.
  - intros i t Hi. rewrite getrow_ok by (rewrite (wfm_len A WA); auto). cbn [bind].
    destruct (empty (nth i (data A) [])) eqn:Em.
    + apply empty_nil in Em. rewrite Em. destruct c as [|[? ?] ?]; simpl; rewrite app_nil_r; auto.
    + destruct (dot_rev add mult (nth i (data A) []) c); simpl; auto. rewrite app_nil_r; auto.
Qed.

Lemma vxm_AT_ok (mult : TU -> TA -> TT) (A : lil TA) (u : bvec TU) :
  wfm A -> wfvn u -> vsize u = ncols A ->
  vgives (nrows A) (svmul add mult (ncols A) (vget u) (stran (mget A))) (vxm_AT add mult (nrows A) u A).
Proof.
  intros WA Wu E. unfold vxm_AT.
  destruct (has_vals (nvals A)) eqn:HA; simpl.
  2: { apply vgives_nil. intros. apply osum_none. intros k _. unfold stran.
       rewrite (has_vals_false_m A) by auto. destruct (vget u k); reflexivity. }
  destruct (has_vals (vnvals u)) eqn:HU.
  2: { apply vgives_nil. intros. apply osum_none. intros k _.
       rewrite (has_vals_false_v u) by auto. reflexivity. }
  destruct Wu as [Wu _].
  destruct (getContents_ok u Wu) as (c & Ec & Wc & Gc). rewrite Ec. cbn [bind].
  rewrite (append_loop (fun i => dot add mult c (nth i (data A) []))).
  - simpl. eexists. split; [reflexivity|]. split; [apply genrow_wf0|].
    intros i Hi. rewrite genrow_get. ltb.
    rewrite (dot_spec add mult _ _ (ncols A)); [|rewrite <- E; auto|apply wfm_row; auto].
    unfold svmul. f_equal. apply map_ext. intro k. rewrite Gc. reflexivity.
  - intros i t Hi. rewrite getrow_ok by (rewrite (wfm_len A WA); auto). cbn [bind].
    destruct (empty (nth i (data A) [])) eqn:Em.
    + apply empty_nil in Em. rewrite Em. unfold dot. rewrite dot_loop_nil_r. simpl.
      rewrite app_nil_r; auto.
    + destruct (dot add mult c (nth i (data A) [])); simpl; auto. rewrite app_nil_r; auto.
Qed.
End V.

Theorem mxv_ok {TA TU TT TW TZ TM} (add : TT -> TT -> TT) (mult : TA -> TU -> TT)
    (multS : TU -> TA -> TT) (truthy : TM -> bool) (zc : TZ -> TW) (a : accum TW TT TZ)
    (m : mask (bvec TM)) outp (w : bvec TW) (A : mview TA) (u : bvec TU) :
  wfv0 w -> wfview A -> wfvn u -> wfvmask m -> vmask_fits m (vsize w) ->
  vsize w = vrows A -> vsize u = vcols A ->
  (match A with Trn _ => forall x y, multS y x = mult x y | _ => True end) ->
  vwritten truthy zc a m outp w (smulv add mult (vcols A) (sview A) (vget u))
    (mxv add mult multS truthy zc a m outp w A u).
Proof.
  intros Ww WA Wu Wm Fm R K HS. unfold mxv.
  rewrite (check_mask_size_ok m _ Fm). cbn [bind]. rewrite !check_eq_ok by auto. cbn [bind].
  assert (T : vgives (vsize w) (smulv add mult (vcols A) (sview A) (vget u))
    (mxv_T add mult multS (vsize w) A u)).
  { rewrite R. destruct A as [A|A]; simpl in *.
    - apply mxv_A_ok; auto.
    - destruct (axpy_rows_ok add multS A u WA Wu K) as (t & Et & Wt & Gt).
      exists t. split; auto. split; auto. intros i Hi. rewrite Gt by auto.
      unfold svmul, smulv. f_equal. apply map_ext. intro k. unfold stran.
      apply omap2_swap; auto. }
  destruct T as (t & Et & Wt & Gt). rewrite Et. cbn [bind]. apply accum_write_1D_ok; auto.
Qed.

Theorem vxm_ok {TA TU TT TW TZ TM} (add : TT -> TT -> TT) (mult : TU -> TA -> TT)
    (truthy : TM -> bool) (zc : TZ -> TW) (a : accum TW TT TZ)
    (m : mask (bvec TM)) outp (w : bvec TW) (u : bvec TU) (A : mview TA) :
  wfv0 w -> wfview A -> wfvn u -> wfvmask m -> vmask_fits m (vsize w) ->
  vsize w = vcols A -> vsize u = vrows A ->
  vwritten truthy zc a m outp w (svmul add mult (vrows A) (vget u) (sview A))
    (vxm add mult truthy zc a m outp w u A).
Proof.
  intros Ww WA Wu Wm Fm R K. unfold vxm.
  rewrite (check_mask_size_ok m _ Fm). cbn [bind]. rewrite !check_eq_ok by auto. cbn [bind].
  assert (T : vgives (vsize w) (svmul add mult (vrows A) (vget u) (sview A))
    (vxm_T add mult (vsize w) u A)).
  { rewrite R. destruct A as [A|A]; simpl in *.
    - apply axpy_rows_ok; auto.
    - apply vxm_AT_ok; auto. }
  destruct T as (t & Et & Wt & Gt). rewrite Et. cbn [bind]. apply accum_write_1D_ok; auto.
Qed.

(** ** Shapes *)
Theorem mxm_throws {TA TB TT TC TZ TM} (add : TT -> TT -> TT) (mult : TA -> TB -> TT)
    (multS : TB -> TA -> TT) (tc : TT -> TC) (ct : TC -> TT)
    (truthy : TM -> bool) (zc : TZ -> TC) (a : accum TC TT TZ) (m : mask (lil TM)) outp
    (C : lil TC) (A : mview TA) (B : mview TB) :
  ~ mxm_conforms m C A B ->
  mxm add mult multS tc ct truthy zc a m outp C A B = Throw DimensionException.
Proof.
  intro H. unfold mxm. apply check_mask_bind. intro. apply check_bind. intro.
  apply check_bind. intro. apply check_bind. intro. exfalso. apply H. unfold mxm_conforms. auto.
Qed.

Theorem mxv_throws {TA TU TT TW TZ TM} (add : TT -> TT -> TT) (mult : TA -> TU -> TT)
    (multS : TU -> TA -> TT) (truthy : TM -> bool) (zc : TZ -> TW) (a : accum TW TT TZ)
    (m : mask (bvec TM)) outp (w : bvec TW) (A : mview TA) (u : bvec TU) :
  ~ mxv_conforms m w A u -> mxv add mult multS truthy zc a m outp w A u = Throw DimensionException.
Proof.
  intro H. unfold mxv. apply check_vmask_bind. intro. apply check_bind. intro.
  apply check_bind. intro. exfalso. apply H. unfold mxv_conforms. auto.
Qed.

Theorem vxm_throws {TA TU TT TW TZ TM} (add : TT -> TT -> TT) (mult : TU -> TA -> TT)
    (truthy : TM -> bool) (zc : TZ -> TW) (a : accum TW TT TZ)
    (m : mask (bvec TM)) outp (w : bvec TW) (u : bvec TU) (A : mview TA) :
  ~ vxm_conforms m w u A -> vxm add mult truthy zc a m outp w u A = Throw DimensionException.
Proof.
  intro H. unfold vxm. apply check_vmask_bind. intro. apply check_bind. intro.
  apply check_bind. intro. exfalso. apply H. unfold vxm_conforms. auto.
Qed.

(** A transposed operand and its explicit transpose give the same outcome. *)
Lemma tran_dims {T} (A At : lil T) :
  nrows At = ncols A -> ncols At = nrows A -> vrows (Trn A) = vrows (Mat At) /\ vcols (Trn A) = vcols (Mat At).
Proof. simpl. auto. Qed.

Theorem mxm_view_tran {TA TB TT TC TZ TM} (add : TT -> TT -> TT) (mult : TA -> TB -> TT)
    (multS : TB -> TA -> TT) (tc : TT -> TC) (ct : TC -> TT)
    (truthy : TM -> bool) (zc : TZ -> TC) (a : accum TC TT TZ) (m : mask (lil TM)) outp
    (C : lil TC) (A1 A2 : mview TA) (B1 B2 : mview TB) :
  wfm C -> wfmask m -> wfview A1 -> wfview A2 -> wfview B1 -> wfview B2 ->
  vrows A1 = vrows A2 -> vcols A1 = vcols A2 -> vrows B1 = vrows B2 -> vcols B1 = vcols B2 ->
  (forall i j, sview A1 i j = sview A2 i j) -> (forall i j, sview B1 i j = sview B2 i j) ->
  (match A1, B1 with
   | Trn _, Trn _ => (forall x y, multS y x = mult x y) /\ (forall v, ct (tc v) = v)
   | _, _ => True
   end) ->
  (match A2, B2 with
   | Trn _, Trn _ => (forall x y, multS y x = mult x y) /\ (forall v, ct (tc v) = v)
   | _, _ => True
   end) ->
  mxm add mult multS tc ct truthy zc a m outp C A1 B1 =
  mxm add mult multS tc ct truthy zc a m outp C A2 B2.
Proof.
  intros WC Wm WA1 WA2 WB1 WB2 RA CA RB CB EA EB H1 H2.
  assert (D : mxm_conforms m C A1 B1 \/ ~ mxm_conforms m C A1 B1).
  { unfold mxm_conforms. destruct (mask_fits_dec m (nrows C) (ncols C)); [|tauto].
    destruct (Nat.eq_dec (nrows C) (vrows A1)), (Nat.eq_dec (ncols C) (vcols B1)),
      (Nat.eq_dec (vcols A1) (vrows B1)); tauto. }
  destruct D as [(F & R & K & I)|N].
  - eapply written_unique.
    + apply mxm_ok; auto.
    + apply mxm_ok; auto; congruence.
    + intros i j Hi Hj. simpl. unfold smul. rewrite CA. f_equal. apply map_ext. intro k.
      rewrite EA, EB. reflexivity.
  - rewrite !mxm_throws; auto. unfold mxm_conforms in *. rewrite <- RA, <- CA, <- RB, <- CB. auto.
Qed.
