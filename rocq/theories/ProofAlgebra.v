(** Consequences used by the property files. *)
From Coq Require Import Lia.
From Verif Require Import Base ModelLil ModelVec ModelHelpers ModelViews ModelMul ModelElem Spec SpecOps.
From Verif Require Import ProofBase ProofRow ProofLil ProofVec ProofCalls ProofWrite ProofViews ProofMul
  ProofElem ProofReduce ProofKron.

Lemma written_ext {TC TT TZ TM} (truthy : TM -> bool) (zc : TZ -> TC) (a : accum TC TT TZ) m outp C
    (f g : smat TT) r :
  (forall i j, i < nrows C -> j < ncols C -> f i j = g i j) ->
  written truthy zc a m outp C f r -> written truthy zc a m outp C g r.
Proof.
  intros E (C' & Hr & W & R & K & G). exists C'. split; [auto|]. split; [auto|]. split; [auto|].
  split; [auto|]. intros. rewrite <- E by auto. auto.
Qed.

Lemma vwritten_ext {TC TT TZ TM} (truthy : TM -> bool) (zc : TZ -> TC) (a : accum TC TT TZ) m outp w
    (f g : svec TT) r :
  (forall i, i < vsize w -> f i = g i) ->
  vwritten truthy zc a m outp w f r -> vwritten truthy zc a m outp w g r.
Proof.
  intros E (w' & Hr & W & R & G). exists w'. split; [auto|]. split; [auto|]. split; [auto|].
  intros. rewrite <- E by auto. auto.
Qed.

Theorem eWiseAdd_coherent {TA TB TT TC TZ TM} (op : TA -> TB -> TT) (c1 : TA -> TT) (c2 : TB -> TT)
    (opA : TA -> TA -> TT) (c2A : TA -> TT) (ba : TB -> TA)
    (truthy : TM -> bool) (zc : TZ -> TC) (a : accum TC TT TZ)
    (m : mask (lil TM)) (outp : outmode) (C : lil TC) (A : mview TA) (B : mview TB) :
  match A, B with
  | Mat _, Trn _ => (forall x y, opA x (ba y) = op x y) /\ (forall y, c2A (ba y) = c2 y)
  | _, _ => True
  end ->
  wfm C -> wfview A -> wfview B -> wfmask m -> ewise_conforms m C A B ->
  written truthy zc a m outp C
    (fun i j => ounion op c1 c2 (sview A i j) (sview B i j))
    (eWiseAdd op c1 c2 opA c2A ba truthy zc a m outp C A B).
Proof.
  intros H WC WA WB Wm F. eapply written_ext; [|apply eWiseAdd_ok; auto].
  intros i j _ _. destruct A as [A|A], B as [B|B]; auto.
  destruct H as [H1 H2]. destruct (sview (Mat A) i j), (sview (Trn B) i j); simpl; congruence.
Qed.

Theorem eWiseMult_coherent {TA TB TT TC TZ TM} (op : TA -> TB -> TT)
    (opA : TA -> TA -> TT) (ba : TB -> TA)
    (truthy : TM -> bool) (zc : TZ -> TC) (a : accum TC TT TZ)
    (m : mask (lil TM)) (outp : outmode) (C : lil TC) (A : mview TA) (B : mview TB) :
  match A, B with
  | Mat _, Trn _ => forall x y, opA x (ba y) = op x y
  | _, _ => True
  end ->
  wfm C -> wfview A -> wfview B -> wfmask m -> ewise_conforms m C A B ->
  written truthy zc a m outp C
    (fun i j => omap2 op (sview A i j) (sview B i j))
    (eWiseMult op opA ba truthy zc a m outp C A B).
Proof.
  intros H WC WA WB Wm F. eapply written_ext; [|apply eWiseMult_ok; auto].
  intros i j _ _. destruct A as [A|A], B as [B|B]; auto.
  destruct (sview (Mat A) i j), (sview (Trn B) i j); simpl; congruence.
Qed.

Theorem eWise_second_transposed {TA TB TT TC TZ TM} (op : TA -> TB -> TT) (c1 : TA -> TT)
    (c2 : TB -> TT) (opA : TA -> TA -> TT) (c2A : TA -> TT) (ba : TB -> TA)
    (truthy : TM -> bool) (zc : TZ -> TC) (a : accum TC TT TZ)
    (m : mask (lil TM)) (outp : outmode) (C : lil TC) (A : lil TA) (B : lil TB) :
  wfm C -> wfm A -> wfm B -> wfmask m -> ewise_conforms m C (Mat A) (Trn B) ->
  written truthy zc a m outp C
    (fun i j => ounion opA c1 c2A (mget A i j) (option_map ba (mget B j i)))
    (eWiseAdd op c1 c2 opA c2A ba truthy zc a m outp C (Mat A) (Trn B)) /\
  written truthy zc a m outp C
    (fun i j => omap2 opA (mget A i j) (option_map ba (mget B j i)))
    (eWiseMult op opA ba truthy zc a m outp C (Mat A) (Trn B)).
Proof.
  intros WC WA WB Wm F. split.
  - apply (eWiseAdd_ok op c1 c2 opA c2A ba truthy zc a m outp C (Mat A) (Trn B)); auto.
  - apply (eWiseMult_ok op opA ba truthy zc a m outp C (Mat A) (Trn B)); auto.
Qed.

Theorem apply_bound_ok {TV TA TT TC TZ TM} (op1 : TV -> TA -> TT) (op2 : TA -> TV -> TT) (val : TV)
    (truthy : TM -> bool) (zc : TZ -> TC)
    (a : accum TC TT TZ) (m : mask (lil TM)) (outp : outmode) (C : lil TC) (A : mview TA) :
  wfm C -> wfview A -> wfmask m -> apply_conforms m C A ->
  written truthy zc a m outp C (fun i j => option_map (fun x => op1 val x) (sview A i j))
    (apply_binop_1st op1 val truthy zc a m outp C A) /\
  written truthy zc a m outp C (fun i j => option_map (fun x => op2 x val) (sview A i j))
    (apply_binop_2nd op2 val truthy zc a m outp C A).
Proof. intros. split; apply apply_ok; auto. Qed.

Theorem apply_bound_v_ok {TV TU TT TW TZ TM} (op1 : TV -> TU -> TT) (op2 : TU -> TV -> TT) (val : TV)
    (truthy : TM -> bool) (zc : TZ -> TW)
    (a : accum TW TT TZ) (m : mask (bvec TM)) (outp : outmode) (w : bvec TW) (u : bvec TU) :
  wfv0 w -> wfvn u -> wfvmask m -> vapply_conforms m w u ->
  vwritten truthy zc a m outp w (fun i => option_map (fun x => op1 val x) (vget u i))
    (apply_binop_1st_v op1 val truthy zc a m outp w u) /\
  vwritten truthy zc a m outp w (fun i => option_map (fun x => op2 x val) (vget u i))
    (apply_binop_2nd_v op2 val truthy zc a m outp w u).
Proof. intros. split; apply apply_v_ok; auto. Qed.

Theorem reduce_ms_total {TA TT TV TZ} (ident : TT) (c1 : TA -> TT) (op01 : TA -> TA -> TT)
    (op : TT -> TA -> TT) (op2 : TT -> TT -> TT) (zc : TZ -> TV) (a : accum TV TT TZ)
    (val : TV) (A : lil TA) :
  (forall x y, op01 x y = op2 (c1 x) (c1 y)) -> (forall t x, op t x = op2 t (c1 x)) ->
  (forall x y z, op2 (op2 x y) z = op2 x (op2 y z)) -> (forall x, op2 ident x = x) -> wfm A ->
  let s := total ident c1 op2 (nrows A) (ncols A) (mget A) in
  reduce_ms ident c1 op01 op op2 zc a val A =
  Ok (zc (match a with NoAcc tz => tz s | Acc f _ _ => f val s end)).
Proof.
  intros H1 H2 assoc lid W s. rewrite reduce_ms_rows; auto.
  - rewrite rows_sum_total by auto. reflexivity.
  - intros. rewrite H1, H2; auto.
Qed.

Theorem reduce_ms_tran {TA TT TV TZ} (ident : TT) (c1 : TA -> TT) (op01 : TA -> TA -> TT)
    (op : TT -> TA -> TT) (op2 : TT -> TT -> TT) (zc : TZ -> TV) (a : accum TV TT TZ)
    (val : TV) (A At : lil TA) :
  (forall x y, op01 x y = op2 (c1 x) (c1 y)) -> (forall t x, op t x = op2 t (c1 x)) ->
  (forall x y z, op2 (op2 x y) z = op2 x (op2 y z)) -> (forall x, op2 ident x = x) ->
  (forall x y, op2 x y = op2 y x) -> wfm A -> wfm At ->
  nrows At = ncols A -> ncols At = nrows A -> (forall i j, mget At j i = mget A i j) ->
  reduce_ms ident c1 op01 op op2 zc a val At = reduce_ms ident c1 op01 op op2 zc a val A.
Proof.
  intros H1 H2 assoc lid comm W Wt R K E.
  rewrite !reduce_ms_total by auto. rewrite R, K.
  rewrite (total_tran ident c1 op2 (nrows A) (ncols A) (mget A)) by auto.
  replace (total ident c1 op2 (ncols A) (nrows A) (mget At))
    with (total ident c1 op2 (ncols A) (nrows A) (stran (mget A))); auto.
  unfold total. erewrite map_ext; [reflexivity|]. intros [i j]. unfold stran. rewrite E; auto.
Qed.

Theorem transpose_involutive {T TM1 TM2} (t1 : TM1 -> bool) (t2 : TM2 -> bool) (o1 o2 : outmode)
    (A C1 C2 : lil T) :
  wfm A -> wfm C1 -> wfm C2 ->
  nrows C1 = ncols A -> ncols C1 = nrows A -> nrows C2 = nrows A -> ncols C2 = ncols A ->
  (C' <- transpose t1 (fun x => x) (NoAcc (fun x => x)) (@NoMask (lil TM1)) o1 C1 (Mat A) ;;
   transpose t2 (fun x => x) (NoAcc (fun x => x)) (@NoMask (lil TM2)) o2 C2 (Mat C')) = Ok A /\
  transpose t2 (fun x => x) (NoAcc (fun x => x)) (@NoMask (lil TM2)) o2 C2 (Trn A) = Ok A.
Proof.
  intros WA W1 W2 R1 K1 R2 K2.
  assert (U : forall (X : mview T), wfview X -> vrows X = ncols A -> vcols X = nrows A ->
    (forall i j, i < nrows A -> j < ncols A -> sview X j i = mget A i j) ->
    transpose t2 (fun x => x) (NoAcc (fun x => x)) (@NoMask (lil TM2)) o2 C2 X = Ok A).
  { intros X WX RX KX GX.
    destruct (transpose_ok t2 (fun x : T => x) (NoAcc (fun x => x)) (@NoMask (lil TM2)) o2 C2 X)
      as (C' & E & W' & R' & K' & G'); auto.
    { exact I. }
    { split; [exact I|]. split; congruence. }
    rewrite E. f_equal. apply lil_ext; auto; try congruence.
    intros i j. destruct (Nat.lt_ge_cases i (nrows A)), (Nat.lt_ge_cases j (ncols A)).
    - rewrite G' by congruence. simpl. unfold stran. rewrite GX by auto.
      destruct (mget A i j); auto.
    - rewrite !mget_oob; auto; right; congruence.
    - rewrite !mget_oob; auto; left; congruence.
    - rewrite !mget_oob; auto; left; congruence. }
  split.
  - destruct (transpose_ok t1 (fun x : T => x) (NoAcc (fun x => x)) (@NoMask (lil TM1)) o1 C1 (Mat A))
      as (C' & E & W' & R' & K' & G'); auto.
    { exact I. }
    { split; [exact I|]. split; auto. }
    rewrite E. cbn [bind]. apply U; simpl; auto; try congruence.
    intros i j Hi Hj. rewrite G' by congruence. simpl. unfold stran.
    destruct (mget A i j); auto.
  - apply U; simpl; auto.
Qed.

(** The dimension check of kronecker modulo 2^64. *)
Theorem kron_overflow :
  exists (A B C C' : lil Z),
    wfm A /\ wfm B /\ wfm C /\ ncols C <> ncols A * ncols B /\
    (Z.of_nat (ncols A) < 2 ^ 64)%Z /\ (Z.of_nat (ncols B) < 2 ^ 64)%Z /\
    (Z.of_nat (ncols C) < 2 ^ 64)%Z /\
    kronecker Z.mul (fun z => negb (Z.eqb z 0)) (fun z => z) (NoAcc (fun z => z))
      (@NoMask (lil Z)) MERGE C (Mat A) (Mat B) = Ok C' /\ ~ wfm C'.
Proof.
  assert (Hn : exists n, Z.of_nat n = (2 ^ 32)%Z).
  { exists (Z.to_nat (2 ^ 32)). apply Z2Nat.id. apply Z.pow_nonneg. lia. }
  destruct Hn as [n Hn].
  assert (H64 : (2 ^ 64 = 2 ^ 32 * 2 ^ 32)%Z) by reflexivity.
  assert (H32 : (2 ^ 32 = 4294967296)%Z) by reflexivity.
  assert (Hlt : 2 < n) by lia.
  exists (mkLil 1 n 1 [[(1, 1%Z)]]), (mkLil 1 (n + 1) 1 [[(0, 1%Z)]]), (mkLil 1 n 0 [[]]),
    (mkLil 1 n 1 [[(1 * (n + 1) + 0, 1%Z)]]).
  assert (W : forall k j (v : Z), j < k -> wfm (mkLil 1 k 1 [[(j, v)]])).
  { intros k j v H. apply wfm_tot. split; [|reflexivity]. split; [reflexivity|].
    repeat constructor; simpl; lia. }
  split; [apply W; lia|]. split; [apply W; lia|].
  split. { apply wfm_tot. split; [|reflexivity]. split; [reflexivity|]. repeat constructor. }
  cbn [ncols nrows].
  split; [nia|]. split; [lia|]. split; [lia|]. split; [lia|]. split.
  - unfold kronecker. cbn [check_mask_rows check_mask_cols nrows ncols vrows vcols bind].
    assert (E : check_eq_prod n n (n + 1) = Ok tt).
    { unfold check_eq_prod. rewrite Nat2Z.inj_add, Hn.
      change (Z.of_nat 1) with 1%Z. replace (2 ^ 32 * (2 ^ 32 + 1))%Z with (2 ^ 32 + 1 * 2 ^ 64)%Z by lia.
      rewrite Z.mod_add by lia. rewrite Z.mod_small by lia. rewrite Z.eqb_refl. reflexivity. }
    rewrite E. cbn [bind].
    reflexivity.
  - intros W'. apply wfm_tot in W'. destruct W' as [[_ W'] _]. inversion W' as [|? ? H _]. subst.
    simpl in H. lia.
Qed.
