(** Properties of transpose, eWiseAdd, eWiseMult, apply, reduce and kronecker:
    C18-C24, C30, C51, C56. *)
From Coq Require Import Lia.
From Verif Require Import Base ModelLil ModelVec ModelHelpers ModelViews ModelMul ModelElem Spec
  SpecOps ProofLil ProofVec ProofViews ProofElem ProofReduce ProofKron ProofAlgebra PropMul.

Definition ey_D : lil Z := mkLil 2 3 2 [[(0, 10%Z); (1, 20%Z)]; []].
Definition ey_C : lil Z := mkLil 2 3 1 [[(1, 100%Z)]; []].
Definition ey_w : bvec Z := mkVec 3 1 [0%Z; 7%Z; 0%Z] [false; true; false].
Definition nomaskm : mask (lil Z) := NoMask.
Definition nomaskv : mask (bvec Z) := NoMask.

(** ** C18: union *)
Theorem C18_eWiseAdd_vector :
  forall (TU TV TT TW TZ TM : Type) (op : TU -> TV -> TT) (c1 : TU -> TT) (c2 : TV -> TT)
    (truthy : TM -> bool) (zc : TZ -> TW) (a : accum TW TT TZ)
    (m : mask (bvec TM)) (outp : outmode) (w : bvec TW) (u : bvec TU) (v : bvec TV),
    wfv0 w -> wfvn u -> wfvn v -> wfvmask m -> vewise_conforms m w u v ->
    vwritten truthy zc a m outp w
      (fun i => match vget u i, vget v i with
                | Some x, Some y => Some (op x y)
                | Some x, None => Some (c1 x)
                | None, Some y => Some (c2 y)
                | None, None => None
                end)
      (eWiseAdd_v op c1 c2 truthy zc a m outp w u v).
Proof. exact @eWiseAdd_v_ok. Qed.
Print Assumptions C18_eWiseAdd_vector.

(** All four transpose combinations; for [A, transpose(B)] the values of [B] must survive
    the conversion [ba] to [A]'s scalar type (see C20). *)
Theorem C18_eWiseAdd_matrix :
  forall (TA TB TT TC TZ TM : Type) (op : TA -> TB -> TT) (c1 : TA -> TT) (c2 : TB -> TT)
    (opA : TA -> TA -> TT) (c2A : TA -> TT) (ba : TB -> TA)
    (truthy : TM -> bool) (zc : TZ -> TC) (a : accum TC TT TZ)
    (m : mask (lil TM)) (outp : outmode) (C : lil TC) (A : mview TA) (B : mview TB),
    match A, B with
    | Mat _, Trn _ => (forall x y, opA x (ba y) = op x y) /\ (forall y, c2A (ba y) = c2 y)
    | _, _ => True
    end ->
    wfm C -> wfview A -> wfview B -> wfmask m -> ewise_conforms m C A B ->
    written truthy zc a m outp C
      (fun i j => match sview A i j, sview B i j with
                  | Some x, Some y => Some (op x y)
                  | Some x, None => Some (c1 x)
                  | None, Some y => Some (c2 y)
                  | None, None => None
                  end)
      (eWiseAdd op c1 c2 opA c2A ba truthy zc a m outp C A B).
Proof. exact @eWiseAdd_coherent. Qed.
Print Assumptions C18_eWiseAdd_matrix.

Example C18_example :
  wfm ey_C /\ wfm ex_A /\ wfm ex_At /\ wfm ey_D /\
  ewise_conforms (MVal ey_D) ey_C (Mat ex_A) (Mat ey_D) /\
  eWiseAdd Z.sub idz idz Z.sub idz idz ex_t idz plus (MVal ey_D) REPLACE ey_C (Mat ex_A) (Mat ey_D) =
    Ok (mkLil 2 3 2 [[(0, (-9)%Z); (1, 120%Z)]; []]) /\
  ewise_conforms nomaskm ey_C (Mat ey_D) (Trn ex_At) /\
  eWiseAdd Z.sub idz idz Z.sub idz idz ex_t idz plus nomaskm MERGE ey_C (Mat ey_D) (Trn ex_At) =
    Ok (mkLil 2 3 5 [[(0, 9%Z); (1, 120%Z); (2, 2%Z)]; [(1, 3%Z); (2, 4%Z)]]) /\
  vewise_conforms nomaskv ey_w ex_u ey_w /\
  res_map getContents (eWiseAdd_v Z.sub idz idz ex_t idz (NoAcc idz) nomaskv MERGE ey_w ex_u ey_w) =
    Ok (Ok [(0, 10%Z); (1, 7%Z); (2, 20%Z)]).
Proof. split; [wf_mat|]. split; [wf_mat|]. split; [wf_mat|]. split; [wf_mat|]. repeat split. Qed.

(** ** C19: intersection *)
Theorem C19_eWiseMult_vector :
  forall (TU TV TT TW TZ TM : Type) (op : TU -> TV -> TT)
    (truthy : TM -> bool) (zc : TZ -> TW) (a : accum TW TT TZ)
    (m : mask (bvec TM)) (outp : outmode) (w : bvec TW) (u : bvec TU) (v : bvec TV),
    wfv0 w -> wfvn u -> wfvn v -> wfvmask m -> vewise_conforms m w u v ->
    vwritten truthy zc a m outp w
      (fun i => match vget u i, vget v i with
                | Some x, Some y => Some (op x y)
                | _, _ => None
                end)
      (eWiseMult_v op truthy zc a m outp w u v).
Proof. exact @eWiseMult_v_ok. Qed.
Print Assumptions C19_eWiseMult_vector.

Theorem C19_eWiseMult_matrix :
  forall (TA TB TT TC TZ TM : Type) (op : TA -> TB -> TT) (opA : TA -> TA -> TT) (ba : TB -> TA)
    (truthy : TM -> bool) (zc : TZ -> TC) (a : accum TC TT TZ)
    (m : mask (lil TM)) (outp : outmode) (C : lil TC) (A : mview TA) (B : mview TB),
    match A, B with
    | Mat _, Trn _ => forall x y, opA x (ba y) = op x y
    | _, _ => True
    end ->
    wfm C -> wfview A -> wfview B -> wfmask m -> ewise_conforms m C A B ->
    written truthy zc a m outp C
      (fun i j => match sview A i j, sview B i j with
                  | Some x, Some y => Some (op x y)
                  | _, _ => None
                  end)
      (eWiseMult op opA ba truthy zc a m outp C A B).
Proof. exact @eWiseMult_coherent. Qed.
Print Assumptions C19_eWiseMult_matrix.

Example C19_example :
  wfm ey_C /\ wfm ex_At /\ wfm ey_D /\
  ewise_conforms (MSComp ey_C) ey_C (Trn ex_At) (Mat ey_D) /\
  eWiseMult Z.sub Z.sub idz ex_t idz (NoAcc idz) (MSComp ey_C) MERGE ey_C (Trn ex_At) (Mat ey_D) =
    Ok (mkLil 2 3 2 [[(0, (-9)%Z); (1, 100%Z)]; []]) /\
  vewise_conforms nomaskv ey_w ex_u ex_u /\
  res_map getContents (eWiseMult_v Z.mul ex_t idz plus nomaskv MERGE ey_w ex_u ex_u) =
    Ok (Ok [(0, 100%Z); (1, 7%Z); (2, 400%Z)]).
Proof. split; [wf_mat|]. split; [wf_mat|]. split; [wf_mat|]. repeat split. Qed.

(** ** C20: what [A, transpose(B)] computes for any scalar types, and that it can differ
    from the values stored in [B]. *)
Theorem C20_eWise_second_transposed_partial :
  forall (TA TB TT TC TZ TM : Type) (op : TA -> TB -> TT) (c1 : TA -> TT) (c2 : TB -> TT)
    (opA : TA -> TA -> TT) (c2A : TA -> TT) (ba : TB -> TA)
    (truthy : TM -> bool) (zc : TZ -> TC) (a : accum TC TT TZ)
    (m : mask (lil TM)) (outp : outmode) (C : lil TC) (A : lil TA) (B : lil TB),
    wfm C -> wfm A -> wfm B -> wfmask m -> ewise_conforms m C (Mat A) (Trn B) ->
    written truthy zc a m outp C
      (fun i j => match mget A i j, option_map ba (mget B j i) with
                  | Some x, Some y => Some (opA x y)
                  | Some x, None => Some (c1 x)
                  | None, Some y => Some (c2A y)
                  | None, None => None
                  end)
      (eWiseAdd op c1 c2 opA c2A ba truthy zc a m outp C (Mat A) (Trn B)) /\
    written truthy zc a m outp C
      (fun i j => match mget A i j, option_map ba (mget B j i) with
                  | Some x, Some y => Some (opA x y)
                  | _, _ => None
                  end)
      (eWiseMult op opA ba truthy zc a m outp C (Mat A) (Trn B)).
Proof. exact @eWise_second_transposed. Qed.
Print Assumptions C20_eWise_second_transposed_partial.

(** [A] boolean, [B] integer, operator "second": the value 2 arrives as 1. *)
Theorem C20_eWise_second_transposed_refuted :
  exists (op : bool -> Z -> Z) (opA : bool -> bool -> Z) (ba : bool -> Z) (ab : Z -> bool)
    (A : lil bool) (B C C' : lil Z),
    wfm A /\ wfm B /\ wfm C /\ ewise_conforms nomaskm C (Mat A) (Trn B) /\
    (forall x y, op x y = y) /\ (forall x y, opA x y = ba y) /\
    (forall x, ba x = if x then 1%Z else 0%Z) /\ (forall z, ab z = negb (Z.eqb z 0)) /\
    eWiseMult op opA ab ex_t idz (NoAcc idz) nomaskm MERGE C (Mat A) (Trn B) = Ok C' /\
    mget A 0 0 = Some true /\ mget B 0 0 = Some 2%Z /\ mget C' 0 0 = Some 1%Z.
Proof.
  exists (fun _ y => y), (fun _ (y : bool) => if y then 1%Z else 0%Z),
    (fun y : bool => if y then 1%Z else 0%Z),
    (fun z => negb (Z.eqb z 0)), (mkLil 1 1 1 [[(0, true)]]), (mkLil 1 1 1 [[(0, 2%Z)]]),
    (mkLil 1 1 0 [[]]), (mkLil 1 1 1 [[(0, 1%Z)]]).
  split; [wf_mat|]. split; [wf_mat|]. split; [wf_mat|]. repeat split.
Qed.
Print Assumptions C20_eWise_second_transposed_refuted.

(** ** C21: apply *)
Theorem C21_apply_matrix :
  forall (TA TT TC TZ TM : Type) (f : TA -> TT) (truthy : TM -> bool) (zc : TZ -> TC)
    (a : accum TC TT TZ) (m : mask (lil TM)) (outp : outmode) (C : lil TC) (A : mview TA),
    wfm C -> wfview A -> wfmask m -> apply_conforms m C A ->
    written truthy zc a m outp C (fun i j => option_map f (sview A i j))
      (apply f truthy zc a m outp C A).
Proof. exact @apply_ok. Qed.
Print Assumptions C21_apply_matrix.

Theorem C21_apply_matrix_bound :
  forall (TV TA TT TC TZ TM : Type) (op1 : TV -> TA -> TT) (op2 : TA -> TV -> TT) (val : TV)
    (truthy : TM -> bool) (zc : TZ -> TC)
    (a : accum TC TT TZ) (m : mask (lil TM)) (outp : outmode) (C : lil TC) (A : mview TA),
    wfm C -> wfview A -> wfmask m -> apply_conforms m C A ->
    written truthy zc a m outp C (fun i j => option_map (fun x => op1 val x) (sview A i j))
      (apply_binop_1st op1 val truthy zc a m outp C A) /\
    written truthy zc a m outp C (fun i j => option_map (fun x => op2 x val) (sview A i j))
      (apply_binop_2nd op2 val truthy zc a m outp C A).
Proof. exact @apply_bound_ok. Qed.
Print Assumptions C21_apply_matrix_bound.

Theorem C21_apply_vector :
  forall (TU TT TW TZ TM : Type) (f : TU -> TT) (truthy : TM -> bool) (zc : TZ -> TW)
    (a : accum TW TT TZ) (m : mask (bvec TM)) (outp : outmode) (w : bvec TW) (u : bvec TU),
    wfv0 w -> wfvn u -> wfvmask m -> vapply_conforms m w u ->
    vwritten truthy zc a m outp w (fun i => option_map f (vget u i))
      (apply_v f truthy zc a m outp w u).
Proof. exact @apply_v_ok. Qed.
Print Assumptions C21_apply_vector.

Theorem C21_apply_vector_bound :
  forall (TV TU TT TW TZ TM : Type) (op1 : TV -> TU -> TT) (op2 : TU -> TV -> TT) (val : TV)
    (truthy : TM -> bool) (zc : TZ -> TW)
    (a : accum TW TT TZ) (m : mask (bvec TM)) (outp : outmode) (w : bvec TW) (u : bvec TU),
    wfv0 w -> wfvn u -> wfvmask m -> vapply_conforms m w u ->
    vwritten truthy zc a m outp w (fun i => option_map (fun x => op1 val x) (vget u i))
      (apply_binop_1st_v op1 val truthy zc a m outp w u) /\
    vwritten truthy zc a m outp w (fun i => option_map (fun x => op2 x val) (vget u i))
      (apply_binop_2nd_v op2 val truthy zc a m outp w u).
Proof. exact @apply_bound_v_ok. Qed.
Print Assumptions C21_apply_vector_bound.

Example C21_example :
  wfm ey_C /\ wfm ex_At /\ apply_conforms nomaskm ey_C (Trn ex_At) /\
  apply Z.opp ex_t idz plus nomaskm MERGE ey_C (Trn ex_At) =
    Ok (mkLil 2 3 5 [[(0, (-1)%Z); (1, 100%Z); (2, (-2)%Z)]; [(1, (-3)%Z); (2, (-4)%Z)]]) /\
  apply_binop_1st Z.sub 10%Z ex_t idz (NoAcc idz) nomaskm MERGE ey_C (Mat ex_A) =
    Ok (mkLil 2 3 4 [[(0, 9%Z); (2, 8%Z)]; [(1, 7%Z); (2, 6%Z)]]) /\
  vapply_conforms (MComp ey_w) ey_w ex_u /\
  res_map getContents (apply_binop_2nd_v Z.sub 1%Z ex_t idz plus (MComp ey_w) MERGE ey_w ex_u) =
    Ok (Ok [(0, 9%Z); (1, 7%Z); (2, 19%Z)]).
Proof. split; [wf_mat|]. split; [wf_mat|]. repeat split. Qed.

(** ** C22: [op01] is the operator on two input values, [op] on a running value and an input
    value, [c1] the conversion of an input value to the result type.  They are the same C++
    operator, which is what the hypothesis expresses; it holds trivially when input and
    result type agree. *)
Theorem C22_reduce_rows :
  forall (TA TT TW TZ TM : Type) (c1 : TA -> TT) (op01 : TA -> TA -> TT) (op : TT -> TA -> TT)
    (truthy : TM -> bool) (zc : TZ -> TW) (a : accum TW TT TZ)
    (m : mask (bvec TM)) (outp : outmode) (w : bvec TW) (A : mview TA),
    (forall x y, op01 x y = op (c1 x) y) ->
    wfv0 w -> wfview A -> wfvmask m -> reduce_conforms m w A ->
    vwritten truthy zc a m outp w
      (fun i => ofold c1 op (map (fun j => sview A i j) (seq 0 (vcols A))))
      (reduce c1 op01 op truthy zc a m outp w A).
Proof. exact @reduce_ok. Qed.
Print Assumptions C22_reduce_rows.

Example C22_example :
  wfm ex_A /\ reduce_conforms nomaskv ex_v (Mat ex_A) /\
  res_map getContents (reduce idz Z.sub Z.sub ex_t idz plus nomaskv MERGE ex_v (Mat ex_A)) =
    Ok (Ok [(0, (-1)%Z); (1, 9%Z)]) /\
  reduce_conforms nomaskv ex_u (Trn ex_A) /\
  res_map getContents (reduce idz Z.sub Z.sub ex_t idz (NoAcc idz) nomaskv MERGE ex_u (Trn ex_A)) =
    Ok (Ok [(0, 1%Z); (1, 3%Z); (2, (-2)%Z)]).
Proof. split; [wf_mat|]. repeat split. Qed.

(** ** C23 *)
Theorem C23_reduce_vector_scalar :
  forall (TU TT TV TZ : Type) (ident : TT) (c1 : TU -> TT) (op01 : TU -> TU -> TT)
    (op : TT -> TU -> TT) (zc : TZ -> TV) (a : accum TV TT TZ) (val : TV) (u : bvec TU),
    (forall x y, op01 x y = op (c1 x) y) -> wfvn u ->
    let s := match ofold c1 op (map (vget u) (seq 0 (vsize u))) with Some x => x | None => ident end in
    reduce_vs ident c1 op01 op zc a val u =
    Ok (zc (match a with NoAcc tz => tz s | Acc f _ _ => f val s end)).
Proof. exact @reduce_vs_ok. Qed.
Print Assumptions C23_reduce_vector_scalar.

(** No law assumed: the rows' folds are combined in ascending order, starting from the
    identity. *)
Theorem C23_reduce_matrix_scalar_rows :
  forall (TA TT TV TZ : Type) (ident : TT) (c1 : TA -> TT) (op01 : TA -> TA -> TT)
    (op : TT -> TA -> TT) (op2 : TT -> TT -> TT) (zc : TZ -> TV) (a : accum TV TT TZ)
    (val : TV) (A : lil TA),
    (forall x y, op01 x y = op (c1 x) y) -> wfm A ->
    let s := fold_left (fun t i => match ofold c1 op (map (mget A i) (seq 0 (ncols A))) with
                                   | Some x => op2 t x
                                   | None => t
                                   end) (seq 0 (nrows A)) ident in
    reduce_ms ident c1 op01 op op2 zc a val A =
    Ok (zc (match a with NoAcc tz => tz s | Acc f _ _ => f val s end)).
Proof. exact @reduce_ms_rows. Qed.
Print Assumptions C23_reduce_matrix_scalar_rows.

(** Associative monoid: the fold over all positions in row-major order. *)
Theorem C23_reduce_matrix_scalar :
  forall (TA TT TV TZ : Type) (ident : TT) (c1 : TA -> TT) (op01 : TA -> TA -> TT)
    (op : TT -> TA -> TT) (op2 : TT -> TT -> TT) (zc : TZ -> TV) (a : accum TV TT TZ)
    (val : TV) (A : lil TA),
    (forall x y, op01 x y = op2 (c1 x) (c1 y)) -> (forall t x, op t x = op2 t (c1 x)) ->
    (forall x y z, op2 (op2 x y) z = op2 x (op2 y z)) -> (forall x, op2 ident x = x) -> wfm A ->
    let s := match osum op2 (map (fun '(i, j) => option_map c1 (mget A i j))
                               (list_prod (seq 0 (nrows A)) (seq 0 (ncols A)))) with
             | Some s => s
             | None => ident
             end in
    reduce_ms ident c1 op01 op op2 zc a val A =
    Ok (zc (match a with NoAcc tz => tz s | Acc f _ _ => f val s end)).
Proof. exact @reduce_ms_total. Qed.
Print Assumptions C23_reduce_matrix_scalar.

(** Commutative as well: a matrix and its transpose reduce to the same scalar. *)
Theorem C23_reduce_matrix_scalar_transpose :
  forall (TA TT TV TZ : Type) (ident : TT) (c1 : TA -> TT) (op01 : TA -> TA -> TT)
    (op : TT -> TA -> TT) (op2 : TT -> TT -> TT) (zc : TZ -> TV) (a : accum TV TT TZ)
    (val : TV) (A At : lil TA),
    (forall x y, op01 x y = op2 (c1 x) (c1 y)) -> (forall t x, op t x = op2 t (c1 x)) ->
    (forall x y z, op2 (op2 x y) z = op2 x (op2 y z)) -> (forall x, op2 ident x = x) ->
    (forall x y, op2 x y = op2 y x) -> wfm A -> wfm At ->
    nrows At = ncols A -> ncols At = nrows A -> (forall i j, mget At j i = mget A i j) ->
    reduce_ms ident c1 op01 op op2 zc a val At = reduce_ms ident c1 op01 op op2 zc a val A.
Proof. exact @reduce_ms_tran. Qed.
Print Assumptions C23_reduce_matrix_scalar_transpose.

Example C23_example :
  wfm ex_A /\ wfv ex_u /\
  reduce_vs 0%Z idz Z.sub Z.sub idz plus 1000%Z ex_u = Ok 990%Z /\
  reduce_ms 0%Z idz Z.add Z.add Z.add idz plus 1000%Z ex_A = Ok 1010%Z /\
  reduce_ms 0%Z idz Z.add Z.add Z.add idz plus 1000%Z ex_At = Ok 1010%Z /\
  reduce_ms 0%Z idz Z.add Z.add Z.add idz (NoAcc idz) 1000%Z (mkLil 2 2 0 [[]; []]) = Ok 0%Z.
Proof. split; [wf_mat|]. split; [wf_vec|]. repeat split. Qed.

(** ** C24 *)
Theorem C24_transpose :
  forall (TA TC TZ TM : Type) (truthy : TM -> bool) (zc : TZ -> TC)
    (a : accum TC TA TZ) (m : mask (lil TM)) (outp : outmode) (C : lil TC) (A : mview TA),
    wfm C -> wfview A -> wfmask m -> transpose_conforms m C A ->
    written truthy zc a m outp C (fun i j => sview A j i) (transpose truthy zc a m outp C A).
Proof. exact @transpose_ok. Qed.
Print Assumptions C24_transpose.

(** Transposing into any containers [C1], [C2] of the right shapes and back gives [A]
    itself; so does transposing a transposed view. *)
Theorem C24_transpose_involutive :
  forall (T TM1 TM2 : Type) (t1 : TM1 -> bool) (t2 : TM2 -> bool) (o1 o2 : outmode)
    (A C1 C2 : lil T),
    wfm A -> wfm C1 -> wfm C2 ->
    nrows C1 = ncols A -> ncols C1 = nrows A -> nrows C2 = nrows A -> ncols C2 = ncols A ->
    (C' <- transpose t1 (fun x => x) (NoAcc (fun x => x)) (@NoMask (lil TM1)) o1 C1 (Mat A) ;;
     transpose t2 (fun x => x) (NoAcc (fun x => x)) (@NoMask (lil TM2)) o2 C2 (Mat C')) = Ok A /\
    transpose t2 (fun x => x) (NoAcc (fun x => x)) (@NoMask (lil TM2)) o2 C2 (Trn A) = Ok A.
Proof. exact @transpose_involutive. Qed.
Print Assumptions C24_transpose_involutive.

Example C24_example :
  wfm ex_A /\ wfm ex_B /\ transpose_conforms (MVal ex_B) ex_B (Mat ex_A) /\
  transpose ex_t idz plus (MVal ex_B) MERGE ex_B (Mat ex_A) =
    Ok (mkLil 3 2 3 [[(0, 6%Z)]; []; [(0, 8%Z); (1, 11%Z)]]) /\
  transpose ex_t idz (NoAcc idz) nomaskm MERGE ex_B (Mat ex_A) = Ok ex_At /\
  transpose ex_t idz (NoAcc idz) nomaskm MERGE ey_C (Mat ex_At) = Ok ex_A.
Proof. split; [wf_mat|]. split; [wf_mat|]. repeat split. Qed.

(** ** C30 *)
Theorem C30_kronecker :
  forall (TA TB TT TC TZ TM : Type) (op : TA -> TB -> TT) (truthy : TM -> bool)
    (zc : TZ -> TC) (a : accum TC TT TZ) (m : mask (lil TM)) (outp : outmode) (C : lil TC)
    (A : mview TA) (B : mview TB),
    wfm C -> wfview A -> wfview B -> wfmask m -> kron_conforms m C A B ->
    (Z.of_nat (nrows C) < 2 ^ 64)%Z -> (Z.of_nat (ncols C) < 2 ^ 64)%Z ->
    written truthy zc a m outp C
      (fun i j => match sview A (i / vrows B) (j / vcols B),
                        sview B (i mod vrows B) (j mod vcols B) with
                  | Some x, Some y => Some (op x y)
                  | _, _ => None
                  end)
      (kronecker op truthy zc a m outp C A B).
Proof. exact @kronecker_ok. Qed.
Print Assumptions C30_kronecker.

Definition ek_A : lil Z := mkLil 1 2 2 [[(0, 2%Z); (1, 3%Z)]].
Definition ek_B : lil Z := mkLil 2 2 3 [[(0, 10%Z); (1, 20%Z)]; [(1, 30%Z)]].
Definition ek_C : lil Z := mkLil 2 4 1 [[(3, 100%Z)]; []].
Example C30_example :
  wfm ek_A /\ wfm ek_B /\ wfm ek_C /\ kron_conforms nomaskm ek_C (Mat ek_A) (Mat ek_B) /\
  kronecker Z.sub ex_t idz plus nomaskm MERGE ek_C (Mat ek_A) (Mat ek_B) =
    Ok (mkLil 2 4 6 [[(0, (-8)%Z); (1, (-18)%Z); (2, (-7)%Z); (3, 83%Z)];
                     [(1, (-28)%Z); (3, (-27)%Z)]]) /\
  kron_conforms nomaskm ek_C (Mat ek_A) (Trn ek_B) /\
  kronecker Z.sub ex_t idz (NoAcc idz) nomaskm MERGE ek_C (Mat ek_A) (Trn ek_B) =
    Ok (mkLil 2 4 6 [[(0, (-8)%Z); (2, (-7)%Z)];
                     [(0, (-18)%Z); (1, (-28)%Z); (2, (-17)%Z); (3, (-27)%Z)]]).
Proof. split; [wf_mat|]. split; [wf_mat|]. split; [wf_mat|]. repeat split. Qed.

(** ** C51 *)
Theorem C51_kronecker_dimensions_partial :
  forall (TA TB TT TC TZ TM : Type) (op : TA -> TB -> TT) (truthy : TM -> bool)
    (zc : TZ -> TC) (a : accum TC TT TZ) (m : mask (lil TM)) (outp : outmode) (C : lil TC)
    (A : mview TA) (B : mview TB),
    ~ kron_conforms m C A B ->
    (Z.of_nat (vrows A) * Z.of_nat (vrows B) < 2 ^ 64)%Z ->
    (Z.of_nat (vcols A) * Z.of_nat (vcols B) < 2 ^ 64)%Z ->
    kronecker op truthy zc a m outp C A B = Throw DimensionException.
Proof. exact @kronecker_throws. Qed.
Print Assumptions C51_kronecker_dimensions_partial.

Example C51_example :
  ~ kron_conforms nomaskm ex_C (Mat ek_A) (Mat ek_B) /\
  kronecker Z.sub ex_t idz plus nomaskm MERGE ex_C (Mat ek_A) (Mat ek_B) = Throw DimensionException.
Proof. split; [intros (_ & _ & [=])|reflexivity]. Qed.

(** Wrong column count accepted, and the result stores a column outside its bounds. *)
Theorem C51_kronecker_dimensions_refuted :
  exists (A B C C' : lil Z),
    wfm A /\ wfm B /\ wfm C /\ ncols C <> ncols A * ncols B /\
    (Z.of_nat (ncols A) < 2 ^ 64)%Z /\ (Z.of_nat (ncols B) < 2 ^ 64)%Z /\
    (Z.of_nat (ncols C) < 2 ^ 64)%Z /\
    kronecker Z.mul ex_t idz (NoAcc idz) nomaskm MERGE C (Mat A) (Mat B) = Ok C' /\ ~ wfm C'.
Proof. exact kron_overflow. Qed.
Print Assumptions C51_kronecker_dimensions_refuted.

(** ** C56: a filled vector (every element stored) is taken for an empty one. *)
Theorem C56_filled_vector_refuted :
  exists u w w' : bvec Z,
    vec_fill 1 5%Z = u /\ vget u 0 = Some 5%Z /\ wfv w /\ vsize w = vsize u /\
    vget w' 0 = None /\
    apply_v idz ex_t idz (NoAcc idz) nomaskv MERGE w u = Ok w' /\
    eWiseMult_v Z.mul ex_t idz (NoAcc idz) nomaskv MERGE w u u = Ok w' /\
    eWiseAdd_v Z.add idz idz ex_t idz (NoAcc idz) nomaskv MERGE w u u = Ok w' /\
    vxm Z.add Z.mul ex_t idz (NoAcc idz) nomaskv MERGE w u (Mat (mkLil 1 1 1 [[(0, 1%Z)]])) = Ok w' /\
    mxv Z.add Z.mul Z.mul ex_t idz (NoAcc idz) nomaskv MERGE w (Mat (mkLil 1 1 1 [[(0, 1%Z)]])) u = Ok w' /\
    reduce_vs 0%Z idz Z.add Z.add idz (NoAcc idz) 9%Z u = Ok 0%Z.
Proof.
  exists (mkVec 1 0 [5%Z] [true]), (mkVec 1 0 [0%Z] [false]), (mkVec 1 0 [0%Z] [false]).
  split; [reflexivity|]. split; [reflexivity|]. split; [wf_vec|]. repeat split.
Qed.
Print Assumptions C56_filled_vector_refuted.
