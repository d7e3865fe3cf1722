(** Properties of masks, accumulation and the final write: C11, C31. *)
From Coq Require Import Lia.
From Verif Require Import Base ModelLil ModelVec ModelHelpers ModelViews Spec SpecOps
  ProofWrite ProofMask ProofViews.

Definition ex_C : lil Z := mkLil 2 3 3 [[(0, 1%Z); (2, 5%Z)]; [(1, 7%Z)]].
Definition ex_T : lil Z := mkLil 2 3 3 [[(0, 10%Z); (1, 20%Z)]; [(2, 30%Z)]].
Definition ex_M : lil Z := mkLil 2 3 4 [[(0, 1%Z); (1, 0%Z); (2, 3%Z)]; [(2, 1%Z)]].
Definition ex_truthy (z : Z) : bool := negb (Z.eqb z 0).

(** ** C11 (matrix operations): [accum_write] is the last phase of every operation. *)
Theorem C11_matrix_write_rule :
  forall (TC TT TZ TM : Type) (truthy : TM -> bool) (zc : TZ -> TC) (a : accum TC TT TZ)
    (m : mask (lil TM)) (outp : outmode) (C : lil TC) (T : lil TT),
    wfm C -> wfrows (nrows C) (ncols C) (data T) ->
    wfmask m -> mask_fits m (nrows C) (ncols C) ->
    exists C', accum_write truthy zc a m outp C T = Ok C' /\ wfm C' /\
      nrows C' = nrows C /\ ncols C' = ncols C /\
      forall i j, i < nrows C -> j < ncols C ->
        mget C' i j =
          if mask_allows truthy m i j then
            match a with
            | NoAcc tz => match mget T i j with Some t => Some (zc (tz t)) | None => None end
            | Acc f cz tz =>
                match mget C i j, mget T i j with
                | Some c, Some t => Some (zc (f c t))
                | Some c, None => Some (zc (cz c))
                | None, Some t => Some (zc (tz t))
                | None, None => None
                end
            end
          else match outp with MERGE => mget C i j | REPLACE => None end.
Proof. exact (fun TC TT TZ TM => @accum_write_rule TC TT TZ TM). Qed.
Print Assumptions C11_matrix_write_rule.

Example C11_matrix_example :
  wfm ex_C /\ wfrows 2 3 (data ex_T) /\ wfmask (MComp ex_M) /\ mask_fits (MComp ex_M) 2 3 /\
  accum_write ex_truthy (fun z => z) (Acc Z.add (fun z => z) (fun z => z)) (MComp ex_M) REPLACE
    ex_C ex_T = Ok (mkLil 2 3 2 [[(1, 20%Z)]; [(1, 7%Z)]]).
Proof.
  split; [wf_mat|]. split; [apply (proj1 (A := wfrows 2 3 (data ex_T)) (B := nvals ex_T = 3%Z)); wf_mat|].
  split; [wf_mat|]. split; [split; reflexivity|reflexivity].
Qed.

(** ** C11 (vector operations) *)
Theorem C11_vector_write_rule :
  forall (TW TT TZ TM : Type) (truthy : TM -> bool) (zc : TZ -> TW) (a : accum TW TT TZ)
    (m : mask (bvec TM)) (outp : outmode) (w : bvec TW) (t : row TT),
    wfv0 w -> wfrow 0 (vsize w) t -> wfvmask m -> vmask_fits m (vsize w) ->
    exists w', accum_write_1D truthy zc a m outp w t = Ok w' /\ wfv w' /\ vsize w' = vsize w /\
      forall i, i < vsize w ->
        vget w' i =
          if vmask_allows truthy m i then
            match a with
            | NoAcc tz => match rget t i with Some x => Some (zc (tz x)) | None => None end
            | Acc f cz tz =>
                match vget w i, rget t i with
                | Some c, Some x => Some (zc (f c x))
                | Some c, None => Some (zc (cz c))
                | None, Some x => Some (zc (tz x))
                | None, None => None
                end
            end
          else match outp with MERGE => vget w i | REPLACE => None end.
Proof. exact (fun TW TT TZ TM => @accum_write_1D_rule TW TT TZ TM). Qed.
Print Assumptions C11_vector_write_rule.

Definition ex_w : bvec Z := mkVec 4 2 [1%Z; 9%Z; 3%Z; 9%Z] [true; false; true; false].
Definition ex_vm : bvec Z := mkVec 4 3 [0%Z; 1%Z; 9%Z; 4%Z] [true; true; false; true].

Example C11_vector_example :
  wfv0 ex_w /\ wfrow 0 4 [(0, 10%Z); (1, 11%Z)] /\ wfvmask (MVal ex_vm) /\
  vmask_fits (MVal ex_vm) 4 /\
  res_map getContents
    (accum_write_1D ex_truthy (fun z => z) (NoAcc (fun z => z)) (MVal ex_vm) MERGE ex_w
       [(0, 10%Z); (1, 11%Z)]) = Ok (Ok [(0, 1%Z); (1, 11%Z); (2, 3%Z)]).
Proof. repeat split; cbn; auto; lia. Qed.

(** ** C31: under [mask] and under its complement, complementary parts of the output are
    written; [allowed] says which part belongs to the mask.  (For each operation [T] is
    its computed result.) *)
Theorem C31_matrix_mask_views :
  forall (TC TT TZ TM : Type) (truthy : TM -> bool) (zc : TZ -> TC) (a : accum TC TT TZ)
    (C : lil TC) (T : lil TT) (M : lil TM) (structural : bool),
    wfm C -> wfrows (nrows C) (ncols C) (data T) ->
    wfm M -> nrows M = nrows C -> ncols M = ncols C ->
    let allowed i j := match mget M i j with
                       | Some v => if structural then true else truthy v
                       | None => false
                       end in
    exists Call Cm Cc,
      accum_write truthy zc a (@NoMask (lil TM)) MERGE C T = Ok Call /\
      accum_write truthy zc a (if structural then MStruct M else MVal M) MERGE C T = Ok Cm /\
      accum_write truthy zc a (if structural then MSComp M else MComp M) MERGE C T = Ok Cc /\
      forall i j, i < nrows C -> j < ncols C ->
        mget Cm i j = (if allowed i j then mget Call i j else mget C i j) /\
        mget Cc i j = (if allowed i j then mget C i j else mget Call i j).
Proof. exact (fun TC TT TZ TM => @mask_views_split TC TT TZ TM). Qed.
Print Assumptions C31_matrix_mask_views.

Example C31_matrix_example :
  wfm ex_M /\ nrows ex_M = nrows ex_C /\ ncols ex_M = ncols ex_C /\
  accum_write ex_truthy (fun z : Z => z) (NoAcc (fun z : Z => z)) (MVal ex_M) MERGE ex_C ex_T =
    Ok (mkLil 2 3 3 [[(0, 10%Z)]; [(1, 7%Z); (2, 30%Z)]]) /\
  accum_write ex_truthy (fun z : Z => z) (NoAcc (fun z : Z => z)) (MComp ex_M) MERGE ex_C ex_T =
    Ok (mkLil 2 3 3 [[(0, 1%Z); (1, 20%Z); (2, 5%Z)]; []]) /\
  accum_write ex_truthy (fun z : Z => z) (NoAcc (fun z : Z => z)) (MSComp ex_M) MERGE ex_C ex_T =
    Ok (mkLil 2 3 2 [[(0, 1%Z); (2, 5%Z)]; []]).
Proof. split; [wf_mat|]. repeat split; reflexivity. Qed.

Theorem C31_vector_mask_views :
  forall (TW TT TZ TM : Type) (truthy : TM -> bool) (zc : TZ -> TW) (a : accum TW TT TZ)
    (w : bvec TW) (t : row TT) (M : bvec TM) (structural : bool),
    wfv0 w -> wfrow 0 (vsize w) t -> wfv0 M -> vsize M = vsize w ->
    let allowed i := match vget M i with
                     | Some v => if structural then true else truthy v
                     | None => false
                     end in
    exists wall wm wc,
      accum_write_1D truthy zc a (@NoMask (bvec TM)) MERGE w t = Ok wall /\
      accum_write_1D truthy zc a (if structural then MStruct M else MVal M) MERGE w t = Ok wm /\
      accum_write_1D truthy zc a (if structural then MSComp M else MComp M) MERGE w t = Ok wc /\
      forall i, i < vsize w ->
        vget wm i = (if allowed i then vget wall i else vget w i) /\
        vget wc i = (if allowed i then vget w i else vget wall i).
Proof. exact (fun TW TT TZ TM => @vmask_views_split TW TT TZ TM). Qed.
Print Assumptions C31_vector_mask_views.

Example C31_vector_example :
  wfv0 ex_vm /\ vsize ex_vm = vsize ex_w /\
  res_map getContents
    (accum_write_1D ex_truthy (fun z : Z => z) (NoAcc (fun z : Z => z)) (MSComp ex_vm) MERGE ex_w
       [(0, 10%Z); (2, 11%Z)]) = Ok (Ok [(0, 1%Z); (2, 11%Z)]).
Proof. repeat split. Qed.
