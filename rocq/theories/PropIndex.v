(** Properties of extract and assign: C25-C29, C34, C50, C55. *)
From Coq Require Import Lia Permutation.
From Verif Require Import Base ModelLil ModelVec ModelHelpers ModelViews ModelIndex Spec SpecOps
  SpecIndex ProofLil ProofVec ProofViews ProofIndex ProofAssign ProofAssignRC ProofIndexMore
  PropMul PropElem.

Definition ei_w : bvec Z := mkVec 4 2 [1%Z; 0%Z; 3%Z; 0%Z] [true; false; true; false].
Definition ei_C : lil Z := mkLil 3 3 3 [[(0, 1%Z)]; [(1, 5%Z); (2, 6%Z)]; []].
Definition ei_D : lil Z := mkLil 2 2 0 [[]; []].

(** ** C25: extract *)
Theorem C25_extract_vector :
  forall (TU TW TZ TM : Type) (truthy : TM -> bool) (zc : TZ -> TW) (a : accum TW TU TZ)
    (m : mask (bvec TM)) (outp : outmode) (w : bvec TW) (u : bvec TU) (s : idxseq),
    wfv0 w -> wfv0 u -> wfvmask m -> vextract_conforms m w u s ->
    vwritten truthy zc a m outp w (fun k => obind (sel s k) (vget u))
      (extract_v truthy zc a m outp w u s).
Proof. intros. apply extract_v_ok; auto. Qed.
Print Assumptions C25_extract_vector.

Theorem C25_extract_matrix :
  forall (TA TC TZ TM : Type) (truthy : TM -> bool) (zc : TZ -> TC) (a : accum TC TA TZ)
    (m : mask (lil TM)) (outp : outmode) (C : lil TC) (A : mview TA) (rs cs : idxseq),
    wfm C -> wfview A -> wfmask m -> extract_conforms m C A rs cs ->
    written truthy zc a m outp C
      (fun i j => obind (sel rs i) (fun i' => obind (sel cs j) (fun j' => sview A i' j')))
      (extract_m truthy zc a m outp C A rs cs).
Proof. intros. apply extract_m_ok; auto. Qed.
Print Assumptions C25_extract_matrix.

Theorem C25_extract_column :
  forall (TA TW TZ TM : Type) (truthy : TM -> bool) (zc : TZ -> TW) (a : accum TW TA TZ)
    (m : mask (bvec TM)) (outp : outmode) (w : bvec TW) (A : mview TA) (rs : idxseq) (col : nat),
    wfv0 w -> wfview A -> wfvmask m -> cextract_conforms m w A rs col ->
    vwritten truthy zc a m outp w (fun k => obind (sel rs k) (fun i => sview A i col))
      (extract_col truthy zc a m outp w A rs col).
Proof. intros. apply extract_col_ok; auto. Qed.
Print Assumptions C25_extract_column.

(** Unordered and repeated indices. *)
Example C25_example :
  wfv0 ei_w /\ wfv0 ex_u /\ vextract_conforms nomaskv ei_w ex_u (IdxArr [2; 2; 0; 1]) /\
  res_map getContents (extract_v ex_t idz (NoAcc idz) nomaskv MERGE ei_w ex_u (IdxArr [2; 2; 0; 1])) =
    Ok (Ok [(0, 20%Z); (1, 20%Z); (2, 10%Z)]) /\
  wfm ex_A /\ wfm ei_C /\ extract_conforms nomaskm ei_C (Mat ex_A) (IdxArr [1; 0; 1]) AllIdx /\
  extract_m ex_t idz plus nomaskm MERGE ei_C (Mat ex_A) (IdxArr [1; 0; 1]) AllIdx =
    Ok (mkLil 3 3 8 [[(0, 1%Z); (1, 3%Z); (2, 4%Z)]; [(0, 1%Z); (1, 5%Z); (2, 8%Z)];
                     [(1, 3%Z); (2, 4%Z)]]) /\
  extract_m ex_t idz plus nomaskm MERGE ei_C (Trn ex_At) (IdxArr [1; 0; 1]) AllIdx =
    Ok (mkLil 3 3 8 [[(0, 1%Z); (1, 3%Z); (2, 4%Z)]; [(0, 1%Z); (1, 5%Z); (2, 8%Z)];
                     [(1, 3%Z); (2, 4%Z)]]) /\
  cextract_conforms nomaskv ei_w (Mat ex_A) (IdxArr [1; 1; 0; 1]) 2 /\
  res_map getContents
    (extract_col ex_t idz plus nomaskv MERGE ei_w (Mat ex_A) (IdxArr [1; 1; 0; 1]) 2) =
    Ok (Ok [(0, 5%Z); (1, 4%Z); (2, 5%Z); (3, 4%Z)]).
Proof.
  split; [split; reflexivity|]. split; [split; reflexivity|].
  split; [repeat split; repeat constructor|]. split; [reflexivity|].
  split; [wf_mat|]. split; [wf_mat|]. split; [repeat split; repeat constructor|].
  split; [reflexivity|]. split; [reflexivity|]. split; [|reflexivity].
  repeat split; repeat constructor.
Qed.

(** ** C26: assign.  Position [o] is assigned from source position [k] when [k] is where the
    index list holds [o]. *)
Theorem C26_assign_vector :
  forall (TU TW TZ TM : Type) (cz' : TW -> TZ) (truthy : TM -> bool) (zc : TZ -> TW)
    (a : accum TW TU TZ) (m : mask (bvec TM)) (outp : outmode) (w : bvec TW) (u : bvec TU)
    (s : idxseq),
    wfv0 w -> wfv0 u -> wfvmask m -> vassign_conforms m w u s ->
    idx_nodup s -> all_fits s (vsize u) (vsize w) ->
    vassigned cz' truthy zc a m outp w
      (fun o => is_some (pos s (vsize u) o))
      (fun o => obind (pos s (vsize u) o) (vget u))
      (assign_v cz' truthy zc a m outp w u s).
Proof. intros. apply assign_v_ok; auto. Qed.
Print Assumptions C26_assign_vector.

Theorem C26_assign_matrix :
  forall (TA TC TZ TM : Type) (cz' : TC -> TZ) (truthy : TM -> bool) (zc : TZ -> TC)
    (a : accum TC TA TZ) (m : mask (lil TM)) (outp : outmode) (C : lil TC) (A : mview TA)
    (rs cs : idxseq),
    wfm C -> wfview A -> wfmask m -> assign_conforms m C A rs cs ->
    idx_nodup rs -> idx_nodup cs ->
    all_fits rs (vrows A) (nrows C) -> all_fits cs (vcols A) (ncols C) ->
    assigned cz' truthy zc a m outp C
      (fun i j => is_some (pos rs (vrows A) i) && is_some (pos cs (vcols A) j))
      (fun i j => obind (pos rs (vrows A) i) (fun i' =>
                  obind (pos cs (vcols A) j) (fun j' => sview A i' j')))
      (assign_m cz' truthy zc a m outp C A rs cs).
Proof. intros. apply assign_m_ok; auto. Qed.
Print Assumptions C26_assign_matrix.

(** [pos] is the inverse of [sel] on duplicate-free sequences. *)
Theorem C26_position :
  forall s n o k, idx_size s n -> idx_nodup s ->
    (pos s n o = Some k <-> k < n /\ sel s k = Some o).
Proof.
  intros s n o k S N. split.
  - intro H. apply pos_sel in H. tauto.
  - intros [H1 H2]. apply sel_pos; auto.
Qed.
Print Assumptions C26_position.

Example C26_example :
  wfv0 ei_w /\ wfv0 ex_u /\ vassign_conforms nomaskv ei_w ex_u (IdxArr [3; 2; 0]) /\
  idx_nodup (IdxArr [3; 2; 0]) /\
  res_map getContents
    (assign_v idz ex_t idz (NoAcc idz) nomaskv MERGE ei_w ex_u (IdxArr [3; 2; 0])) =
    Ok (Ok [(0, 20%Z); (3, 10%Z)]) /\
  wfm ei_C /\ wfm ex_A /\ assign_conforms nomaskm ei_C (Mat ex_A) (IdxArr [1; 0]) (IdxArr [2; 1; 0]) /\
  assign_m idz ex_t idz (NoAcc idz) nomaskm MERGE ei_C (Mat ex_A) (IdxArr [1; 0]) (IdxArr [2; 1; 0]) =
    Ok (mkLil 3 3 4 [[(0, 4%Z); (1, 3%Z)]; [(0, 2%Z); (2, 1%Z)]; []]) /\
  assign_m idz ex_t idz (NoAcc idz) nomaskm MERGE ei_C (Trn ex_At) (IdxArr [1; 0]) (IdxArr [2; 1; 0]) =
    Ok (mkLil 3 3 4 [[(0, 4%Z); (1, 3%Z)]; [(0, 2%Z); (2, 1%Z)]; []]).
Proof.
  split; [split; reflexivity|]. split; [split; reflexivity|].
  split; [repeat split; repeat constructor|].
  split. { repeat (apply NoDup_cons; [simpl; lia|]). apply NoDup_nil. }
  split; [reflexivity|]. split; [wf_mat|]. split; [wf_mat|].
  split; [repeat split; repeat constructor|]. split; reflexivity.
Qed.

(** ** C27: assign to a column or a row *)
Theorem C27_assign_column :
  forall (TU TC TZ TM : Type) (truthy : TM -> bool) (dflt : TC) (cz' : TC -> TZ)
    (zc : TZ -> TC) (a : accum TC TU TZ) (m : mask (bvec TM)) (outp : outmode) (C : lil TC)
    (u : bvec TU) (rs : idxseq) (j : nat),
    wfm C -> wfv0 u -> wfvmask m -> cassign_conforms m C u rs j -> nrows C <> 0 ->
    idx_nodup rs -> all_fits rs (vsize u) (nrows C) ->
    exists C', assign_col dflt cz' truthy zc a m outp C u rs j = Ok C' /\ wfm C' /\
      nrows C' = nrows C /\ ncols C' = ncols C /\
      forall i k, i < nrows C -> k < ncols C ->
        mget C' i k =
          if k =? j then
            spec_write zc (vmask_allows truthy m i) outp (mget C i j)
              (spec_assign a cz' (is_some (pos rs (vsize u) i)) (mget C i j)
                 (obind (pos rs (vsize u) i) (vget u)))
          else mget C i k.
Proof. intros. apply assign_col_ok; auto. Qed.
Print Assumptions C27_assign_column.

Theorem C27_assign_row :
  forall (TU TC TZ TM : Type) (truthy : TM -> bool) (dflt : TC) (cz' : TC -> TZ)
    (zc : TZ -> TC) (a : accum TC TU TZ) (m : mask (bvec TM)) (outp : outmode) (C : lil TC)
    (u : bvec TU) (i : nat) (cs : idxseq),
    wfm C -> wfv0 u -> wfvmask m -> rassign_conforms m C u i cs -> ncols C <> 0 ->
    idx_nodup cs -> all_fits cs (vsize u) (ncols C) ->
    exists C', assign_row dflt cz' truthy zc a m outp C u i cs = Ok C' /\ wfm C' /\
      nrows C' = nrows C /\ ncols C' = ncols C /\
      forall k j, k < nrows C -> j < ncols C ->
        mget C' k j =
          if k =? i then
            spec_write zc (vmask_allows truthy m j) outp (mget C i j)
              (spec_assign a cz' (is_some (pos cs (vsize u) j)) (mget C i j)
                 (obind (pos cs (vsize u) j) (vget u)))
          else mget C k j.
Proof. intros. apply assign_row_ok; auto. Qed.
Print Assumptions C27_assign_row.

Example C27_example :
  wfm ei_C /\ wfv0 ex_u /\ cassign_conforms nomaskv ei_C ex_u (IdxArr [2; 1; 0]) 1 /\
  assign_col 0%Z idz ex_t idz (NoAcc idz) nomaskv MERGE ei_C ex_u (IdxArr [2; 1; 0]) 1 =
    Ok (mkLil 3 3 4 [[(0, 1%Z); (1, 20%Z)]; [(2, 6%Z)]; [(1, 10%Z)]]) /\
  rassign_conforms nomaskv ei_C ex_u 1 AllIdx /\
  assign_row 0%Z idz ex_t idz plus nomaskv MERGE ei_C ex_u 1 AllIdx =
    Ok (mkLil 3 3 4 [[(0, 1%Z)]; [(0, 10%Z); (1, 5%Z); (2, 26%Z)]; []]).
Proof.
  split; [wf_mat|]. split; [split; reflexivity|]. split; [repeat split; repeat constructor|].
  split; [reflexivity|]. split; [repeat split; repeat constructor|reflexivity].
Qed.

(** ** C28: assign of a constant, increasing indices *)
Theorem C28_assign_constant_vector :
  forall (TV TW TZ TM : Type) (truthy : TM -> bool) (cz' : TW -> TZ) (zc : TZ -> TW)
    (a : accum TW TV TZ) (m : mask (bvec TM)) (outp : outmode) (w : bvec TW) (val : TV)
    (s : idxseq),
    wfv0 w -> wfvmask m -> vcassign_conforms m w s -> idx_sorted s ->
    let reg i := is_some (pos s (idx_count s (vsize w)) i) in
    vassigned cz' truthy zc a m outp w reg (fun i => if reg i then Some val else None)
      (assign_const_v cz' truthy zc a m outp w val s).
Proof. intros. apply assign_const_v_ok; auto. Qed.
Print Assumptions C28_assign_constant_vector.

Theorem C28_assign_constant_matrix :
  forall (TV TC TZ TM : Type) (truthy : TM -> bool) (cz' : TC -> TZ) (zc : TZ -> TC)
    (a : accum TC TV TZ) (m : mask (lil TM)) (outp : outmode) (C : lil TC) (val : TV)
    (rs cs : idxseq),
    wfm C -> wfmask m -> mcassign_conforms m C rs cs -> idx_nodup rs -> idx_sorted cs ->
    let reg i j := is_some (pos rs (idx_count rs (nrows C)) i) &&
                   is_some (pos cs (idx_count cs (ncols C)) j) in
    assigned cz' truthy zc a m outp C reg (fun i j => if reg i j then Some val else None)
      (assign_const_m cz' truthy zc a m outp C val rs cs).
Proof. intros. apply assign_const_m_ok; auto. Qed.
Print Assumptions C28_assign_constant_matrix.

Example C28_example :
  wfv0 ei_w /\ vcassign_conforms nomaskv ei_w (IdxRange 1 3) /\ idx_sorted (IdxRange 1 3) /\
  res_map getContents (assign_const_v idz ex_t idz plus nomaskv MERGE ei_w 7%Z (IdxRange 1 3)) =
    Ok (Ok [(0, 1%Z); (1, 7%Z); (2, 10%Z)]) /\
  wfm ei_C /\ mcassign_conforms nomaskm ei_C (IdxArr [2; 1]) (IdxArr [0; 2]) /\
  idx_nodup (IdxArr [2; 1]) /\ idx_sorted (IdxArr [0; 2]) /\
  assign_const_m idz ex_t idz (NoAcc idz) nomaskm MERGE ei_C 7%Z (IdxArr [2; 1]) (IdxArr [0; 2]) =
    Ok (mkLil 3 3 6 [[(0, 1%Z)]; [(0, 7%Z); (1, 5%Z); (2, 7%Z)]; [(0, 7%Z); (2, 7%Z)]]).
Proof.
  split; [split; reflexivity|]. split; [repeat split; simpl; lia|]. split; [exact I|].
  split; [reflexivity|]. split; [wf_mat|].
  split; [repeat split; try (simpl; lia); repeat constructor|].
  split. { repeat (apply NoDup_cons; [simpl; lia|]). apply NoDup_nil. }
  split; [|reflexivity].
  intros a b i j Hab Ha Hb. destruct a as [|[|[|a]]], b as [|[|[|b]]]; try lia; simpl in *;
    try discriminate; try (inversion Ha; inversion Hb; lia).
Qed.

(** ** C29: the order of the index list matters, and a wrong order breaks the containers:
    the vector's count becomes 3 for 2 elements, the matrix' rows are no longer sorted. *)
Theorem C29_assign_constant_order_refuted :
  (exists (w w1 w2 : bvec Z) (l1 l2 : list nat),
     wfv w /\ Permutation l1 l2 /\ vcassign_conforms nomaskv w (IdxArr l1) /\
     assign_const_v idz ex_t idz plus nomaskv MERGE w 7%Z (IdxArr l1) = Ok w1 /\
     assign_const_v idz ex_t idz plus nomaskv MERGE w 7%Z (IdxArr l2) = Ok w2 /\
     vget w1 0 <> vget w2 0 /\ ~ wfv w2) /\
  (exists (C C1 C2 : lil Z) (l1 l2 : list nat),
     wfm C /\ Permutation l1 l2 /\ mcassign_conforms nomaskm C AllIdx (IdxArr l1) /\
     assign_const_m idz ex_t idz (NoAcc idz) nomaskm MERGE C 7%Z AllIdx (IdxArr l1) = Ok C1 /\
     assign_const_m idz ex_t idz (NoAcc idz) nomaskm MERGE C 7%Z AllIdx (IdxArr l2) = Ok C2 /\
     lil_eqb Z.eqb C1 C2 = false /\ ~ wfm C2).
Proof.
  split.
  - exists (mkVec 2 1 [1%Z; 0%Z] [true; false]), (mkVec 2 2 [8%Z; 7%Z] [true; true]),
      (mkVec 2 3 [7%Z; 7%Z] [true; true]), [0; 1], [1; 0].
    split; [wf_vec|]. split; [constructor|]. split; [repeat split; repeat constructor|].
    split; [reflexivity|]. split; [reflexivity|]. split; [discriminate|]. intros [_ H]. discriminate H.
  - exists (mkLil 1 2 0 [[]]), (mkLil 1 2 2 [[(0, 7%Z); (1, 7%Z)]]),
      (mkLil 1 2 2 [[(1, 7%Z); (0, 7%Z)]]), [0; 1], [1; 0].
    split; [wf_mat|]. split; [constructor|]. split; [repeat split; repeat constructor|].
    split; [reflexivity|]. split; [reflexivity|]. split; [reflexivity|].
    intros [[_ W] _]. simpl in W. inversion W as [|? ? X]; subst. simpl in X. lia.
Qed.
Print Assumptions C29_assign_constant_order_refuted.

(** ** C34: AllIndices does not check the size of the source.  A longer source always writes
    out of range (no mask); a shorter one is accepted. *)
Theorem C34_assign_all_longer_source :
  forall (TU TW TZ TM : Type) (truthy : TM -> bool) (cz' : TW -> TZ) (zc : TZ -> TW)
    (a : accum TW TU TZ) (outp : outmode) (w : bvec TW) (u : bvec TU) (i : nat),
    wfv0 w -> wfv0 u -> vsize w <= i -> vget u i <> None ->
    assign_v cz' truthy zc a (@NoMask (bvec TM)) outp w u AllIdx = UB.
Proof. intros TU TW TZ TM truthy. apply assign_v_all_ub. Qed.
Print Assumptions C34_assign_all_longer_source.

Theorem C34_assign_all_refuted :
  exists (w : bvec Z) (C A : lil Z) w',
    wfv w /\ wfv ex_u /\ vsize ex_u <> vsize w /\
    assign_v idz ex_t idz (NoAcc idz) nomaskv MERGE w ex_u AllIdx = UB /\
    vsize ex_u <> vsize ei_w /\
    assign_v idz ex_t idz (NoAcc idz) nomaskv MERGE ei_w ex_u AllIdx = Ok w' /\
    wfm C /\ wfm A /\ nrows A <> nrows C /\
    assign_m idz ex_t idz (NoAcc idz) nomaskm MERGE C (Mat A) AllIdx AllIdx = UB.
Proof.
  exists (mkVec 2 0 [0%Z; 0%Z] [false; false]), (mkLil 1 1 0 [[]]), (mkLil 2 1 1 [[]; [(0, 1%Z)]]).
  eexists. split; [wf_vec|]. split; [wf_vec|]. split; [discriminate|]. split; [reflexivity|].
  split; [discriminate|]. split; [reflexivity|]. split; [wf_mat|]. split; [wf_mat|].
  split; [discriminate|reflexivity].
Qed.
Print Assumptions C34_assign_all_refuted.

(** ** C50: extract and assign are inverses *)
Theorem C50_extract_assign_matrix :
  forall (TM T : Type) (truthy : TM -> bool) (outp outp' : outmode) (C A D C' : lil T)
    (rs cs : idxseq),
    let id := fun x : T => x in
    wfm C -> wfm A -> wfm D -> nrows D = nrows A -> ncols D = ncols A ->
    assign_conforms (@NoMask (lil TM)) C (Mat A) rs cs -> idx_nodup rs -> idx_nodup cs ->
    all_fits rs (nrows A) (nrows C) -> all_fits cs (ncols A) (ncols C) ->
    assign_m id truthy id (NoAcc id) NoMask outp C (Mat A) rs cs = Ok C' ->
    extract_m truthy id (NoAcc id) (@NoMask (lil TM)) outp' D (Mat C') rs cs = Ok A.
Proof. intros TM T truthy. apply extract_assign_m. Qed.
Print Assumptions C50_extract_assign_matrix.

Theorem C50_assign_extract_matrix :
  forall (TM T : Type) (truthy : TM -> bool) (outp outp' : outmode) (C D D' : lil T)
    (rs cs : idxseq),
    let id := fun x : T => x in
    wfm C -> wfm D ->
    extract_conforms (@NoMask (lil TM)) D (Mat C) rs cs -> idx_nodup rs -> idx_nodup cs ->
    all_fits rs (nrows D) (nrows C) -> all_fits cs (ncols D) (ncols C) ->
    extract_m truthy id (NoAcc id) (@NoMask (lil TM)) outp D (Mat C) rs cs = Ok D' ->
    assign_m id truthy id (NoAcc id) (@NoMask (lil TM)) outp' C (Mat D') rs cs = Ok C.
Proof. intros TM T truthy. apply assign_extract_m. Qed.
Print Assumptions C50_assign_extract_matrix.

Theorem C50_extract_assign_vector :
  forall (TM T : Type) (truthy : TM -> bool) (outp outp' : outmode) (w u d w' : bvec T) (s : idxseq),
    let id := fun x : T => x in
    wfv0 w -> wfv0 u -> wfv0 d -> vsize d = vsize u ->
    vassign_conforms (@NoMask (bvec TM)) w u s -> idx_nodup s -> all_fits s (vsize u) (vsize w) ->
    assign_v id truthy id (NoAcc id) NoMask outp w u s = Ok w' ->
    exists d', extract_v truthy id (NoAcc id) (@NoMask (bvec TM)) outp' d w' s = Ok d' /\ same d' u.
Proof. intros TM T truthy. apply extract_assign_v. Qed.
Print Assumptions C50_extract_assign_vector.

Theorem C50_assign_extract_vector :
  forall (TM T : Type) (truthy : TM -> bool) (outp outp' : outmode) (w d d' : bvec T) (s : idxseq),
    let id := fun x : T => x in
    wfv0 w -> wfv0 d ->
    vextract_conforms (@NoMask (bvec TM)) d w s -> idx_nodup s -> all_fits s (vsize d) (vsize w) ->
    extract_v truthy id (NoAcc id) (@NoMask (bvec TM)) outp d w s = Ok d' ->
    exists w', assign_v id truthy id (NoAcc id) (@NoMask (bvec TM)) outp' w d' s = Ok w' /\ same w' w.
Proof. intros TM T truthy. apply assign_extract_v. Qed.
Print Assumptions C50_assign_extract_vector.

Example C50_example :
  wfm ei_C /\ wfm ex_C /\ wfm ei_D /\
  assign_conforms nomaskm ei_C (Mat ex_C) (IdxArr [2; 0]) (IdxRange 1 3) /\
  assign_m idz ex_t idz (NoAcc idz) nomaskm MERGE ei_C (Mat ex_C) (IdxArr [2; 0]) (IdxRange 1 3) =
    Ok (mkLil 3 3 4 [[(0, 1%Z)]; [(1, 5%Z); (2, 6%Z)]; [(2, 100%Z)]]) /\
  extract_m ex_t idz (NoAcc idz) nomaskm MERGE ei_D
    (Mat (mkLil 3 3 4 [[(0, 1%Z)]; [(1, 5%Z); (2, 6%Z)]; [(2, 100%Z)]])) (IdxArr [2; 0]) (IdxRange 1 3) =
    Ok ex_C.
Proof.
  split; [wf_mat|]. split; [wf_mat|]. split; [wf_mat|].
  split; [|split; reflexivity].
  split; [exact I|]. split; [reflexivity|]. split; [reflexivity|].
  split; [repeat constructor|simpl; lia].
Qed.

(** ** C55: ranges and AllIndices *)
Theorem C55_range :
  forall b e, b <= e ->
    length (idx_list (IdxRange b e)) = e - b /\
    forall k, k < e - b -> nth_error (idx_list (IdxRange b e)) k = Some (b + k).
Proof. exact range_list. Qed.
Print Assumptions C55_range.

Theorem C55_all_indices_extract :
  forall (TM TA TC TZ : Type) (truthy : TM -> bool) (zc : TZ -> TC) (a : accum TC TA TZ)
    (outp : outmode),
  (forall (m : mask (bvec TM)) (w : bvec TC) (u : bvec TA), vsize u = vsize w ->
     extract_v truthy zc a m outp w u AllIdx =
     extract_v truthy zc a m outp w u (IdxRange 0 (vsize w))) /\
  (forall (m : mask (lil TM)) (C : lil TC) (A : mview TA) cs, vrows A = nrows C ->
     extract_m truthy zc a m outp C A AllIdx cs =
     extract_m truthy zc a m outp C A (IdxRange 0 (nrows C)) cs) /\
  (forall (m : mask (lil TM)) (C : lil TC) (A : mview TA) rs, vcols A = ncols C ->
     extract_m truthy zc a m outp C A rs AllIdx =
     extract_m truthy zc a m outp C A rs (IdxRange 0 (ncols C))) /\
  (forall (m : mask (bvec TM)) (w : bvec TC) (A : mview TA) j, vrows A = vsize w ->
     extract_col truthy zc a m outp w A AllIdx j =
     extract_col truthy zc a m outp w A (IdxRange 0 (vsize w)) j).
Proof. intros. apply extract_all. Qed.
Print Assumptions C55_all_indices_extract.

Theorem C55_all_indices_assign :
  forall (TM TA TC TZ : Type) (truthy : TM -> bool) (dflt : TC) (cz' : TC -> TZ) (zc : TZ -> TC)
    (a : accum TC TA TZ) (outp : outmode),
  (forall (m : mask (bvec TM)) (w : bvec TC) (u : bvec TA), vsize u = vsize w ->
     assign_v cz' truthy zc a m outp w u AllIdx =
     assign_v cz' truthy zc a m outp w u (IdxRange 0 (vsize w))) /\
  (forall (m : mask (lil TM)) (C : lil TC) (A : mview TA) cs, vrows A = nrows C ->
     assign_m cz' truthy zc a m outp C A AllIdx cs =
     assign_m cz' truthy zc a m outp C A (IdxRange 0 (nrows C)) cs) /\
  (forall (m : mask (lil TM)) (C : lil TC) (A : mview TA) rs, vcols A = ncols C ->
     assign_m cz' truthy zc a m outp C A rs AllIdx =
     assign_m cz' truthy zc a m outp C A rs (IdxRange 0 (ncols C))) /\
  (forall (m : mask (bvec TM)) (C : lil TC) (u : bvec TA) j,
     wfm C -> nrows C <> 0 -> vsize u = nrows C ->
     assign_col dflt cz' truthy zc a m outp C u AllIdx j =
     assign_col dflt cz' truthy zc a m outp C u (IdxRange 0 (nrows C)) j) /\
  (forall (m : mask (bvec TM)) (C : lil TC) (u : bvec TA) i,
     wfm C -> ncols C <> 0 -> vsize u = ncols C ->
     assign_row dflt cz' truthy zc a m outp C u i AllIdx =
     assign_row dflt cz' truthy zc a m outp C u i (IdxRange 0 (ncols C))) /\
  (forall (m : mask (bvec TM)) (w : bvec TC) val,
     assign_const_v cz' truthy zc a m outp w val AllIdx =
     assign_const_v cz' truthy zc a m outp w val (IdxRange 0 (vsize w))) /\
  (forall (m : mask (lil TM)) (C : lil TC) val cs,
     assign_const_m cz' truthy zc a m outp C val AllIdx cs =
     assign_const_m cz' truthy zc a m outp C val (IdxRange 0 (nrows C)) cs) /\
  (forall (m : mask (lil TM)) (C : lil TC) val rs,
     assign_const_m cz' truthy zc a m outp C val rs AllIdx =
     assign_const_m cz' truthy zc a m outp C val rs (IdxRange 0 (ncols C))).
Proof. intros. apply assign_all. Qed.
Print Assumptions C55_all_indices_assign.

(** A range with [end < begin] wraps around 2^64 and is rejected by every operation whose
    containers have fewer than 2^64 elements per dimension. *)
Theorem C55_backward_range_extract :
  forall (TM TA TC TZ : Type) (truthy : TM -> bool) (zc : TZ -> TC) (a : accum TC TA TZ)
    (outp : outmode),
  (forall (m : mask (bvec TM)) (w : bvec TC) (u : bvec TA) s, backward s ->
     (Z.of_nat (vsize u) < 2 ^ 64)%Z -> fails (extract_v truthy zc a m outp w u s)) /\
  (forall (m : mask (lil TM)) (C : lil TC) (A : mview TA) rs cs, backward rs \/ backward cs ->
     (Z.of_nat (vrows A) < 2 ^ 64 /\ Z.of_nat (vcols A) < 2 ^ 64)%Z ->
     fails (extract_m truthy zc a m outp C A rs cs)) /\
  (forall (m : mask (bvec TM)) (w : bvec TC) (A : mview TA) rs j, backward rs ->
     (Z.of_nat (vrows A) < 2 ^ 64)%Z -> fails (extract_col truthy zc a m outp w A rs j)).
Proof. intros. apply extract_backward. Qed.
Print Assumptions C55_backward_range_extract.

Theorem C55_backward_range_assign :
  forall (TM TA TC TZ : Type) (truthy : TM -> bool) (dflt : TC) (cz' : TC -> TZ) (zc : TZ -> TC)
    (a : accum TC TA TZ) (outp : outmode),
  (forall (m : mask (bvec TM)) (w : bvec TC) (u : bvec TA) s, backward s ->
     (Z.of_nat (vsize w) < 2 ^ 64)%Z -> fails (assign_v cz' truthy zc a m outp w u s)) /\
  (forall (m : mask (lil TM)) (C : lil TC) (A : mview TA) rs cs, backward rs \/ backward cs ->
     (Z.of_nat (nrows C) < 2 ^ 64 /\ Z.of_nat (ncols C) < 2 ^ 64)%Z ->
     fails (assign_m cz' truthy zc a m outp C A rs cs)) /\
  (forall (m : mask (bvec TM)) (C : lil TC) (u : bvec TA) rs j, backward rs ->
     (Z.of_nat (nrows C) < 2 ^ 64)%Z -> fails (assign_col dflt cz' truthy zc a m outp C u rs j)) /\
  (forall (m : mask (bvec TM)) (C : lil TC) (u : bvec TA) i cs, backward cs ->
     (Z.of_nat (ncols C) < 2 ^ 64)%Z -> fails (assign_row dflt cz' truthy zc a m outp C u i cs)) /\
  (forall (m : mask (bvec TM)) (w : bvec TC) val s, backward s ->
     (Z.of_nat (vsize w) < 2 ^ 64)%Z -> fails (assign_const_v cz' truthy zc a m outp w val s)) /\
  (forall (m : mask (lil TM)) (C : lil TC) val rs cs, backward rs \/ backward cs ->
     (Z.of_nat (nrows C) < 2 ^ 64 /\ Z.of_nat (ncols C) < 2 ^ 64)%Z ->
     fails (assign_const_m cz' truthy zc a m outp C val rs cs)).
Proof. intros. apply assign_backward. Qed.
Print Assumptions C55_backward_range_assign.

Example C55_example : backward (IdxRange 3 1) /\ idx_list (IdxRange 1 4) = [1; 2; 3].
Proof. split; [simpl; lia|reflexivity]. Qed.
