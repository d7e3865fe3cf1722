(** Properties of the products: C12-C17. *)
From Coq Require Import Lia.
From Verif Require Import Base ModelLil ModelVec ModelHelpers ModelViews ModelMul Spec SpecOps
  ProofViews ProofMul.

Definition ex_A : lil Z := mkLil 2 3 4 [[(0, 1%Z); (2, 2%Z)]; [(1, 3%Z); (2, 4%Z)]].
Definition ex_B : lil Z := mkLil 3 2 3 [[(0, 5%Z)]; []; [(0, 6%Z); (1, 7%Z)]].
Definition ex_At : lil Z := mkLil 3 2 4 [[(0, 1%Z)]; [(1, 3%Z)]; [(0, 2%Z); (1, 4%Z)]].
Definition ex_C : lil Z := mkLil 2 2 1 [[(1, 100%Z)]; []].
Definition ex_u : bvec Z := mkVec 3 2 [10%Z; 0%Z; 20%Z] [true; false; true].
Definition ex_v : bvec Z := mkVec 2 1 [0%Z; 10%Z] [false; true].
Definition ex_t (z : Z) : bool := negb (Z.eqb z 0).
Definition idz (z : Z) : Z := z.
Definition plus : accum Z Z Z := Acc Z.add idz idz.

(** ** C12 *)
Theorem C12_mxm_product :
  forall (TA TB TT TC TZ TM : Type) (add : TT -> TT -> TT) (mult : TA -> TB -> TT)
    (multS : TB -> TA -> TT) (tc : TT -> TC) (ct : TC -> TT)
    (truthy : TM -> bool) (zc : TZ -> TC) (a : accum TC TT TZ) (m : mask (lil TM))
    (outp : outmode) (C : lil TC) (A : lil TA) (B : lil TB),
    wfm C -> wfm A -> wfm B -> wfmask m -> mxm_conforms m C (Mat A) (Mat B) ->
    written truthy zc a m outp C
      (fun i j => osum add (map (fun k => omap2 mult (mget A i k) (mget B k j)) (seq 0 (ncols A))))
      (mxm add mult multS tc ct truthy zc a m outp C (Mat A) (Mat B)).
Proof.
  exact (fun TA TB TT TC TZ TM add mult multS tc ct truthy zc a m outp C A B WC WA WB Wm F =>
    mxm_ok add mult multS tc ct truthy zc a m outp C (Mat A) (Mat B) WC WA WB Wm
      (proj1 F) (proj1 (proj2 F)) (proj1 (proj2 (proj2 F))) (proj2 (proj2 (proj2 F))) I).
Qed.
Print Assumptions C12_mxm_product.

Example C12_example :
  wfm ex_C /\ wfm ex_A /\ wfm ex_B /\ mxm_conforms (MSComp ex_C) ex_C (Mat ex_A) (Mat ex_B) /\
  mxm Z.add Z.mul Z.mul idz idz ex_t idz plus (MSComp ex_C) MERGE ex_C (Mat ex_A) (Mat ex_B) =
    Ok (mkLil 2 2 4 [[(0, 17%Z); (1, 100%Z)]; [(0, 24%Z); (1, 28%Z)]]).
Proof. split; [wf_mat|]. split; [wf_mat|]. split; [wf_mat|]. repeat split. Qed.

(** ** C13: same outcome (also when the shapes do not conform) as with the explicit
    transpose [At] resp. [Bt]. *)
Theorem C13_mxm_transposed_left :
  forall (TA TB TT TC TZ TM : Type) (add : TT -> TT -> TT) (mult : TA -> TB -> TT)
    (multS : TB -> TA -> TT) (tc : TT -> TC) (ct : TC -> TT)
    (truthy : TM -> bool) (zc : TZ -> TC) (a : accum TC TT TZ) (m : mask (lil TM))
    (outp : outmode) (C : lil TC) (A At : lil TA) (B : lil TB),
    wfm C -> wfm A -> wfm At -> wfm B -> wfmask m ->
    nrows At = ncols A -> ncols At = nrows A -> (forall i j, mget At j i = mget A i j) ->
    mxm add mult multS tc ct truthy zc a m outp C (Trn A) (Mat B) =
    mxm add mult multS tc ct truthy zc a m outp C (Mat At) (Mat B).
Proof.
  exact (fun TA TB TT TC TZ TM add mult multS tc ct truthy zc a m outp C A At B WC WA WAt WB Wm R K E =>
    mxm_view_tran add mult multS tc ct truthy zc a m outp C (Trn A) (Mat At) (Mat B) (Mat B)
      WC Wm WA WAt WB WB (eq_sym R) (eq_sym K) eq_refl eq_refl
      (fun i j => eq_sym (E j i)) (fun i j => eq_refl) I I).
Qed.
Print Assumptions C13_mxm_transposed_left.

Theorem C13_mxm_transposed_right :
  forall (TA TB TT TC TZ TM : Type) (add : TT -> TT -> TT) (mult : TA -> TB -> TT)
    (multS : TB -> TA -> TT) (tc : TT -> TC) (ct : TC -> TT)
    (truthy : TM -> bool) (zc : TZ -> TC) (a : accum TC TT TZ) (m : mask (lil TM))
    (outp : outmode) (C : lil TC) (A : lil TA) (B Bt : lil TB),
    wfm C -> wfm A -> wfm B -> wfm Bt -> wfmask m ->
    nrows Bt = ncols B -> ncols Bt = nrows B -> (forall i j, mget Bt j i = mget B i j) ->
    mxm add mult multS tc ct truthy zc a m outp C (Mat A) (Trn B) =
    mxm add mult multS tc ct truthy zc a m outp C (Mat A) (Mat Bt).
Proof.
  exact (fun TA TB TT TC TZ TM add mult multS tc ct truthy zc a m outp C A B Bt WC WA WB WBt Wm R K E =>
    mxm_view_tran add mult multS tc ct truthy zc a m outp C (Mat A) (Mat A) (Trn B) (Mat Bt)
      WC Wm WA WA WB WBt eq_refl eq_refl (eq_sym R) (eq_sym K)
      (fun i j => eq_refl) (fun i j => eq_sym (E j i)) I I).
Qed.
Print Assumptions C13_mxm_transposed_right.

Example C13_example :
  wfm ex_A /\ wfm ex_At /\ nrows ex_A = ncols ex_At /\ ncols ex_A = nrows ex_At /\
  (forall i j, i < 3 -> j < 2 -> mget ex_A j i = mget ex_At i j) /\
  mxm Z.add Z.sub Z.sub idz idz ex_t idz plus (@NoMask (lil Z)) MERGE ex_C (Trn ex_At) (Mat ex_B) =
    Ok (mkLil 2 2 4 [[(0, (-8)%Z); (1, 95%Z)]; [(0, (-2)%Z); (1, (-3)%Z)]]) /\
  mxm Z.add Z.sub Z.sub idz idz ex_t idz plus (@NoMask (lil Z)) MERGE ex_C (Mat ex_A) (Trn ex_A) =
    Ok (mkLil 2 2 4 [[(0, 0%Z); (1, 98%Z)]; [(0, 2%Z); (1, 0%Z)]]).
Proof.
  split; [wf_mat|]. split; [wf_mat|]. split; [reflexivity|]. split; [reflexivity|]. split.
  - intros i j Hi Hj. destruct i as [|[|[|i]]]; [| | |lia]; destruct j as [|[|j]]; auto; lia.
  - split; reflexivity.
Qed.

(** ** C14: holds when the multiplication commutes and the result type survives a round
    trip through the output's scalar type; fails otherwise. *)
Theorem C14_mxm_both_transposed_partial :
  forall (TA TB TT TC TZ TM : Type) (add : TT -> TT -> TT) (mult : TA -> TB -> TT)
    (multS : TB -> TA -> TT) (tc : TT -> TC) (ct : TC -> TT)
    (truthy : TM -> bool) (zc : TZ -> TC) (a : accum TC TT TZ) (m : mask (lil TM))
    (outp : outmode) (C : lil TC) (A : lil TA) (B : lil TB),
    (forall x y, multS y x = mult x y) -> (forall v, ct (tc v) = v) ->
    wfm C -> wfm A -> wfm B -> wfmask m -> mxm_conforms m C (Trn A) (Trn B) ->
    written truthy zc a m outp C
      (fun i j => osum add (map (fun k => omap2 mult (mget A k i) (mget B j k)) (seq 0 (nrows A))))
      (mxm add mult multS tc ct truthy zc a m outp C (Trn A) (Trn B)).
Proof.
  exact (fun TA TB TT TC TZ TM add mult multS tc ct truthy zc a m outp C A B HS HC WC WA WB Wm F =>
    mxm_ok add mult multS tc ct truthy zc a m outp C (Trn A) (Trn B) WC WA WB Wm
      (proj1 F) (proj1 (proj2 F)) (proj1 (proj2 (proj2 F))) (proj2 (proj2 (proj2 F))) (conj HS HC)).
Qed.
Print Assumptions C14_mxm_both_transposed_partial.

Example C14_example :
  (forall x y, Z.mul y x = Z.mul x y) /\ (forall v, idz (idz v) = v) /\
  mxm_conforms (@NoMask (lil Z)) ex_C (Trn ex_At) (Trn ex_A) /\
  mxm Z.add Z.mul Z.mul idz idz ex_t idz plus (@NoMask (lil Z)) MERGE ex_C (Trn ex_At) (Trn ex_A) =
    Ok (mkLil 2 2 4 [[(0, 5%Z); (1, 108%Z)]; [(0, 8%Z); (1, 25%Z)]]).
Proof. split; [intros; apply Z.mul_comm|]. repeat split. Qed.

(** One product 3 - 5 is stored as 5 - 3. *)
Theorem C14_mxm_both_transposed_refuted :
  exists (mult : Z -> Z -> Z) (C A B C' : lil Z),
    wfm C /\ wfm A /\ wfm B /\ mxm_conforms (@NoMask (lil Z)) C (Trn A) (Trn B) /\
    mxm Z.add mult mult idz idz ex_t idz (NoAcc idz) NoMask MERGE C (Trn A) (Trn B) = Ok C' /\
    mget C' 0 0 = Some 2%Z /\
    osum Z.add (map (fun k => omap2 mult (mget A k 0) (mget B 0 k)) (seq 0 (nrows A))) = Some (-2)%Z.
Proof.
  exists Z.sub, (lil_new 1 1), (mkLil 1 1 1 [[(0, 3%Z)]]), (mkLil 1 1 1 [[(0, 5%Z)]]),
    (mkLil 1 1 1 [[(0, 2%Z)]]).
  split; [wf_mat|]. split; [wf_mat|]. split; [wf_mat|]. repeat split.
Qed.
Print Assumptions C14_mxm_both_transposed_refuted.

(** A product 15 reaches the accumulator as 1 because the output stores booleans. *)
Theorem C14_mxm_accum_type_refuted :
  exists (C C' : lil bool) (A B : lil Z) (f : bool -> Z -> bool),
    wfm C /\ wfm A /\ wfm B /\ mxm_conforms (@NoMask (lil Z)) C (Trn A) (Trn B) /\
    mxm Z.add Z.mul Z.mul ex_t Z.b2z ex_t (fun b : bool => b) (Acc f (fun b : bool => b) ex_t) NoMask MERGE C (Trn A) (Trn B)
      = Ok C' /\
    mget C' 0 0 = Some false /\
    osum Z.add (map (fun k => omap2 Z.mul (mget A k 0) (mget B 0 k)) (seq 0 (nrows A))) = Some 15%Z /\
    mget C 0 0 = Some false /\ f false 15%Z = true.
Proof.
  exists (mkLil 1 1 1 [[(0, false)]]), (mkLil 1 1 1 [[(0, false)]]), (mkLil 1 1 1 [[(0, 3%Z)]]),
    (mkLil 1 1 1 [[(0, 5%Z)]]), (fun _ t => Z.ltb 10 t).
  split; [wf_mat|]. split; [wf_mat|]. split; [wf_mat|]. repeat split.
Qed.
Print Assumptions C14_mxm_accum_type_refuted.

(** ** C15: for every vector whose count does not wrongly say "empty". *)
Theorem C15_mxv_product :
  forall (TA TU TT TW TZ TM : Type) (add : TT -> TT -> TT) (mult : TA -> TU -> TT)
    (multS : TU -> TA -> TT) (truthy : TM -> bool) (zc : TZ -> TW) (a : accum TW TT TZ)
    (m : mask (bvec TM)) (outp : outmode) (w : bvec TW) (A : lil TA) (u : bvec TU),
    wfv0 w -> wfm A -> wfvn u -> wfvmask m -> mxv_conforms m w (Mat A) u ->
    vwritten truthy zc a m outp w
      (fun i => osum add (map (fun j => omap2 mult (mget A i j) (vget u j)) (seq 0 (ncols A))))
      (mxv add mult multS truthy zc a m outp w (Mat A) u).
Proof.
  exact (fun TA TU TT TW TZ TM add mult multS truthy zc a m outp w A u Ww WA Wu Wm F =>
    mxv_ok add mult multS truthy zc a m outp w (Mat A) u Ww WA Wu Wm
      (proj1 F) (proj1 (proj2 F)) (proj2 (proj2 F)) I).
Qed.
Print Assumptions C15_mxv_product.

Example C15_example :
  wfv0 ex_v /\ wfm ex_A /\ wfvn ex_u /\ mxv_conforms (@NoMask (bvec Z)) ex_v (Mat ex_A) ex_u /\
  res_map getContents
    (mxv Z.add Z.sub Z.sub ex_t idz plus (@NoMask (bvec Z)) MERGE ex_v (Mat ex_A) ex_u) =
    Ok (Ok [(0, (-27)%Z); (1, (-6)%Z)]).
Proof.
  split; [split; reflexivity|]. split; [wf_mat|]. split; [apply wfv_wfvn; wf_vec|]. repeat split.
Qed.

(** A vector made by the fill constructor multiplies as if it were empty. *)
Theorem C15_mxv_filled_vector_refuted :
  exists (A : lil Z) (w' : bvec Z),
    let u := vec_fill 1 5%Z in
    wfm A /\ wfv0 u /\ mxv_conforms (@NoMask (bvec Z)) (mkVec 1 0 [0%Z] [false]) (Mat A) u /\
    mxv Z.add Z.mul Z.mul ex_t idz (NoAcc idz) (@NoMask (bvec Z)) MERGE (mkVec 1 0 [0%Z] [false]) (Mat A) u = Ok w' /\
    vget w' 0 = None /\
    osum Z.add (map (fun j => omap2 Z.mul (mget A 0 j) (vget u j)) (seq 0 (ncols A))) = Some 15%Z.
Proof.
  exists (mkLil 1 1 1 [[(0, 3%Z)]]), (mkVec 1 0 [0%Z] [false]).
  split; [wf_mat|]. repeat split.
Qed.
Print Assumptions C15_mxv_filled_vector_refuted.

(** ** C16: holds when the multiplication commutes; fails otherwise. *)
Theorem C16_mxv_transposed_partial :
  forall (TA TU TT TW TZ TM : Type) (add : TT -> TT -> TT) (mult : TA -> TU -> TT)
    (multS : TU -> TA -> TT) (truthy : TM -> bool) (zc : TZ -> TW) (a : accum TW TT TZ)
    (m : mask (bvec TM)) (outp : outmode) (w : bvec TW) (A : lil TA) (u : bvec TU),
    (forall x y, multS y x = mult x y) ->
    wfv0 w -> wfm A -> wfvn u -> wfvmask m -> mxv_conforms m w (Trn A) u ->
    vwritten truthy zc a m outp w
      (fun i => osum add (map (fun k => omap2 mult (mget A k i) (vget u k)) (seq 0 (nrows A))))
      (mxv add mult multS truthy zc a m outp w (Trn A) u).
Proof.
  exact (fun TA TU TT TW TZ TM add mult multS truthy zc a m outp w A u HS Ww WA Wu Wm F =>
    mxv_ok add mult multS truthy zc a m outp w (Trn A) u Ww WA Wu Wm
      (proj1 F) (proj1 (proj2 F)) (proj2 (proj2 F)) HS).
Qed.
Print Assumptions C16_mxv_transposed_partial.

Example C16_example :
  (forall x y, Z.mul y x = Z.mul x y) /\ wfm ex_B /\
  mxv_conforms (MComp ex_v) ex_v (Trn ex_B) ex_u /\
  res_map getContents
    (mxv Z.add Z.mul Z.mul ex_t idz plus (MComp ex_v) MERGE ex_v (Trn ex_B) ex_u) =
    Ok (Ok [(0, 170%Z); (1, 10%Z)]).
Proof. split; [intros; apply Z.mul_comm|]. split; [wf_mat|]. repeat split. Qed.

Theorem C16_mxv_transposed_refuted :
  exists (mult : Z -> Z -> Z) (A : lil Z) (u w' : bvec Z),
    wfm A /\ wfv u /\ mxv_conforms (@NoMask (bvec Z)) (mkVec 1 0 [0%Z] [false]) (Trn A) u /\
    mxv Z.add mult mult ex_t idz (NoAcc idz) (@NoMask (bvec Z)) MERGE (mkVec 1 0 [0%Z] [false]) (Trn A) u = Ok w' /\
    vget w' 0 = Some 2%Z /\
    osum Z.add (map (fun k => omap2 mult (mget A k 0) (vget u k)) (seq 0 (nrows A))) = Some (-2)%Z.
Proof.
  exists Z.sub, (mkLil 1 1 1 [[(0, 3%Z)]]), (mkVec 1 1 [5%Z] [true]), (mkVec 1 1 [2%Z] [true]).
  split; [wf_mat|]. split; [wf_vec|]. repeat split.
Qed.
Print Assumptions C16_mxv_transposed_refuted.

(** ** C17 *)
Theorem C17_vxm_product :
  forall (TA TU TT TW TZ TM : Type) (add : TT -> TT -> TT) (mult : TU -> TA -> TT)
    (truthy : TM -> bool) (zc : TZ -> TW) (a : accum TW TT TZ)
    (m : mask (bvec TM)) (outp : outmode) (w : bvec TW) (u : bvec TU) (A : lil TA),
    wfv0 w -> wfm A -> wfvn u -> wfvmask m -> vxm_conforms m w u (Mat A) ->
    vwritten truthy zc a m outp w
      (fun j => osum add (map (fun k => omap2 mult (vget u k) (mget A k j)) (seq 0 (nrows A))))
      (vxm add mult truthy zc a m outp w u (Mat A)).
Proof.
  exact (fun TA TU TT TW TZ TM add mult truthy zc a m outp w u A Ww WA Wu Wm F =>
    vxm_ok add mult truthy zc a m outp w u (Mat A) Ww WA Wu Wm
      (proj1 F) (proj1 (proj2 F)) (proj2 (proj2 F))).
Qed.
Print Assumptions C17_vxm_product.

Theorem C17_vxm_transposed :
  forall (TA TU TT TW TZ TM : Type) (add : TT -> TT -> TT) (mult : TU -> TA -> TT)
    (truthy : TM -> bool) (zc : TZ -> TW) (a : accum TW TT TZ)
    (m : mask (bvec TM)) (outp : outmode) (w : bvec TW) (u : bvec TU) (A : lil TA),
    wfv0 w -> wfm A -> wfvn u -> wfvmask m -> vxm_conforms m w u (Trn A) ->
    vwritten truthy zc a m outp w
      (fun j => osum add (map (fun k => omap2 mult (vget u k) (mget A j k)) (seq 0 (ncols A))))
      (vxm add mult truthy zc a m outp w u (Trn A)).
Proof.
  exact (fun TA TU TT TW TZ TM add mult truthy zc a m outp w u A Ww WA Wu Wm F =>
    vxm_ok add mult truthy zc a m outp w u (Trn A) Ww WA Wu Wm
      (proj1 F) (proj1 (proj2 F)) (proj2 (proj2 F))).
Qed.
Print Assumptions C17_vxm_transposed.

Example C17_example :
  vxm_conforms (@NoMask (bvec Z)) ex_v ex_u (Mat ex_B) /\
  res_map getContents
    (vxm Z.add Z.sub ex_t idz (NoAcc idz) (@NoMask (bvec Z)) MERGE ex_v ex_u (Mat ex_B)) =
    Ok (Ok [(0, 19%Z); (1, 13%Z)]) /\
  vxm_conforms (MVal ex_v) ex_v ex_u (Trn ex_A) /\
  res_map getContents
    (vxm Z.add Z.sub ex_t idz plus (MVal ex_v) MERGE ex_v ex_u (Trn ex_A)) =
    Ok (Ok [(1, 26%Z)]).
Proof. repeat split. Qed.
