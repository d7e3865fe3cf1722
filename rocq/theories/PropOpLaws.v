(** * C120, C121, C122, C123, C124: laws between calls of the operations *)
From Coq Require Import Lia.
From Verif Require Import Base ModelLil ModelVec ModelHelpers ModelViews ModelMul ModelElem ModelIndex ModelUtils ModelAlgoBase
  Spec SpecOps SpecIndex SpecOpLaws ProofBase ProofViews ProofMul ProofElem ProofReduce ProofIndex ProofAssign ProofAssignRC ProofKron ProofVis ProofOpLaws ProofSplit ProofGraph.

(** [shaped r k M]: a well-formed matrix of that shape, whatever it stores.  [X_call o .. C ..]: the operation called without mask and
    accumulator, with output [C].  [agree]: both sides return, with the same matrix; [vagree]: with vectors of the same contents. *)

(** ** C120: element-wise operations *)
Theorem C120_add_commutative :
  forall (T : Type) (o : outmode) (add : T -> T -> T) (R K : nat) (A B C D : lil T),
    (forall x y, add x y = add y x) ->
    shaped R K A -> shaped R K B -> shaped R K C -> shaped R K D -> agree (add_call o add C A B) (add_call o add D B A).
Proof. intros. eapply law_add_comm; eauto. Qed.
Print Assumptions C120_add_commutative.

Theorem C120_add_associative :
  forall (T : Type) (o : outmode) (add : T -> T -> T) (R K : nat) (A B D P Q X Y : lil T),
    (forall x y z, add (add x y) z = add x (add y z)) ->
    shaped R K A -> shaped R K B -> shaped R K D -> shaped R K P -> shaped R K Q -> shaped R K X -> shaped R K Y ->
    agree (AB <- add_call o add P A B ;; add_call o add X AB D) (BD <- add_call o add Q B D ;; add_call o add Y A BD).
Proof. intros. eapply law_add_assoc; eauto. Qed.
Print Assumptions C120_add_associative.

Theorem C120_mult_commutative :
  forall (T : Type) (o : outmode) (mult : T -> T -> T) (R K : nat) (A B C D : lil T),
    (forall x y, mult x y = mult y x) ->
    shaped R K A -> shaped R K B -> shaped R K C -> shaped R K D -> agree (mult_call o mult C A B) (mult_call o mult D B A).
Proof. intros. eapply law_mult_comm; eauto. Qed.
Print Assumptions C120_mult_commutative.

Theorem C120_mult_associative :
  forall (T : Type) (o : outmode) (mult : T -> T -> T) (R K : nat) (A B D P Q X Y : lil T),
    (forall x y z, mult (mult x y) z = mult x (mult y z)) ->
    shaped R K A -> shaped R K B -> shaped R K D -> shaped R K P -> shaped R K Q -> shaped R K X -> shaped R K Y ->
    agree (AB <- mult_call o mult P A B ;; mult_call o mult X AB D) (BD <- mult_call o mult Q B D ;; mult_call o mult Y A BD).
Proof. intros. eapply law_mult_assoc; eauto. Qed.
Print Assumptions C120_mult_associative.

Theorem C120_mult_distributes :
  forall (T : Type) (o : outmode) (add mult : T -> T -> T) (R K : nat) (A B D P Q S X Y : lil T),
    (forall x y z, mult x (add y z) = add (mult x y) (mult x z)) ->
    shaped R K A -> shaped R K B -> shaped R K D -> shaped R K P -> shaped R K Q -> shaped R K S -> shaped R K X -> shaped R K Y ->
    agree (BD <- add_call o add P B D ;; mult_call o mult X A BD)
          (AB <- mult_call o mult Q A B ;; AD <- mult_call o mult S A D ;; add_call o add Y AB AD).
Proof. intros. eapply law_mult_add; eauto. Qed.
Print Assumptions C120_mult_distributes.

Theorem C120_transpose_add :
  forall (T : Type) (o : outmode) (add : T -> T -> T) (R K : nat) (A B P Q S X Y : lil T),
    shaped R K A -> shaped R K B -> shaped R K P -> shaped K R Q -> shaped K R S -> shaped K R X -> shaped K R Y ->
    agree (AB <- add_call o add P A B ;; transpose_call o X AB)
          (At <- transpose_call o Q A ;; Bt <- transpose_call o S B ;; add_call o add Y At Bt).
Proof. intros. eapply law_transpose_add; eauto. Qed.
Print Assumptions C120_transpose_add.

Theorem C120_transpose_mult :
  forall (T : Type) (o : outmode) (mult : T -> T -> T) (R K : nat) (A B P Q S X Y : lil T),
    shaped R K A -> shaped R K B -> shaped R K P -> shaped K R Q -> shaped K R S -> shaped K R X -> shaped K R Y ->
    agree (AB <- mult_call o mult P A B ;; transpose_call o X AB)
          (At <- transpose_call o Q A ;; Bt <- transpose_call o S B ;; mult_call o mult Y At Bt).
Proof. intros. eapply law_transpose_mult; eauto. Qed.
Print Assumptions C120_transpose_mult.

Theorem C120_apply_apply :
  forall (T : Type) (o : outmode) (f g : T -> T) (R K : nat) (A P X Y : lil T),
    shaped R K A -> shaped R K P -> shaped R K X -> shaped R K Y ->
    agree (B <- apply_call o g P A ;; apply_call o f X B) (apply_call o (fun x => f (g x)) Y A).
Proof. intros. eapply law_apply_apply; eauto. Qed.
Print Assumptions C120_apply_apply.

Theorem C120_apply_transpose :
  forall (T : Type) (o : outmode) (f : T -> T) (R K : nat) (A P Q X Y : lil T),
    shaped R K A -> shaped R K P -> shaped K R Q -> shaped K R X -> shaped K R Y ->
    agree (B <- apply_call o f P A ;; transpose_call o X B) (B <- transpose_call o Q A ;; apply_call o f Y B).
Proof. intros. eapply law_apply_transpose; eauto. Qed.
Print Assumptions C120_apply_transpose.

Theorem C120_vector_add_commutative :
  forall (T : Type) (o : outmode) (add : T -> T -> T) (N : nat) (u v w x : bvec T),
    (forall a b, add a b = add b a) ->
    vshaped N u -> vshaped N v -> vshaped N w -> vshaped N x -> vagree (vadd_call o add w u v) (vadd_call o add x v u).
Proof. intros. eapply law_vadd_comm; eauto. Qed.
Print Assumptions C120_vector_add_commutative.

Theorem C120_vector_add_associative :
  forall (T : Type) (o : outmode) (add : T -> T -> T) (N : nat) (u v z p q w x : bvec T),
    (forall a b c, add (add a b) c = add a (add b c)) ->
    vshaped N u -> vshaped N v -> vshaped N z -> vshaped N p -> vshaped N q -> vshaped N w -> vshaped N x ->
    vagree (uv <- vadd_call o add p u v ;; vadd_call o add w uv z) (vz <- vadd_call o add q v z ;; vadd_call o add x u vz).
Proof. intros. eapply law_vadd_assoc; eauto. Qed.
Print Assumptions C120_vector_add_associative.

Theorem C120_vector_mult_commutative :
  forall (T : Type) (o : outmode) (mult : T -> T -> T) (N : nat) (u v w x : bvec T),
    (forall a b, mult a b = mult b a) ->
    vshaped N u -> vshaped N v -> vshaped N w -> vshaped N x -> vagree (vmult_call o mult w u v) (vmult_call o mult x v u).
Proof. intros. eapply law_vmult_comm; eauto. Qed.
Print Assumptions C120_vector_mult_commutative.

Theorem C120_vector_mult_associative :
  forall (T : Type) (o : outmode) (mult : T -> T -> T) (N : nat) (u v z p q w x : bvec T),
    (forall a b c, mult (mult a b) c = mult a (mult b c)) ->
    vshaped N u -> vshaped N v -> vshaped N z -> vshaped N p -> vshaped N q -> vshaped N w -> vshaped N x ->
    vagree (uv <- vmult_call o mult p u v ;; vmult_call o mult w uv z) (vz <- vmult_call o mult q v z ;; vmult_call o mult x u vz).
Proof. intros. eapply law_vmult_assoc; eauto. Qed.
Print Assumptions C120_vector_mult_associative.

Theorem C120_vector_mult_distributes :
  forall (T : Type) (o : outmode) (add mult : T -> T -> T) (N : nat) (u v z p q s w x : bvec T),
    (forall a b c, mult a (add b c) = add (mult a b) (mult a c)) ->
    vshaped N u -> vshaped N v -> vshaped N z -> vshaped N p -> vshaped N q -> vshaped N s -> vshaped N w -> vshaped N x ->
    vagree (vz <- vadd_call o add p v z ;; vmult_call o mult w u vz)
           (uv <- vmult_call o mult q u v ;; uz <- vmult_call o mult s u z ;; vadd_call o add x uv uz).
Proof. intros. eapply law_vmult_add; eauto. Qed.
Print Assumptions C120_vector_mult_distributes.

Theorem C120_vector_apply_apply :
  forall (T : Type) (o : outmode) (f g : T -> T) (N : nat) (u p w x : bvec T),
    vshaped N u -> vshaped N p -> vshaped N w -> vshaped N x ->
    vagree (v <- vapply_call o g p u ;; vapply_call o f w v) (vapply_call o (fun a => f (g a)) x u).
Proof. intros. eapply law_vapply_vapply; eauto. Qed.
Print Assumptions C120_vector_apply_apply.

Definition la : lil Z := mkLil 2 2 3 [[(0, 1%Z); (1, 2%Z)]; [(1, 3%Z)]].
Definition lb : lil Z := mkLil 2 2 2 [[(1, 5%Z)]; [(0, 7%Z)]].
Definition lc : lil Z := mkLil 2 2 1 [[]; [(1, 9%Z)]].
Definition lu : bvec Z := mkVec 2 2 [4%Z; 6%Z] [true; true].
Definition lv : bvec Z := mkVec 2 1 [0%Z; 8%Z] [false; true].
Example C120_example :
  shaped 2 2 la /\ shaped 2 2 lb /\ shaped 2 2 lc /\ vshaped 2 lu /\ vshaped 2 lv /\
  (AB <- add_call MERGE Z.add lc la lb ;; mult_call REPLACE Z.mul lb AB la) = Ok (mkLil 2 2 3 [[(0, 1%Z); (1, 14%Z)]; [(1, 9%Z)]]) /\
  (At <- transpose_call MERGE lc la ;; Bt <- transpose_call MERGE lc lb ;; add_call MERGE Z.add lc At Bt) =
    Ok (mkLil 2 2 4 [[(0, 1%Z); (1, 7%Z)]; [(0, 7%Z); (1, 3%Z)]]) /\
  res_map getContents (vadd_call MERGE Z.add lu lu lv) = Ok (Ok [(0, 4%Z); (1, 14%Z)]).
Proof.
  repeat match goal with |- _ /\ _ => split | |- shaped _ _ _ => split | |- wfm _ => wf_mat | |- vshaped _ _ => split | |- wfv _ => wf_vec end;
    repeat split; reflexivity.
Qed.

(** ** C121: products *)
Theorem C121_product_distributes_left :
  forall (T : Type) (o : outmode) (add mult : T -> T -> T) (R L K : nat) (A B D P Q S X Y : lil T),
    (forall x y z, add (add x y) z = add x (add y z)) -> (forall x y, add x y = add y x) ->
    (forall x y z, mult x (add y z) = add (mult x y) (mult x z)) ->
    shaped R L A -> shaped L K B -> shaped L K D -> shaped L K P -> shaped R K Q -> shaped R K S -> shaped R K X -> shaped R K Y ->
    agree (BD <- add_call o add P B D ;; mxm_call o add mult X A BD)
          (AB <- mxm_call o add mult Q A B ;; AD <- mxm_call o add mult S A D ;; add_call o add Y AB AD).
Proof. intros. eapply law_mxm_add_l; eauto. Qed.
Print Assumptions C121_product_distributes_left.

Theorem C121_product_distributes_right :
  forall (T : Type) (o : outmode) (add mult : T -> T -> T) (R L K : nat) (A B D P Q S X Y : lil T),
    (forall x y z, add (add x y) z = add x (add y z)) -> (forall x y, add x y = add y x) ->
    (forall x y z, mult (add x y) z = add (mult x z) (mult y z)) ->
    shaped R L A -> shaped R L B -> shaped L K D -> shaped R L P -> shaped R K Q -> shaped R K S -> shaped R K X -> shaped R K Y ->
    agree (AB <- add_call o add P A B ;; mxm_call o add mult X AB D)
          (AD <- mxm_call o add mult Q A D ;; BD <- mxm_call o add mult S B D ;; add_call o add Y AD BD).
Proof. intros. eapply law_mxm_add_r; eauto. Qed.
Print Assumptions C121_product_distributes_right.

Theorem C121_product_identity :
  forall (T : Type) (o : outmode) (add mult : T -> T -> T) (one : T) (R K : nat) (A C D : lil T),
    (forall x, mult x one = x) -> (forall x, mult one x = x) ->
    shaped R K A -> shaped R K C -> shaped R K D ->
    (I <- scaled_identity K one ;; mxm_call o add mult C A I) = Ok A /\
    (I <- scaled_identity R one ;; mxm_call o add mult D I A) = Ok A.
Proof. intros. eapply law_mxm_one; eauto. Qed.
Print Assumptions C121_product_identity.

Theorem C121_mxv_of_product :
  forall (T : Type) (o : outmode) (add mult : T -> T -> T) (R L K : nat) (A B P : lil T) (u p w x : bvec T),
    (forall a b c, add (add a b) c = add a (add b c)) -> (forall a b, add a b = add b a) ->
    (forall a b c, mult (mult a b) c = mult a (mult b c)) ->
    (forall a b c, mult a (add b c) = add (mult a b) (mult a c)) -> (forall a b c, mult (add a b) c = add (mult a c) (mult b c)) ->
    shaped R L A -> shaped L K B -> vshaped K u -> shaped R K P -> vshaped L p -> vshaped R w -> vshaped R x ->
    vagree (AB <- mxm_call o add mult P A B ;; mxv_call o add mult w (Mat AB) u)
           (Bu <- mxv_call o add mult p (Mat B) u ;; mxv_call o add mult x (Mat A) Bu).
Proof. intros. eapply law_mxv_mxm; eauto. Qed.
Print Assumptions C121_mxv_of_product.

Theorem C121_vxm_of_product :
  forall (T : Type) (o : outmode) (add mult : T -> T -> T) (R L K : nat) (A B P : lil T) (u p w x : bvec T),
    (forall a b c, add (add a b) c = add a (add b c)) -> (forall a b, add a b = add b a) ->
    (forall a b c, mult (mult a b) c = mult a (mult b c)) ->
    (forall a b c, mult a (add b c) = add (mult a b) (mult a c)) -> (forall a b c, mult (add a b) c = add (mult a c) (mult b c)) ->
    shaped R L A -> shaped L K B -> vshaped R u -> shaped R K P -> vshaped L p -> vshaped K w -> vshaped K x ->
    vagree (AB <- mxm_call o add mult P A B ;; vxm_call o add mult w u (Mat AB))
           (uA <- vxm_call o add mult p u (Mat A) ;; vxm_call o add mult x uA (Mat B)).
Proof. intros. eapply law_vxm_mxm; eauto. Qed.
Print Assumptions C121_vxm_of_product.

Theorem C121_mxv_of_sum :
  forall (T : Type) (o : outmode) (add mult : T -> T -> T) (R K : nat) (A : lil T) (u v p q s w x : bvec T),
    (forall a b c, add (add a b) c = add a (add b c)) -> (forall a b, add a b = add b a) ->
    (forall a b c, mult a (add b c) = add (mult a b) (mult a c)) ->
    shaped R K A -> vshaped K u -> vshaped K v -> vshaped K p -> vshaped R q -> vshaped R s -> vshaped R w -> vshaped R x ->
    vagree (uv <- vadd_call o add p u v ;; mxv_call o add mult w (Mat A) uv)
           (Au <- mxv_call o add mult q (Mat A) u ;; Av <- mxv_call o add mult s (Mat A) v ;; vadd_call o add x Au Av).
Proof. intros. eapply law_mxv_vadd; eauto. Qed.
Print Assumptions C121_mxv_of_sum.

Theorem C121_vxm_of_sum :
  forall (T : Type) (o : outmode) (add mult : T -> T -> T) (R K : nat) (A : lil T) (u v p q s w x : bvec T),
    (forall a b c, add (add a b) c = add a (add b c)) -> (forall a b, add a b = add b a) ->
    (forall a b c, mult (add a b) c = add (mult a c) (mult b c)) ->
    shaped R K A -> vshaped R u -> vshaped R v -> vshaped R p -> vshaped K q -> vshaped K s -> vshaped K w -> vshaped K x ->
    vagree (uv <- vadd_call o add p u v ;; vxm_call o add mult w uv (Mat A))
           (uA <- vxm_call o add mult q u (Mat A) ;; vA <- vxm_call o add mult s v (Mat A) ;; vadd_call o add x uA vA).
Proof. intros. eapply law_vxm_vadd; eauto. Qed.
Print Assumptions C121_vxm_of_sum.

Theorem C121_mxv_sum_of_matrices :
  forall (T : Type) (o : outmode) (add mult : T -> T -> T) (R K : nat) (A B P : lil T) (u q s w x : bvec T),
    (forall a b c, add (add a b) c = add a (add b c)) -> (forall a b, add a b = add b a) ->
    (forall a b c, mult (add a b) c = add (mult a c) (mult b c)) ->
    shaped R K A -> shaped R K B -> shaped R K P -> vshaped K u -> vshaped R q -> vshaped R s -> vshaped R w -> vshaped R x ->
    vagree (AB <- add_call o add P A B ;; mxv_call o add mult w (Mat AB) u)
           (Au <- mxv_call o add mult q (Mat A) u ;; Bu <- mxv_call o add mult s (Mat B) u ;; vadd_call o add x Au Bu).
Proof. intros. eapply law_mxv_add; eauto. Qed.
Print Assumptions C121_mxv_sum_of_matrices.

Theorem C121_vxm_is_transposed_mxv :
  forall (T : Type) (o : outmode) (add mult : T -> T -> T) (R K : nat) (A : lil T) (u w x : bvec T),
    (forall a b, mult a b = mult b a) ->
    shaped R K A -> vshaped R u -> vshaped K w -> vshaped K x ->
    vagree (vxm_call o add mult w u (Mat A)) (mxv_call o add mult x (Trn A) u).
Proof. intros. eapply law_vxm_mxv; eauto. Qed.
Print Assumptions C121_vxm_is_transposed_mxv.

Theorem C121_row_sums_are_product :
  forall (T : Type) (o : outmode) (add mult : T -> T -> T) (one : T) (R K : nat) (A : lil T) (u w x : bvec T),
    (forall a, mult a one = a) ->
    shaped R K A -> vshaped K u -> (forall j, j < K -> vget u j = Some one) -> vshaped R w -> vshaped R x ->
    vagree (reduce_call o add w (Mat A)) (mxv_call o add mult x (Mat A) u).
Proof. intros. eapply law_reduce_ones; eauto. Qed.
Print Assumptions C121_row_sums_are_product.

Theorem C121_row_sums_of_sum :
  forall (T : Type) (o : outmode) (add : T -> T -> T) (R K : nat) (A B P : lil T) (q s w x : bvec T),
    (forall a b c, add (add a b) c = add a (add b c)) -> (forall a b, add a b = add b a) ->
    shaped R K A -> shaped R K B -> shaped R K P -> vshaped R q -> vshaped R s -> vshaped R w -> vshaped R x ->
    vagree (AB <- add_call o add P A B ;; reduce_call o add w (Mat AB))
           (a <- reduce_call o add q (Mat A) ;; b <- reduce_call o add s (Mat B) ;; vadd_call o add x a b).
Proof. intros. eapply law_reduce_add; eauto. Qed.
Print Assumptions C121_row_sums_of_sum.

Example C121_example :
  shaped 2 2 la /\ shaped 2 2 lb /\ shaped 2 2 lc /\ vshaped 2 lu /\ vshaped 2 lv /\
  (BD <- add_call MERGE Z.add lc lb lc ;; mxm_call MERGE Z.add Z.mul lc la BD) = Ok (mkLil 2 2 4 [[(0, 14%Z); (1, 23%Z)]; [(0, 21%Z); (1, 27%Z)]]) /\
  (AB <- mxm_call MERGE Z.add Z.mul lc la lb ;; AD <- mxm_call MERGE Z.add Z.mul lb la lc ;; add_call MERGE Z.add la AB AD) =
    Ok (mkLil 2 2 4 [[(0, 14%Z); (1, 23%Z)]; [(0, 21%Z); (1, 27%Z)]]) /\
  res_map getContents (AB <- mxm_call MERGE Z.add Z.mul lc la lb ;; mxv_call MERGE Z.add Z.mul lv (Mat AB) lu) = Ok (Ok [(0, 86%Z); (1, 84%Z)]) /\
  res_map getContents (mxv_call MERGE Z.add Z.mul lv (Trn la) lu) = Ok (Ok [(0, 4%Z); (1, 26%Z)]).
Proof.
  repeat match goal with |- _ /\ _ => split | |- shaped _ _ _ => split | |- wfm _ => wf_mat | |- vshaped _ _ => split | |- wfv _ => wf_vec end;
    repeat split; reflexivity.
Qed.

(** ** C122: a call under a mask, then under the complement of the mask, is the call without mask *)
Ltac split_side :=
  repeat first
    [ assumption | exact I | reflexivity
    | apply mask_not_wf; assumption | apply vmask_not_wf; assumption
    | match goal with H : wfv ?x |- wfv0 ?x => exact (proj1 H) end
    | progress unfold mxm_conforms, mxv_conforms, vxm_conforms, ewise_conforms, vewise_conforms, apply_conforms, vapply_conforms,
        transpose_conforms, kron_conforms, reduce_conforms, extract_conforms, vextract_conforms, cextract_conforms,
        assign_conforms, vassign_conforms, mcassign_conforms, vcassign_conforms in *
    | match goal with H : _ /\ _ |- _ => destruct H end
    | match goal with H : nrows ?D = nrows ?C |- context [nrows ?D] => rewrite H end
    | match goal with H : ncols ?D = ncols ?C |- context [ncols ?D] => rewrite H end
    | match goal with H : vsize ?D = vsize ?C |- context [vsize ?D] => rewrite H end
    | apply mask_not_fits | apply vmask_not_fits
    | match goal with |- _ /\ _ => split end
    | congruence ].
Theorem C122_split_mxm :
  forall (TA TB TT TC TZ TM : Type) (truthy : TM -> bool) (add : TT -> TT -> TT) (mult : TA -> TB -> TT) (multS : TB -> TA -> TT) (tc : TT -> TC) (ct : TC -> TT) (zc : TZ -> TC) (a : accum TC TT TZ) (m : mask (lil TM)) (o : outmode) (C : lil TC) (A : mview TA) (B : mview TB),
    m <> NoMask -> wfm C /\ wfview A /\ wfview B /\ wfmask m /\ mxm_conforms m C A B /\
    match A, B with Trn _, Trn _ => (forall x y, multS y x = mult x y) /\ (forall v, ct (tc v) = v) | _, _ => True end ->
    agree (D <- mxm add mult multS tc ct truthy zc a m MERGE C A B ;; mxm add mult multS tc ct truthy zc a (mask_not m) MERGE D A B)
      (mxm add mult multS tc ct truthy zc a (@NoMask (lil TM)) o C A B).
Proof.
  intros *. intros Hm H. decompose [and] H. clear H. eapply (split_written truthy zc a m o); [auto| |intros D WD RD KD|]; apply mxm_ok; simpl; auto;
    split_side.
Qed.
Print Assumptions C122_split_mxm.

Theorem C122_split_eWiseAdd :
  forall (TA TB TT TC TZ TM : Type) (truthy : TM -> bool) (op : TA -> TB -> TT) (c1 : TA -> TT) (c2 : TB -> TT) (opA : TA -> TA -> TT) (c2A : TA -> TT) (ba : TB -> TA) (zc : TZ -> TC) (a : accum TC TT TZ) (m : mask (lil TM)) (o : outmode) (C : lil TC) (A : mview TA) (B : mview TB),
    m <> NoMask -> wfm C /\ wfview A /\ wfview B /\ wfmask m /\ ewise_conforms m C A B ->
    agree (D <- eWiseAdd op c1 c2 opA c2A ba truthy zc a m MERGE C A B ;; eWiseAdd op c1 c2 opA c2A ba truthy zc a (mask_not m) MERGE D A B)
      (eWiseAdd op c1 c2 opA c2A ba truthy zc a (@NoMask (lil TM)) o C A B).
Proof.
  intros *. intros Hm H. decompose [and] H. clear H. eapply (split_written truthy zc a m o); [auto| |intros D WD RD KD|]; apply eWiseAdd_ok; simpl; auto;
    split_side.
Qed.
Print Assumptions C122_split_eWiseAdd.

Theorem C122_split_eWiseMult :
  forall (TA TB TT TC TZ TM : Type) (truthy : TM -> bool) (op : TA -> TB -> TT) (opA : TA -> TA -> TT) (ba : TB -> TA) (zc : TZ -> TC) (a : accum TC TT TZ) (m : mask (lil TM)) (o : outmode) (C : lil TC) (A : mview TA) (B : mview TB),
    m <> NoMask -> wfm C /\ wfview A /\ wfview B /\ wfmask m /\ ewise_conforms m C A B ->
    agree (D <- eWiseMult op opA ba truthy zc a m MERGE C A B ;; eWiseMult op opA ba truthy zc a (mask_not m) MERGE D A B)
      (eWiseMult op opA ba truthy zc a (@NoMask (lil TM)) o C A B).
Proof.
  intros *. intros Hm H. decompose [and] H. clear H. eapply (split_written truthy zc a m o); [auto| |intros D WD RD KD|]; apply eWiseMult_ok; simpl; auto;
    split_side.
Qed.
Print Assumptions C122_split_eWiseMult.

Theorem C122_split_apply :
  forall (TA TT TC TZ TM : Type) (truthy : TM -> bool) (f : TA -> TT) (zc : TZ -> TC) (a : accum TC TT TZ) (m : mask (lil TM)) (o : outmode) (C : lil TC) (A : mview TA),
    m <> NoMask -> wfm C /\ wfview A /\ wfmask m /\ apply_conforms m C A ->
    agree (D <- apply f truthy zc a m MERGE C A ;; apply f truthy zc a (mask_not m) MERGE D A)
      (apply f truthy zc a (@NoMask (lil TM)) o C A).
Proof.
  intros *. intros Hm H. decompose [and] H. clear H. eapply (split_written truthy zc a m o); [auto| |intros D WD RD KD|]; apply apply_ok; simpl; auto;
    split_side.
Qed.
Print Assumptions C122_split_apply.

Theorem C122_split_transpose :
  forall (TA TC TZ TM : Type) (truthy : TM -> bool) (zc : TZ -> TC) (a : accum TC TA TZ) (m : mask (lil TM)) (o : outmode) (C : lil TC) (A : mview TA),
    m <> NoMask -> wfm C /\ wfview A /\ wfmask m /\ transpose_conforms m C A ->
    agree (D <- transpose truthy zc a m MERGE C A ;; transpose truthy zc a (mask_not m) MERGE D A)
      (transpose truthy zc a (@NoMask (lil TM)) o C A).
Proof.
  intros *. intros Hm H. decompose [and] H. clear H. eapply (split_written truthy zc a m o); [auto| |intros D WD RD KD|]; apply transpose_ok; simpl; auto;
    split_side.
Qed.
Print Assumptions C122_split_transpose.

Theorem C122_split_kronecker :
  forall (TA TB TT TC TZ TM : Type) (truthy : TM -> bool) (op : TA -> TB -> TT) (zc : TZ -> TC) (a : accum TC TT TZ) (m : mask (lil TM)) (o : outmode) (C : lil TC) (A : mview TA) (B : mview TB),
    m <> NoMask -> wfm C /\ wfview A /\ wfview B /\ wfmask m /\ kron_conforms m C A B /\ (Z.of_nat (nrows C) < 2 ^ 64)%Z /\ (Z.of_nat (ncols C) < 2 ^ 64)%Z ->
    agree (D <- kronecker op truthy zc a m MERGE C A B ;; kronecker op truthy zc a (mask_not m) MERGE D A B)
      (kronecker op truthy zc a (@NoMask (lil TM)) o C A B).
Proof.
  intros *. intros Hm H. decompose [and] H. clear H. eapply (split_written truthy zc a m o); [auto| |intros D WD RD KD|]; apply kronecker_ok; simpl; auto;
    split_side.
Qed.
Print Assumptions C122_split_kronecker.

Theorem C122_split_extract :
  forall (TA TC TZ TM : Type) (truthy : TM -> bool) (zc : TZ -> TC) (a : accum TC TA TZ) (m : mask (lil TM)) (o : outmode) (C : lil TC) (A : mview TA) (rs cs : idxseq),
    m <> NoMask -> wfm C /\ wfview A /\ wfmask m /\ extract_conforms m C A rs cs ->
    agree (D <- extract_m truthy zc a m MERGE C A rs cs ;; extract_m truthy zc a (mask_not m) MERGE D A rs cs)
      (extract_m truthy zc a (@NoMask (lil TM)) o C A rs cs).
Proof.
  intros *. intros Hm H. decompose [and] H. clear H. eapply (split_written truthy zc a m o); [auto| |intros D WD RD KD|]; apply extract_m_ok; simpl; auto;
    split_side.
Qed.
Print Assumptions C122_split_extract.

Theorem C122_split_assign :
  forall (TA TC TZ TM : Type) (truthy : TM -> bool) (cz' : TC -> TZ) (zc : TZ -> TC) (a : accum TC TA TZ) (m : mask (lil TM)) (o : outmode) (C : lil TC) (A : mview TA) (rs cs : idxseq),
    m <> NoMask -> wfm C /\ wfview A /\ wfmask m /\ assign_conforms m C A rs cs /\ idx_nodup rs /\ idx_nodup cs /\
    all_fits rs (vrows A) (nrows C) /\ all_fits cs (vcols A) (ncols C) ->
    agree (D <- assign_m cz' truthy zc a m MERGE C A rs cs ;; assign_m cz' truthy zc a (mask_not m) MERGE D A rs cs)
      (assign_m cz' truthy zc a (@NoMask (lil TM)) o C A rs cs).
Proof.
  intros *. intros Hm H. decompose [and] H. clear H. eapply (split_assigned cz' truthy zc a m o); [auto| |intros D WD RD KD|]; apply assign_m_ok; simpl; auto;
    split_side.
Qed.
Print Assumptions C122_split_assign.

Theorem C122_split_mxv :
  forall (TA TU TT TW TZ TM : Type) (truthy : TM -> bool) (add : TT -> TT -> TT) (mult : TA -> TU -> TT) (multS : TU -> TA -> TT) (zc : TZ -> TW) (a : accum TW TT TZ) (m : mask (bvec TM)) (o : outmode) (w : bvec TW) (A : mview TA) (u : bvec TU),
    m <> NoMask -> wfv0 w /\ wfview A /\ wfvn u /\ wfvmask m /\ mxv_conforms m w A u /\
    match A with Trn _ => forall x y, multS y x = mult x y | _ => True end ->
    vagree (D <- mxv add mult multS truthy zc a m MERGE w A u ;; mxv add mult multS truthy zc a (mask_not m) MERGE D A u)
      (mxv add mult multS truthy zc a (@NoMask (bvec TM)) o w A u).
Proof.
  intros *. intros Hm H. decompose [and] H. clear H. eapply (vsplit_written truthy zc a m o); [auto| |intros D WD SD|]; apply mxv_ok; simpl; auto;
    split_side.
Qed.
Print Assumptions C122_split_mxv.

Theorem C122_split_vxm :
  forall (TA TU TT TW TZ TM : Type) (truthy : TM -> bool) (add : TT -> TT -> TT) (mult : TU -> TA -> TT) (zc : TZ -> TW) (a : accum TW TT TZ) (m : mask (bvec TM)) (o : outmode) (w : bvec TW) (u : bvec TU) (A : mview TA),
    m <> NoMask -> wfv0 w /\ wfview A /\ wfvn u /\ wfvmask m /\ vxm_conforms m w u A ->
    vagree (D <- vxm add mult truthy zc a m MERGE w u A ;; vxm add mult truthy zc a (mask_not m) MERGE D u A)
      (vxm add mult truthy zc a (@NoMask (bvec TM)) o w u A).
Proof.
  intros *. intros Hm H. decompose [and] H. clear H. eapply (vsplit_written truthy zc a m o); [auto| |intros D WD SD|]; apply vxm_ok; simpl; auto;
    split_side.
Qed.
Print Assumptions C122_split_vxm.

Theorem C122_split_vector_eWiseAdd :
  forall (TU TV TT TW TZ TM : Type) (truthy : TM -> bool) (op : TU -> TV -> TT) (c1 : TU -> TT) (c2 : TV -> TT) (zc : TZ -> TW) (a : accum TW TT TZ) (m : mask (bvec TM)) (o : outmode) (w : bvec TW) (u : bvec TU) (v : bvec TV),
    m <> NoMask -> wfv0 w /\ wfvn u /\ wfvn v /\ wfvmask m /\ vewise_conforms m w u v ->
    vagree (D <- eWiseAdd_v op c1 c2 truthy zc a m MERGE w u v ;; eWiseAdd_v op c1 c2 truthy zc a (mask_not m) MERGE D u v)
      (eWiseAdd_v op c1 c2 truthy zc a (@NoMask (bvec TM)) o w u v).
Proof.
  intros *. intros Hm H. decompose [and] H. clear H. eapply (vsplit_written truthy zc a m o); [auto| |intros D WD SD|]; apply eWiseAdd_v_ok; simpl; auto;
    split_side.
Qed.
Print Assumptions C122_split_vector_eWiseAdd.

Theorem C122_split_vector_eWiseMult :
  forall (TU TV TT TW TZ TM : Type) (truthy : TM -> bool) (op : TU -> TV -> TT) (zc : TZ -> TW) (a : accum TW TT TZ) (m : mask (bvec TM)) (o : outmode) (w : bvec TW) (u : bvec TU) (v : bvec TV),
    m <> NoMask -> wfv0 w /\ wfvn u /\ wfvn v /\ wfvmask m /\ vewise_conforms m w u v ->
    vagree (D <- eWiseMult_v op truthy zc a m MERGE w u v ;; eWiseMult_v op truthy zc a (mask_not m) MERGE D u v)
      (eWiseMult_v op truthy zc a (@NoMask (bvec TM)) o w u v).
Proof.
  intros *. intros Hm H. decompose [and] H. clear H. eapply (vsplit_written truthy zc a m o); [auto| |intros D WD SD|]; apply eWiseMult_v_ok; simpl; auto;
    split_side.
Qed.
Print Assumptions C122_split_vector_eWiseMult.

Theorem C122_split_vector_apply :
  forall (TU TT TW TZ TM : Type) (truthy : TM -> bool) (f : TU -> TT) (zc : TZ -> TW) (a : accum TW TT TZ) (m : mask (bvec TM)) (o : outmode) (w : bvec TW) (u : bvec TU),
    m <> NoMask -> wfv0 w /\ wfvn u /\ wfvmask m /\ vapply_conforms m w u ->
    vagree (D <- apply_v f truthy zc a m MERGE w u ;; apply_v f truthy zc a (mask_not m) MERGE D u)
      (apply_v f truthy zc a (@NoMask (bvec TM)) o w u).
Proof.
  intros *. intros Hm H. decompose [and] H. clear H. eapply (vsplit_written truthy zc a m o); [auto| |intros D WD SD|]; apply apply_v_ok; simpl; auto;
    split_side.
Qed.
Print Assumptions C122_split_vector_apply.

Theorem C122_split_reduce :
  forall (TA TT TW TZ TM : Type) (truthy : TM -> bool) (c1 : TA -> TT) (op01 : TA -> TA -> TT) (op : TT -> TA -> TT) (zc : TZ -> TW) (a : accum TW TT TZ) (m : mask (bvec TM)) (o : outmode) (w : bvec TW) (A : mview TA),
    m <> NoMask -> (forall x y, op01 x y = op (c1 x) y) /\ wfv0 w /\ wfview A /\ wfvmask m /\ reduce_conforms m w A ->
    vagree (D <- reduce c1 op01 op truthy zc a m MERGE w A ;; reduce c1 op01 op truthy zc a (mask_not m) MERGE D A)
      (reduce c1 op01 op truthy zc a (@NoMask (bvec TM)) o w A).
Proof.
  intros *. intros Hm H. decompose [and] H. clear H. eapply (vsplit_written truthy zc a m o); [auto| |intros D WD SD|]; apply reduce_ok; simpl; auto;
    split_side.
Qed.
Print Assumptions C122_split_reduce.

Theorem C122_split_vector_extract :
  forall (TU TW TZ TM : Type) (truthy : TM -> bool) (zc : TZ -> TW) (a : accum TW TU TZ) (m : mask (bvec TM)) (o : outmode) (w : bvec TW) (u : bvec TU) (s : idxseq),
    m <> NoMask -> wfv0 w /\ wfv0 u /\ wfvmask m /\ vextract_conforms m w u s ->
    vagree (D <- extract_v truthy zc a m MERGE w u s ;; extract_v truthy zc a (mask_not m) MERGE D u s)
      (extract_v truthy zc a (@NoMask (bvec TM)) o w u s).
Proof.
  intros *. intros Hm H. decompose [and] H. clear H. eapply (vsplit_written truthy zc a m o); [auto| |intros D WD SD|]; apply extract_v_ok; simpl; auto;
    split_side.
Qed.
Print Assumptions C122_split_vector_extract.

Theorem C122_split_extract_column :
  forall (TA TW TZ TM : Type) (truthy : TM -> bool) (zc : TZ -> TW) (a : accum TW TA TZ) (m : mask (bvec TM)) (o : outmode) (w : bvec TW) (A : mview TA) (rs : idxseq) (col : nat),
    m <> NoMask -> wfv0 w /\ wfview A /\ wfvmask m /\ cextract_conforms m w A rs col ->
    vagree (D <- extract_col truthy zc a m MERGE w A rs col ;; extract_col truthy zc a (mask_not m) MERGE D A rs col)
      (extract_col truthy zc a (@NoMask (bvec TM)) o w A rs col).
Proof.
  intros *. intros Hm H. decompose [and] H. clear H. eapply (vsplit_written truthy zc a m o); [auto| |intros D WD SD|]; apply extract_col_ok; simpl; auto;
    split_side.
Qed.
Print Assumptions C122_split_extract_column.

Theorem C122_split_vector_assign :
  forall (TU TW TZ TM : Type) (truthy : TM -> bool) (cz' : TW -> TZ) (zc : TZ -> TW) (a : accum TW TU TZ) (m : mask (bvec TM)) (o : outmode) (w : bvec TW) (u : bvec TU) (s : idxseq),
    m <> NoMask -> wfv0 w /\ wfv0 u /\ wfvmask m /\ vassign_conforms m w u s /\ idx_nodup s /\ all_fits s (vsize u) (vsize w) ->
    vagree (D <- assign_v cz' truthy zc a m MERGE w u s ;; assign_v cz' truthy zc a (mask_not m) MERGE D u s)
      (assign_v cz' truthy zc a (@NoMask (bvec TM)) o w u s).
Proof.
  intros *. intros Hm H. decompose [and] H. clear H. eapply (vsplit_assigned cz' truthy zc a m o); [auto| |intros D WD SD|]; apply assign_v_ok; simpl; auto;
    split_side.
Qed.
Print Assumptions C122_split_vector_assign.

Theorem C122_split_assign_constant :
  forall (TV TC TZ TM : Type) (truthy : TM -> bool) (cz' : TC -> TZ) (zc : TZ -> TC) (a : accum TC TV TZ) (m : mask (lil TM)) (o : outmode) (C : lil TC) (val : TV) (rs cs : idxseq),
    m <> NoMask -> wfm C /\ wfmask m /\ mcassign_conforms m C rs cs /\ idx_nodup rs /\ idx_sorted cs ->
    agree (D <- assign_const_m cz' truthy zc a m MERGE C val rs cs ;; assign_const_m cz' truthy zc a (mask_not m) MERGE D val rs cs)
      (assign_const_m cz' truthy zc a (@NoMask (lil TM)) o C val rs cs).
Proof.
  intros *. intros Hm H. decompose [and] H. clear H.
  apply (split_assigned cz' truthy zc a m o C
    (fun i j => in_idx rs (idx_count rs (nrows C)) i && in_idx cs (idx_count cs (ncols C)) j)
    (fun i j => if in_idx rs (idx_count rs (nrows C)) i && in_idx cs (idx_count cs (ncols C)) j then Some val else None));
    [auto| |intros D WD RD KD; rewrite <- RD, <- KD|]; apply assign_const_m_ok; simpl; auto; split_side.
Qed.
Print Assumptions C122_split_assign_constant.

Theorem C122_split_vector_assign_constant :
  forall (TV TW TZ TM : Type) (truthy : TM -> bool) (cz' : TW -> TZ) (zc : TZ -> TW) (a : accum TW TV TZ) (m : mask (bvec TM)) (o : outmode) (w : bvec TW) (val : TV) (s : idxseq),
    m <> NoMask -> wfv0 w /\ wfvmask m /\ vcassign_conforms m w s /\ idx_sorted s ->
    vagree (D <- assign_const_v cz' truthy zc a m MERGE w val s ;; assign_const_v cz' truthy zc a (mask_not m) MERGE D val s)
      (assign_const_v cz' truthy zc a (@NoMask (bvec TM)) o w val s).
Proof.
  intros *. intros Hm H. decompose [and] H. clear H.
  apply (vsplit_assigned cz' truthy zc a m o w (in_idx s (idx_count s (vsize w)))
    (fun i => if in_idx s (idx_count s (vsize w)) i then Some val else None));
    [auto| |intros D WD SD; rewrite <- SD|]; apply assign_const_v_ok; simpl; auto; split_side.
Qed.
Print Assumptions C122_split_vector_assign_constant.

Example C122_example :
  wfm la /\ wfm lb /\ wfm lc /\ mxm_conforms (MVal lb) lc (Mat la) (Mat lb) /\
  (D <- mxm Z.add Z.mul Z.mul idc idc ztrue idc (Acc Z.add idc idc) (MVal lb) MERGE lc (Mat la) (Mat lb) ;;
   mxm Z.add Z.mul Z.mul idc idc ztrue idc (Acc Z.add idc idc) (mask_not (MVal lb)) MERGE D (Mat la) (Mat lb)) =
    Ok (mkLil 2 2 4 [[(0, 14%Z); (1, 5%Z)]; [(0, 21%Z); (1, 9%Z)]]).
Proof.
  repeat match goal with |- _ /\ _ => split | |- shaped _ _ _ => split | |- wfm _ => wf_mat | |- vshaped _ _ => split | |- wfv _ => wf_vec end;
    repeat split; reflexivity.
Qed.

(** ** C123: Kronecker products *)
Theorem C123_kronecker_mixed_product :
  forall (T : Type) (o : outmode) (add mult : T -> T -> T) (ra ca rb cb cc cd : nat) (A B C D P Q S U X Y : lil T),
    (forall x y z, add (add x y) z = add x (add y z)) -> (forall x y, add x y = add y x) ->
    (forall x y z, mult (mult x y) z = mult x (mult y z)) -> (forall x y, mult x y = mult y x) ->
    (forall x y z, mult x (add y z) = add (mult x y) (mult x z)) ->
    shaped ra ca A -> shaped rb cb B -> shaped ca cc C -> shaped cb cd D ->
    shaped (ra * rb) (ca * cb) P -> shaped (ca * cb) (cc * cd) Q -> shaped ra cc S -> shaped rb cd U ->
    shaped (ra * rb) (cc * cd) X -> shaped (ra * rb) (cc * cd) Y ->
    (Z.of_nat (ra * rb) < 2 ^ 64)%Z -> (Z.of_nat (ca * cb) < 2 ^ 64)%Z -> (Z.of_nat (cc * cd) < 2 ^ 64)%Z ->
    agree (AB <- kronecker_call o mult P A B ;; CD <- kronecker_call o mult Q C D ;; mxm_call o add mult X AB CD)
          (AC <- mxm_call o add mult S A C ;; BD <- mxm_call o add mult U B D ;; kronecker_call o mult Y AC BD).
Proof. intros. eapply law_kron_mxm; eauto. Qed.
Print Assumptions C123_kronecker_mixed_product.

Theorem C123_kronecker_transpose :
  forall (T : Type) (o : outmode) (mult : T -> T -> T) (ra ca rb cb : nat) (A B P Q S X Y : lil T),
    shaped ra ca A -> shaped rb cb B -> shaped (ra * rb) (ca * cb) P -> shaped ca ra Q -> shaped cb rb S ->
    shaped (ca * cb) (ra * rb) X -> shaped (ca * cb) (ra * rb) Y ->
    (Z.of_nat (ra * rb) < 2 ^ 64)%Z -> (Z.of_nat (ca * cb) < 2 ^ 64)%Z ->
    agree (AB <- kronecker_call o mult P A B ;; transpose_call o X AB)
          (At <- transpose_call o Q A ;; Bt <- transpose_call o S B ;; kronecker_call o mult Y At Bt).
Proof. intros. eapply law_kron_transpose; eauto. Qed.
Print Assumptions C123_kronecker_transpose.

Theorem C123_kronecker_associative :
  forall (T : Type) (o : outmode) (mult : T -> T -> T) (ra ca rb cb rd cd : nat) (A B D P Q X Y : lil T),
    (forall x y z, mult (mult x y) z = mult x (mult y z)) ->
    shaped ra ca A -> shaped rb cb B -> shaped rd cd D -> shaped (ra * rb) (ca * cb) P -> shaped (rb * rd) (cb * cd) Q ->
    shaped (ra * rb * rd) (ca * cb * cd) X -> shaped (ra * (rb * rd)) (ca * (cb * cd)) Y ->
    (Z.of_nat (ra * rb) < 2 ^ 64)%Z -> (Z.of_nat (ca * cb) < 2 ^ 64)%Z -> (Z.of_nat (rb * rd) < 2 ^ 64)%Z -> (Z.of_nat (cb * cd) < 2 ^ 64)%Z ->
    (Z.of_nat (ra * rb * rd) < 2 ^ 64)%Z -> (Z.of_nat (ca * cb * cd) < 2 ^ 64)%Z ->
    agree (AB <- kronecker_call o mult P A B ;; kronecker_call o mult X AB D)
          (BD <- kronecker_call o mult Q B D ;; kronecker_call o mult Y A BD).
Proof. intros. eapply law_kron_assoc; eauto. Qed.
Print Assumptions C123_kronecker_associative.

Definition lk : lil Z := mkLil 4 4 0 [[]; []; []; []].
Example C123_example :
  shaped 2 2 la /\ shaped 2 2 lb /\ shaped 4 4 lk /\
  (AB <- kronecker_call MERGE Z.mul lk la lb ;; CD <- kronecker_call MERGE Z.mul lk lb lc ;; mxm_call MERGE Z.add Z.mul lk AB CD) =
  (AC <- mxm_call MERGE Z.add Z.mul lc la lb ;; BD <- mxm_call MERGE Z.add Z.mul lc lb lc ;; kronecker_call MERGE Z.mul lk AC BD) /\
  (AB <- kronecker_call MERGE Z.mul lk la lb ;; CD <- kronecker_call MERGE Z.mul lk lb lc ;; mxm_call MERGE Z.add Z.mul lk AB CD) =
    Ok (mkLil 4 4 3 [[(1, 630%Z); (3, 225%Z)]; []; [(1, 945%Z)]; []]).
Proof.
  repeat match goal with |- _ /\ _ => split | |- shaped _ _ _ => split | |- wfm _ => wf_mat | |- vshaped _ _ => split | |- wfv _ => wf_vec end;
    repeat split; reflexivity.
Qed.

(** ** C124: extraction *)
Theorem C124_extract_of_extract :
  forall (T : Type) (o : outmode) (R K : nat) (rs cs rs' cs' : list nat) (A P X Y : lil T),
    Forall (fun i => i < R) rs -> Forall (fun j => j < K) cs ->
    Forall (fun i => i < length rs) rs' -> Forall (fun j => j < length cs) cs' ->
    shaped R K A -> shaped (length rs) (length cs) P -> shaped (length rs') (length cs') X -> shaped (length rs') (length cs') Y ->
    agree (B <- extract_call o P A (IdxArr rs) (IdxArr cs) ;; extract_call o X B (IdxArr rs') (IdxArr cs'))
          (extract_call o Y A (IdxArr (map (fun k => nth k rs 0) rs')) (IdxArr (map (fun k => nth k cs 0) cs'))).
Proof. intros. eapply law_extract_extract; eauto. Qed.
Print Assumptions C124_extract_of_extract.

Theorem C124_extract_of_product :
  forall (T : Type) (o : outmode) (add mult : T -> T -> T) (R L K : nat) (rs cs : list nat) (A B P Q S X Y : lil T),
    Forall (fun i => i < R) rs -> Forall (fun j => j < K) cs ->
    shaped R L A -> shaped L K B -> shaped R K P -> shaped (length rs) L Q -> shaped L (length cs) S ->
    shaped (length rs) (length cs) X -> shaped (length rs) (length cs) Y ->
    agree (AB <- mxm_call o add mult P A B ;; extract_call o X AB (IdxArr rs) (IdxArr cs))
          (A' <- extract_call o Q A (IdxArr rs) (IdxArr (seq 0 L)) ;; B' <- extract_call o S B (IdxArr (seq 0 L)) (IdxArr cs) ;;
           mxm_call o add mult Y A' B').
Proof. intros. eapply law_extract_mxm; eauto. Qed.
Print Assumptions C124_extract_of_product.

Definition lx : lil Z := mkLil 3 2 0 [[]; []; []].
Example C124_example :
  shaped 2 2 la /\ shaped 3 2 lx /\
  (B <- extract_call MERGE lx la (IdxArr [1; 0; 1]) (IdxArr [1; 0]) ;; extract_call MERGE lc B (IdxArr [1; 2]) (IdxArr [0; 0])) =
    Ok (mkLil 2 2 4 [[(0, 2%Z); (1, 2%Z)]; [(0, 3%Z); (1, 3%Z)]]) /\
  (AB <- mxm_call MERGE Z.add Z.mul lc la lb ;; extract_call MERGE lx AB (IdxArr [1; 0; 1]) (IdxArr [1; 0])) =
    Ok (mkLil 3 2 4 [[(1, 21%Z)]; [(0, 5%Z); (1, 14%Z)]; [(1, 21%Z)]]).
Proof.
  repeat match goal with |- _ /\ _ => split | |- shaped _ _ _ => split | |- wfm _ => wf_mat | |- vshaped _ _ => split | |- wfv _ => wf_vec end;
    repeat split; reflexivity.
Qed.

