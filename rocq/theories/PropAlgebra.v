(** Properties of the predefined algebra and of products over it: C38-C40. *)
From Coq Require Import Lia.
From Verif Require Import Base ModelLil ModelVec ModelHelpers ModelViews ModelMul ModelElem Spec
  SpecOps ProofViews ProofProduct ModelAlgebra SpecAlgebra ProofLaws.
Local Open Scope Z_scope.

(** ** C38 *)
Theorem C38_monoid_laws :
  forall t : ctype,
    monoid_laws PlusMonoid t /\ monoid_laws TimesMonoid t /\
    monoid_laws MinMonoid t /\ monoid_laws MaxMonoid t.
Proof.
  exact (fun t => conj (PlusMonoid_ok t) (conj (TimesMonoid_ok t)
    (conj (MinMonoid_ok t) (MaxMonoid_ok t)))).
Qed.
Print Assumptions C38_monoid_laws.

Theorem C38_logical_monoid_laws :
  monoid_laws LogicalOrMonoid CBool /\ monoid_laws LogicalAndMonoid CBool /\
  monoid_laws LogicalXorMonoid CBool /\ monoid_laws LogicalXnorMonoid CBool.
Proof. exact logical_monoids_ok. Qed.
Print Assumptions C38_logical_monoid_laws.

(** The operators are defined on all values, except for [int], [int64_t] (overflow) and the
    product of [uint16_t] values (promoted to [int]). *)
Theorem C38_plus_defined : forall t, ~ exact_type t -> total (m_op PlusMonoid) t.
Proof. exact Plus_total. Qed.
Print Assumptions C38_plus_defined.

Theorem C38_times_defined :
  forall t, ~ exact_type t -> t <> CInt false W16 -> total (m_op TimesMonoid) t.
Proof. exact Times_total. Qed.
Print Assumptions C38_times_defined.

Theorem C38_times_uint16_refuted :
  exists a b, inty (CInt false W16) a /\ inty (CInt false W16) b /\
    m_op TimesMonoid (CInt false W16) a b = UB.
Proof. exists 65535, 65535. repeat split; discriminate. Qed.
Print Assumptions C38_times_uint16_refuted.

(** Over integers [false] and [true] are not identities of the logical monoids: 5 || 0 is 1,
    5 && 1 is 1. *)
Theorem C38_logical_monoids_int_refuted :
  exists t a, inty t a /\
    m_op LogicalOrMonoid t (m_id LogicalOrMonoid t) a <> Ok a /\
    m_op LogicalAndMonoid t (m_id LogicalAndMonoid t) a <> Ok a /\
    m_op LogicalXorMonoid t (m_id LogicalXorMonoid t) a <> Ok a /\
    m_op LogicalXnorMonoid t (m_id LogicalXnorMonoid t) a <> Ok a.
Proof. exists (CInt true W32), 5. repeat split; discriminate. Qed.
Print Assumptions C38_logical_monoids_int_refuted.

Example C38_example :
  m_op PlusMonoid (CInt false W8) 200 100 = Ok 44 /\
  m_op PlusMonoid (CInt true W8) 100 100 = Ok (-56) /\
  m_op TimesMonoid (CInt true W64) (-7) 6 = Ok (-42) /\
  m_op PlusMonoid (CInt true W32) 2147483647 1 = UB /\
  m_op MinMonoid (CInt true W16) (m_id MinMonoid (CInt true W16)) (-5) = Ok (-5) /\
  inty (CInt false W8) 200 /\ inty (CInt true W8) (-56) /\ ~ exact_type (CInt false W64).
Proof. repeat split; try discriminate. intros [|]; discriminate. Qed.

(** ** C39 *)
Theorem C39_semirings_all_types :
  forall t : ctype,
    semiring_laws ArithmeticSemiring t /\ semiring_laws MinMaxSemiring t /\
    semiring_laws MaxMinSemiring t.
Proof. exact (fun t => conj (Arithmetic_ok t) (conj (MinMax_ok t) (MaxMin_ok t))). Qed.
Print Assumptions C39_semirings_all_types.

Theorem C39_semirings_bool :
  semiring_laws LogicalSemiring CBool /\ semiring_laws AndOrSemiring CBool /\
  semiring_laws XorAndSemiring CBool /\ semiring_laws XnorOrSemiring CBool.
Proof. exact logical_semirings_ok. Qed.
Print Assumptions C39_semirings_bool.

(** Min-plus and max-plus distribute in the types that do not wrap around. *)
Theorem C39_min_max_plus_distributive :
  forall t, exact_type t ->
    left_distributive MinPlusSemiring t /\ right_distributive MinPlusSemiring t /\
    left_distributive MaxPlusSemiring t /\ right_distributive MaxPlusSemiring t.
Proof.
  exact (fun t X => conj (proj1 (MinPlus_dist t X)) (conj (proj2 (MinPlus_dist t X))
    (conj (proj1 (MaxPlus_dist t X)) (proj2 (MaxPlus_dist t X))))).
Qed.
Print Assumptions C39_min_max_plus_distributive.

(** Min-times and max-times distribute over unsigned values whose products fit. *)
Theorem C39_min_max_times_distributive :
  forall t a b c s bc ab ac x y, unsigned_type t -> inty t a -> inty t b -> inty t c ->
    a * b <= tmax t -> a * c <= tmax t ->
    s = MinTimesSemiring \/ s = MaxTimesSemiring ->
    m_op (s_add s) t b c = Ok bc -> s_mult s t a bc = Ok x ->
    s_mult s t a b = Ok ab -> s_mult s t a c = Ok ac -> m_op (s_add s) t ab ac = Ok y ->
    x = y.
Proof.
  intros t a b c s bc ab ac x y U Ha Hb Hc L1 L2 [->| ->] H1 H2 H3 H4 H5.
  - exact (MinTimes_dist t U a b c bc ab ac x y Ha Hb Hc L1 L2 H1 H2 H3 H4 H5).
  - exact (MaxTimes_dist t U a b c bc ab ac x y Ha Hb Hc L1 L2 H1 H2 H3 H4 H5).
Qed.
Print Assumptions C39_min_max_times_distributive.

(** The selecting semirings distribute on both sides; their zero annihilates on one. *)
Theorem C39_selecting_semirings :
  forall t,
    left_distributive MinFirstSemiring t /\ right_distributive MinFirstSemiring t /\
    left_distributive MinSecondSemiring t /\ right_distributive MinSecondSemiring t /\
    left_distributive MaxFirstSemiring t /\ right_distributive MaxFirstSemiring t /\
    left_distributive MaxSecondSemiring t /\ right_distributive MaxSecondSemiring t /\
    left_annihilates MinFirstSemiring t /\ right_annihilates MinSecondSemiring t /\
    left_annihilates MaxFirstSemiring t /\ right_annihilates MaxSecondSemiring t.
Proof.
  intro t.
  destruct (First_dist MinMonoid t (MinMonoid_ok t) (Min_idem t)) as (A1 & A2 & A3).
  destruct (First_dist MaxMonoid t (MaxMonoid_ok t) (Max_idem t)) as (B1 & B2 & B3).
  destruct (Second_dist MinMonoid t (MinMonoid_ok t) (Min_idem t)) as (C1 & C2 & C3).
  destruct (Second_dist MaxMonoid t (MaxMonoid_ok t) (Max_idem t)) as (D1 & D2 & D3).
  repeat (split; [assumption|]). assumption.
Qed.
Print Assumptions C39_selecting_semirings.

(** What fails.  Plus-min, called "a true semiring for unsigned ints", does not distribute:
    min(1, 1+1) is 1, min(1,1) + min(1,1) is 2. *)
Theorem C39_plus_min_refuted :
  exists t, unsigned_type t /\ ~ left_distributive PlusMinSemiring t.
Proof.
  exists (CInt false W64). split; [exists W64; reflexivity|]. intro H.
  assert (I : inty (CInt false W64) 1) by apply convert_range_1.
  discriminate (H 1 1 1 2 1 1 1 2 I I I eq_refl eq_refl eq_refl eq_refl eq_refl).
Qed.
Print Assumptions C39_plus_min_refuted.

(** Min-plus over unsigned integers: neither distributive (wrap-around) nor does [zero()]
    annihilate. *)
Theorem C39_min_plus_unsigned_refuted :
  exists t, unsigned_type t /\
    ~ left_distributive MinPlusSemiring t /\ ~ left_annihilates MinPlusSemiring t.
Proof.
  exists (CInt false W8). split; [exists W8; reflexivity|].
  assert (I1 : inty (CInt false W8) 1) by apply convert_range_1.
  assert (I2 : inty (CInt false W8) 255) by (split; discriminate).
  split; intro H.
  - discriminate (H 1 255 1 1 0 2 2 0 I1 I2 I1 eq_refl eq_refl eq_refl eq_refl eq_refl).
  - discriminate (H 1 I1).
Qed.
Print Assumptions C39_min_plus_unsigned_refuted.

(** Min-plus over [int]: [zero()] does not annihilate, and adding to it is undefined. *)
Theorem C39_min_plus_signed_refuted :
  exists t a, exact_type t /\ inty t a /\
    s_mult MinPlusSemiring t (s_zero MinPlusSemiring t) a = UB /\
    ~ left_annihilates MinPlusSemiring t.
Proof.
  exists (CInt true W32), 1. split; [left; reflexivity|].
  assert (I1 : inty (CInt true W32) 1) by apply convert_range_1.
  split; [exact I1|]. split; [reflexivity|]. intro H. discriminate (H 1 I1).
Qed.
Print Assumptions C39_min_plus_signed_refuted.

(** Min-times, called "a true semiring" for signed integers, is not distributive there:
    -1 * min(1,2) is -1, min(-1*1, -1*2) is -2; and [zero()] does not annihilate 0. *)
Theorem C39_min_times_signed_refuted :
  exists t, exact_type t /\
    ~ left_distributive MinTimesSemiring t /\ ~ left_annihilates MinTimesSemiring t.
Proof.
  exists (CInt true W32). split; [left; reflexivity|].
  assert (I0 : inty (CInt true W32) 0) by apply convert_range_0.
  assert (I1 : inty (CInt true W32) 1) by apply convert_range_1.
  assert (I2 : inty (CInt true W32) 2) by (split; discriminate).
  assert (I3 : inty (CInt true W32) (-1)) by (split; discriminate).
  split; intro H.
  - discriminate (H (-1) 1 2 1 (-1) (-2) (-1) (-2) I3 I1 I2 eq_refl eq_refl eq_refl eq_refl eq_refl).
  - discriminate (H 0 I0).
Qed.
Print Assumptions C39_min_times_signed_refuted.

(** Max-plus over signed integers: [zero()] + 1 is not [zero()]. *)
Theorem C39_max_plus_signed_refuted :
  exists t, exact_type t /\ ~ left_annihilates MaxPlusSemiring t.
Proof.
  exists (CInt true W32). split; [left; reflexivity|].
  assert (I1 : inty (CInt true W32) 1) by apply convert_range_1.
  intro H. discriminate (H 1 I1).
Qed.
Print Assumptions C39_max_plus_signed_refuted.

Example C39_example :
  exact_type (CInt true W32) /\ unsigned_type (CInt false W8) /\
  s_mult MinPlusSemiring (CInt true W32) 3 (-5) = Ok (-2) /\
  m_op (s_add MinTimesSemiring) (CInt false W8) 10 20 = Ok 10 /\
  s_mult MinTimesSemiring (CInt false W8) 12 20 = Ok 240 /\
  s_zero MinMaxSemiring (CInt false W8) = 255 /\
  s_mult ArithmeticSemiring (CInt false W8) 100 100 = Ok 16.
Proof. split; [left; reflexivity|]. split; [exists W8; reflexivity|]. repeat split. Qed.

(** ** C40 *)
Local Open Scope nat_scope.
Theorem C40_mxm_associative :
  forall (T TM : Type) (add mult : T -> T -> T) (truthy : TM -> bool) (o1 o2 o3 o4 : outmode)
    (A B D P Q R S' : lil T),
    (forall x y z, add (add x y) z = add x (add y z)) -> (forall x y, add x y = add y x) ->
    (forall x y z, mult (mult x y) z = mult x (mult y z)) ->
    (forall x y z, mult x (add y z) = add (mult x y) (mult x z)) ->
    (forall x y z, mult (add x y) z = add (mult x z) (mult y z)) ->
    wfm A -> wfm B -> wfm D -> wfm P -> wfm Q -> wfm R -> wfm S' ->
    ncols A = nrows B -> ncols B = nrows D ->
    nrows P = nrows A -> ncols P = ncols B -> nrows Q = nrows B -> ncols Q = ncols D ->
    nrows R = nrows A -> ncols R = ncols D -> nrows S' = nrows A -> ncols S' = ncols D ->
    let prod o C X Y := mxm add mult mult (fun v => v) (fun v => v) truthy (fun v => v)
                          (NoAcc (fun v => v)) (@NoMask (lil TM)) o C (Mat X) (Mat Y) in
    exists X, (AB <- prod o1 P A B ;; prod o2 R AB D) = Ok X /\
              (BD <- prod o3 Q B D ;; prod o4 S' A BD) = Ok X.
Proof. exact @mxm_assoc. Qed.
Print Assumptions C40_mxm_associative.

Theorem C40_transpose_of_product :
  forall (T TM : Type) (add mult : T -> T -> T) (truthy : TM -> bool) (o1 o2 o3 o4 : outmode)
    (A B At Bt P Q R S' : lil T),
    (forall x y, mult x y = mult y x) ->
    wfm A -> wfm B -> wfm At -> wfm Bt -> wfm P -> wfm Q -> wfm R -> wfm S' ->
    ncols A = nrows B ->
    nrows At = ncols A -> ncols At = nrows A -> (forall i j, mget At j i = mget A i j) ->
    nrows Bt = ncols B -> ncols Bt = nrows B -> (forall i j, mget Bt j i = mget B i j) ->
    nrows P = nrows A -> ncols P = ncols B -> nrows Q = ncols B -> ncols Q = nrows A ->
    nrows R = ncols B -> ncols R = nrows A -> nrows S' = ncols B -> ncols S' = nrows A ->
    let prod o C X Y := mxm add mult mult (fun v => v) (fun v => v) truthy (fun v => v)
                          (NoAcc (fun v => v)) (@NoMask (lil TM)) o C X Y in
    exists X,
      (AB <- prod o1 P (Mat A) (Mat B) ;;
       transpose truthy (fun v => v) (NoAcc (fun v => v)) (@NoMask (lil TM)) o2 Q (Mat AB)) = Ok X /\
      prod o3 R (Trn B) (Trn A) = Ok X /\ prod o4 S' (Mat Bt) (Mat At) = Ok X.
Proof. exact @mxm_transpose. Qed.
Print Assumptions C40_transpose_of_product.

Definition ea_A : lil Z := mkLil 2 2 3 [[(0, 1%Z); (1, 2%Z)]; [(0, 3%Z)]].
Definition ea_B : lil Z := mkLil 2 2 2 [[(0, 4%Z)]; [(1, (-5)%Z)]].
Definition ea_0 : lil Z := mkLil 2 2 1 [[]; [(1, 99%Z)]].
Example C40_example :
  wfm ea_A /\ wfm ea_B /\ wfm ea_0 /\
  let prod C X Y := mxm Z.add Z.mul Z.mul (fun v => v) (fun v => v) (fun b : bool => b)
                      (fun v => v) (NoAcc (fun v => v)) NoMask REPLACE C X Y in
  (AB <- prod ea_0 (Mat ea_A) (Mat ea_B) ;; prod ea_0 (Mat AB) (Mat ea_A)) =
    Ok (mkLil 2 2 4 [[(0, (-26)%Z); (1, 8%Z)]; [(0, 12%Z); (1, 24%Z)]]) /\
  prod ea_0 (Trn ea_B) (Trn ea_A) =
    Ok (mkLil 2 2 3 [[(0, 4%Z); (1, 12%Z)]; [(0, (-10)%Z)]]).
Proof. split; [wf_mat|]. split; [wf_mat|]. split; [wf_mat|]. split; reflexivity. Qed.
