(** Rounding errors of products and reductions over [float] and [double]: C138, C139; exactness for integers: C140. *)
From Coq Require Import Lia ZArith Floats.SpecFloat.
From Verif Require Import Base ModelLil ModelVec ModelHelpers ModelViews ModelMul ModelElem ModelUtils ModelAlgoBase ModelFloat ModelFloatOps
  Spec SpecOps SpecFloats SpecFpaths SpecIntPaths SpecMstTypes ProofRound ProofFloat ProofError ProofFloatOps SpecRel SpecError.

(** ** C138: sums of any finite values differ from the exact sums by at most (n - 1) u times the sum of the magnitudes. *)
Theorem C138_row_sums :
  forall (t : ftype) (w : bvec fval) (A : mview fval), mvalues t A -> wfv0 w -> wfview A -> vsize w = vrows A ->
    exists D, freduce t w A = Ok D /\ wfv D /\ vsize D = vsize w /\
      forall i, i < vsize w -> osums t (present (map (sview A i) (seq 0 (vcols A)))) (vget D i).
Proof. intros t w A VA WW WA S. apply freduce_sums; auto. Qed.
Print Assumptions C138_row_sums.

Theorem C138_vector_sum :
  forall (t : ftype) (val : fval) (u : bvec fval), vvalues t u -> wfvn u ->
    exists x, freduce_vs t val u = Ok x /\ sums t (present (map (vget u) (seq 0 (vsize u)))) x.
Proof. intros t val u V W. apply freduce_vs_sums; auto. Qed.
Print Assumptions C138_vector_sum.

(** The elements of a matrix, row by row. *)
Theorem C138_matrix_sum :
  forall (t : ftype) (val : fval) (A : lil fval), mvalues t (Mat A) -> wfm A ->
    exists x, freduce_ms t val A = Ok x /\
      sums t (present (flat_map (fun i => map (mget A i) (seq 0 (ncols A))) (seq 0 (nrows A)))) x.
Proof. intros t val A V W. apply freduce_ms_sums; auto. Qed.
Print Assumptions C138_matrix_sum.

(** 0.1, ten times, in [double]: the sum is not 1 but within the bound. *)
Definition tenth : fval := S754_finite false 7205759403792794 (-56).
Definition nearly_one : fval := S754_finite false 9007199254740991 (-53).
Definition tenths : bvec fval := mkVec 10 10%Z (repeat tenth 10) (repeat true 10).
Example C138_example :
  vvalues CDouble tenths /\ wfvn tenths /\ sum_in_range CDouble (repeat tenth 10) /\
  freduce_vs CDouble f0 tenths = Ok nearly_one /\ nearly_one <> f1 CDouble.
Proof.
  split; [|split; [|split; [|split; [reflexivity|discriminate]]]].
  - intros i x H. do 10 (destruct i as [|i]; [inversion H; reflexivity|]). destruct i; discriminate.
  - split; [split; reflexivity|discriminate].
  - split; [repeat constructor|vm_compute; discriminate].
Qed.

(** ** C139: products of any finite matrices differ from the exact products by at most n u (1 + u) times the sum of the magnitudes of the
    terms, and half of the smallest positive number for each term (underflow). *)
Theorem C139_mxm :
  forall (t : ftype) (C : lil fval) (A B : mview fval), mvalues t A -> mvalues t B -> wfm C -> wfview A -> wfview B ->
    nrows C = vrows A -> ncols C = vcols B -> vcols A = vrows B ->
    exists D, fmxm t C A B = Ok D /\ wfm D /\ nrows D = nrows C /\ ncols D = ncols C /\
      forall i j, i < nrows C -> j < ncols C ->
        odots t (present (map (fun k => opair (sview A i k) (sview B k j)) (seq 0 (vcols A)))) (mget D i j).
Proof. intros t C A B VA VB WC WA WB R1 R2 R3. apply fmxm_dots; auto. Qed.
Print Assumptions C139_mxm.

Theorem C139_mxv_vxm :
  forall (t : ftype) (w : bvec fval) (A : mview fval) (u : bvec fval), mvalues t A -> vvalues t u -> wfv0 w -> wfview A -> wfvn u ->
    (vsize w = vrows A -> vsize u = vcols A ->
     exists D, fmxv t w A u = Ok D /\ wfv D /\ vsize D = vsize w /\
       forall i, i < vsize w -> odots t (present (map (fun k => opair (sview A i k) (vget u k)) (seq 0 (vcols A)))) (vget D i)) /\
    (vsize w = vcols A -> vsize u = vrows A ->
     exists D, fvxm t w u A = Ok D /\ wfv D /\ vsize D = vsize w /\
       forall i, i < vsize w -> odots t (present (map (fun k => opair (vget u k) (sview A k i)) (seq 0 (vrows A)))) (vget D i)).
Proof. intros t w A u VA VU WW WA WU. split; intros S1 S2; [apply fmxv_dots|apply fvxm_dots]; auto. Qed.
Print Assumptions C139_mxv_vxm.

(** 0.1 * 0.1 + 0.1 * 0.1 in [double]. *)
Definition e139_A : lil fval := mkLil 1 2 2%Z [[(0, tenth); (1, tenth)]].
Definition e139_C : lil fval := mkLil 1 1 0%Z [[]].
Example C139_example :
  mvalues CDouble (Mat e139_A) /\ mvalues CDouble (Trn e139_A) /\ wfm e139_A /\
  dot_in_range CDouble [(tenth, tenth); (tenth, tenth)] /\
  exists x, fmxm CDouble e139_C (Mat e139_A) (Trn e139_A) = Ok (mkLil 1 1 1%Z [[(0, x)]]) /\
    (multiple CDouble x * ulps CDouble <> total (products CDouble [(tenth, tenth); (tenth, tenth)]))%Z.
Proof.
  assert (V : mvalues CDouble (Mat e139_A)).
  { intros i j x H. destruct i as [|i]; [|destruct i; discriminate]. destruct j as [|[|j]]; inversion H; reflexivity. }
  split; [exact V|]. split; [intros i j x H; apply (V j i); exact H|]. split; [repeat split; repeat constructor|]. split.
  - split; [repeat constructor|vm_compute; discriminate].
  - eexists. split; [reflexivity|vm_compute; discriminate].
Qed.

(** ** C140: elements that are integers: if the length of the inner dimension times the largest products does not exceed 2^prec,
    the results are those of integer arithmetic. *)
Theorem C140_mxm_exact :
  forall (t : ftype) (C : lil fval) (A B : mview Z) (A' B' : mview fval) (KA KB : Z), (1 <= KA)%Z -> (1 <= KB)%Z ->
    (Z.of_nat (vcols A) * (KA * KB) <= 2 ^ prec t)%Z ->
    viewrel (fexactly t KA) A A' -> viewrel (fexactly t KB) B B' -> wfm C -> nrows C = vrows A -> ncols C = vcols B -> vcols A = vrows B ->
    exists D, fmxm t C A' B' = Ok D /\ wfm D /\ nrows D = nrows C /\ ncols D = ncols C /\
      forall i j, i < nrows C -> j < ncols C ->
        orel (fexactly t (Z.of_nat (vcols A) * (KA * KB))) (smul Z.add Z.mul (vcols A) (sview A) (sview B) i j) (mget D i j).
Proof. intros t C A B A' B' KA KB K1 K2 HK HA HB WC R1 R2 R3. apply fmxm_exact; auto. Qed.
Print Assumptions C140_mxm_exact.

Theorem C140_mxv_vxm_exact :
  forall (t : ftype) (w : bvec fval) (A : mview Z) (A' : mview fval) (u : bvec Z) (u' : bvec fval) (KA KU : Z), (1 <= KA)%Z -> (1 <= KU)%Z ->
    (Z.of_nat (vsize u) * (KA * KU) <= 2 ^ prec t)%Z -> viewrel (fexactly t KA) A A' -> vrel (fexactly t KU) u u' -> wfv0 w ->
    (vsize w = vrows A -> vsize u = vcols A ->
     exists D, fmxv t w A' u' = Ok D /\ wfv D /\ vsize D = vsize w /\
       forall i, i < vsize w ->
         orel (fexactly t (Z.of_nat (vsize u) * (KA * KU))) (smulv Z.add Z.mul (vcols A) (sview A) (vget u) i) (vget D i)) /\
    (vsize w = vcols A -> vsize u = vrows A ->
     exists D, fvxm t w u' A' = Ok D /\ wfv D /\ vsize D = vsize w /\
       forall i, i < vsize w ->
         orel (fexactly t (Z.of_nat (vsize u) * (KA * KU))) (svmul Z.add Z.mul (vrows A) (vget u) (sview A) i) (vget D i)).
Proof.
  intros t w A A' u u' KA KU K1 K2 HK HA HU WW. split; intros S1 S2; rewrite S2 in *; [apply fmxv_exact|apply fvxm_exact]; auto.
Qed.
Print Assumptions C140_mxv_vxm_exact.

Theorem C140_reduce_exact :
  forall (t : ftype) (w : bvec fval) (A : mview Z) (A' : mview fval) (K : Z), (0 <= K)%Z ->
    (Z.of_nat (vcols A) * K <= 2 ^ prec t)%Z -> viewrel (fexactly t K) A A' -> wfv0 w -> vsize w = vrows A ->
    exists D, freduce t w A' = Ok D /\ wfv D /\ vsize D = vsize w /\
      forall i, i < vsize w ->
        orel (fexactly t (Z.of_nat (vcols A) * K)) (osum Z.add (map (sview A i) (seq 0 (vcols A)))) (vget D i).
Proof. intros t w A A' K K0 HK HA WW S. apply freduce_exact; auto. Qed.
Print Assumptions C140_reduce_exact.

(** [float]: 3 * 1000 - 4 * 7 = 2972; the bound is 2 * (4 * 1000) <= 2^24. *)
Definition e140_A : lil Z := mkLil 1 2 2%Z [[(0, 3%Z); (1, (-4)%Z)]].
Definition e140_B : lil Z := mkLil 2 1 2%Z [[(0, 1000%Z)]; [(0, 7%Z)]].
Definition e140_A' : lil fval := mkLil 1 2 2%Z [[(0, of_int CFloat 3); (1, of_int CFloat (-4))]].
Definition e140_B' : lil fval := mkLil 2 1 2%Z [[(0, of_int CFloat 1000)]; [(0, of_int CFloat 7)]].
Example C140_example :
  viewrel (fexactly CFloat 4) (Mat e140_A) (Mat e140_A') /\ viewrel (fexactly CFloat 1000) (Mat e140_B) (Mat e140_B') /\
  (Z.of_nat (vcols (Mat e140_A)) * (4 * 1000) <= 2 ^ prec CFloat)%Z /\
  fmxm CFloat e139_C (Mat e140_A') (Mat e140_B') = Ok (mkLil 1 1 1%Z [[(0, of_int CFloat 2972)]]).
Proof.
  split; [|split; [|split; [vm_compute; discriminate|reflexivity]]]; (split; [repeat split; repeat constructor|]);
    (split; [repeat split; repeat constructor|]); (split; [auto|]); (split; [auto|]).
  - intros i j. destruct i as [|i]; [|destruct i; exact I].
    destruct j as [|[|j]]; (exact I || (split; [split; [split; [reflexivity|discriminate]|reflexivity]|vm_compute; discriminate])).
  - intros i j. destruct i as [|[|i]]; [| |destruct i; exact I];
      (destruct j as [|j]; (exact I || (split; [split; [split; [reflexivity|discriminate]|reflexivity]|vm_compute; discriminate]))).
Qed.
