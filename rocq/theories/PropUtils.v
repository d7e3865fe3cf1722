(** Properties of the convenience functions of matrix_utils.hpp: C48, C57. *)
From Coq Require Import Lia QArith Qcanon.
From Verif Require Import Base ModelLil ModelVec ModelHelpers ModelViews ModelMul ModelElem
  ModelUtils Spec SpecOps ProofUtils.
Local Open Scope nat_scope.

(** ** C48 *)
Theorem C48_diag :
  forall (S T : Type) (c : S -> T) (v : bvec S),
    wfv v ->
    exists D, diag c v = Ok D /\ wfm D /\ nrows D = vsize v /\ ncols D = vsize v /\
      forall i j, mget D i j = if i =? j then option_map c (vget v i) else None.
Proof. exact (fun S T c v W => diag_ok c v (proj1 W)). Qed.
Print Assumptions C48_diag.

Theorem C48_scaled_identity :
  forall (T : Type) (n : nat) (x : T),
    exists D, scaled_identity n x = Ok D /\ wfm D /\ nrows D = n /\ ncols D = n /\
      forall i j, mget D i j = if (i =? j) && (i <? n) then Some x else None.
Proof. exact (fun T => @scaled_identity_ok T). Qed.
Print Assumptions C48_scaled_identity.

(** The elements of [A] on and below the diagonal go to [L], the others to [U]; what [L] and
    [U] stored elsewhere remains. *)
Theorem C48_split :
  forall (T : Type) (A L U : lil T),
    wfm A -> wfm L -> wfm U ->
    nrows L = nrows A -> ncols L = ncols A -> nrows U = nrows A -> ncols U = ncols A ->
    exists L' U', split A L U = Ok (L', U') /\ wfm L' /\ wfm U' /\
      nrows L' = nrows A /\ ncols L' = ncols A /\ nrows U' = nrows A /\ ncols U' = ncols A /\
      forall i j,
        mget L' i j = (if j <=? i then oadd (fun _ new => new) (mget L i j) (mget A i j)
                       else mget L i j) /\
        mget U' i j = (if i <? j then oadd (fun _ new => new) (mget U i j) (mget A i j)
                       else mget U i j).
Proof. exact (fun T => @split_ok T). Qed.
Print Assumptions C48_split.

Definition eu_v : bvec Z := mkVec 3 2%Z [5; 0; 7]%Z [true; false; true].
Definition eu_A : lil Z :=
  mkLil 2 3 4%Z [[(0, 1%Z); (2, 2%Z)]; [(0, 3%Z); (1, 4%Z)]].
Example C48_example :
  diag (fun v => v) eu_v = Ok (mkLil 3 3 2%Z [[(0, 5%Z)]; []; [(2, 7%Z)]]) /\
  scaled_identity 2 9%Z = Ok (mkLil 2 2 2%Z [[(0, 9%Z)]; [(1, 9%Z)]]) /\
  split eu_A (lil_new 2 3) (lil_new 2 3) =
    Ok (mkLil 2 3 3%Z [[(0, 1%Z)]; [(0, 3%Z); (1, 4%Z)]], mkLil 2 3 1%Z [[(2, 2%Z)]; []]).
Proof. repeat split. Qed.

(** ** C57 *)
Theorem C57_normalize_rows :
  forall (T : Type) (dflt : T) (add mult : T -> T -> T) (inv : T -> T) (A : lil T),
    wfm A -> nrows A <> 0 ->
    exists B, normalize_rows dflt add mult inv A = Ok B /\ wfm B /\
      nrows B = nrows A /\ ncols B = ncols A /\
      forall i j, i < nrows A -> j < ncols A ->
        mget B i j = omap2 (fun s v => mult (inv s) v)
          (osum add (map (mget A i) (seq 0 (ncols A)))) (mget A i j).
Proof. exact (fun T => @normalize_rows_ok T). Qed.
Print Assumptions C57_normalize_rows.

Theorem C57_rows_sum_to_one :
  forall (T : Type) (dflt : T) (add mult : T -> T -> T) (inv : T -> T) (one : T)
      (A B : lil T) (i : nat) (s : T),
    (forall x y z, mult x (add y z) = add (mult x y) (mult x z)) ->
    wfm A -> normalize_rows dflt add mult inv A = Ok B -> i < nrows A ->
    osum add (map (mget A i) (seq 0 (ncols A))) = Some s -> mult (inv s) s = one ->
    osum add (map (mget B i) (seq 0 (ncols A))) = Some one.
Proof. exact (fun T => @normalize_rows_sum T). Qed.
Print Assumptions C57_rows_sum_to_one.

Theorem C57_normalize_cols :
  forall (T : Type) (dflt : T) (add mult : T -> T -> T) (inv : T -> T) (A : lil T),
    wfm A -> nrows A <> 0 -> nrows A = ncols A ->
    exists B, normalize_cols dflt add mult inv A = Ok B /\ wfm B /\
      nrows B = nrows A /\ ncols B = ncols A /\
      forall i j, i < nrows A -> j < ncols A ->
        mget B i j = omap2 (fun s v => mult v (inv s))
          (osum add (map (fun k => mget A k j) (seq 0 (nrows A)))) (mget A i j).
Proof. exact (fun T => @normalize_cols_ok T). Qed.
Print Assumptions C57_normalize_cols.

(** The work vector of [normalize_cols] has one element per row, so the function works on
    square matrices only: every other matrix makes it throw. *)
Theorem C57_normalize_cols_throws :
  forall (T : Type) (dflt : T) (add mult : T -> T -> T) (inv : T -> T) (A : lil T),
    nrows A <> 0 -> nrows A <> ncols A ->
    normalize_cols dflt add mult inv A = Throw DimensionException.
Proof. exact (fun T => @normalize_cols_nonsquare T). Qed.
Print Assumptions C57_normalize_cols_throws.

Definition eu_Q : lil Qc :=
  mkLil 2 2 3%Z [[(0, 1%Qc); (1, Q2Qc (3#1))]; [(1, Q2Qc (5#1))]].
Theorem C57_normalize_cols_refuted :
  exists (A : lil Qc), wfm A /\ nrows A <> 0 /\ ncols A <> 0 /\
    normalize_cols 0%Qc Qcplus Qcmult Qcinv A = Throw DimensionException.
Proof.
  exists (mkLil 1 2 1%Z [[(0, 1%Qc)]]).
  split; [|repeat split; discriminate].
  split; [|reflexivity]. split; [reflexivity|]. repeat constructor.
Qed.
Print Assumptions C57_normalize_cols_refuted.

Example C57_example :
  normalize_rows 0%Q Qplus Qmult Qinv
    (mkLil 2 2 3%Z [[(0, 1%Q); (1, 3#1)]; [(1, 5#1)]]) =
    Ok (mkLil 2 2 3%Z [[(0, 1#4); (1, 3#4)]; [(1, 5#5)]]).
Proof. reflexivity. Qed.
Example C57_example_sum :
  exists B, normalize_rows 0%Qc Qcplus Qcmult Qcinv eu_Q = Ok B /\
    osum Qcplus (map (mget B 0) (seq 0 2)) = Some 1%Qc.
Proof.
  assert (W : wfm eu_Q) by (split; [split; [reflexivity|repeat constructor]|reflexivity]).
  destruct (C57_normalize_rows _ 0%Qc Qcplus Qcmult Qcinv eu_Q W) as (B & E & _); [discriminate|].
  exists B. split; [exact E|].
  apply (C57_rows_sum_to_one _ 0%Qc Qcplus Qcmult Qcinv 1%Qc eu_Q B 0 (1 + Q2Qc (3#1))%Qc);
    [exact Qcmult_plus_distr_r|exact W|exact E|simpl; lia|reflexivity|].
  apply Qc_is_canon. reflexivity.
Qed.
