(** The tests of /repo/src/test/test_kronecker_AB.cpp, run on the model.  Generated translation. *)
From Verif Require Import TestRun.

Definition d_A_sparse_3x3 : list (list Q) :=
  [[1; 0; 0];
   [0; 2; 0];
   [3; 0; 4]]%Q.
Definition d_AA_sparse_9x9 : list (list Q) :=
  [[1; 0; 0; 0; 0; 0; 0; 0; 0];
   [0; 2; 0; 0; 0; 0; 0; 0; 0];
   [3; 0; 4; 0; 0; 0; 0; 0; 0];
   [0; 0; 0; 2; 0; 0; 0; 0; 0];
   [0; 0; 0; 0; 4; 0; 0; 0; 0];
   [0; 0; 0; 6; 0; 8; 0; 0; 0];
   [3; 0; 0; 0; 0; 0; 4; 0; 0];
   [0; 6; 0; 0; 0; 0; 0; 8; 0];
   [9; 0; 12; 0; 0; 0; 12; 0; 16]]%Q.
Definition d_Ar_sparse_3x3 : list (list Q) :=
  [[1; 0; 0];
   [0; 2; 0];
   [0; 0; 0]]%Q.
Definition d_Ac_sparse_3x3 : list (list Q) :=
  [[0; 0; 0];
   [0; 2; 0];
   [0; 0; 4]]%Q.
Definition d_B_sparse_3x4 : list (list Q) :=
  [[1; 1; 0; 0];
   [0; 2; 2; 0];
   [3; 0; 0; 3]]%Q.
Definition d_Br_sparse_3x4 : list (list Q) :=
  [[0; 0; 0; 0];
   [0; 2; 2; 0];
   [3; 0; 0; 3]]%Q.
Definition d_Bc_sparse_3x4 : list (list Q) :=
  [[1; 0; 0; 0];
   [0; 0; 2; 0];
   [3; 0; 0; 3]]%Q.
Definition d_Answer_rr_sparse_9x12 : list (list Q) :=
  [[0; 0; 0; 0; 0; 0; 0; 0; 0; 0; 0; 0];
   [0; 2; 2; 0; 0; 0; 0; 0; 0; 0; 0; 0];
   [3; 0; 0; 3; 0; 0; 0; 0; 0; 0; 0; 0];
   [0; 0; 0; 0; 0; 0; 0; 0; 0; 0; 0; 0];
   [0; 0; 0; 0; 0; 4; 4; 0; 0; 0; 0; 0];
   [0; 0; 0; 0; 6; 0; 0; 6; 0; 0; 0; 0];
   [0; 0; 0; 0; 0; 0; 0; 0; 0; 0; 0; 0];
   [0; 0; 0; 0; 0; 0; 0; 0; 0; 0; 0; 0];
   [0; 0; 0; 0; 0; 0; 0; 0; 0; 0; 0; 0]]%Q.
Definition d_Answer_sparse_9x12 : list (list Q) :=
  [[1; 1; 0; 0; 0; 0; 0; 0; 0; 0; 0; 0];
   [0; 2; 2; 0; 0; 0; 0; 0; 0; 0; 0; 0];
   [3; 0; 0; 3; 0; 0; 0; 0; 0; 0; 0; 0];
   [0; 0; 0; 0; 2; 2; 0; 0; 0; 0; 0; 0];
   [0; 0; 0; 0; 0; 4; 4; 0; 0; 0; 0; 0];
   [0; 0; 0; 0; 6; 0; 0; 6; 0; 0; 0; 0];
   [3; 3; 0; 0; 0; 0; 0; 0; 4; 4; 0; 0];
   [0; 6; 6; 0; 0; 0; 0; 0; 0; 8; 8; 0];
   [9; 0; 0; 9; 0; 0; 0; 0; 12; 0; 0; 12]]%Q.
Definition d_Answer_sparse_9x12_Lower : list (list Q) :=
  [[1; 0; 0; 0; 0; 0; 0; 0; 0; 0; 0; 0];
   [0; 2; 0; 0; 0; 0; 0; 0; 0; 0; 0; 0];
   [3; 0; 0; 0; 0; 0; 0; 0; 0; 0; 0; 0];
   [0; 0; 0; 0; 0; 0; 0; 0; 0; 0; 0; 0];
   [0; 0; 0; 0; 0; 0; 0; 0; 0; 0; 0; 0];
   [0; 0; 0; 0; 6; 0; 0; 0; 0; 0; 0; 0];
   [3; 3; 0; 0; 0; 0; 0; 0; 0; 0; 0; 0];
   [0; 6; 6; 0; 0; 0; 0; 0; 0; 0; 0; 0];
   [9; 0; 0; 9; 0; 0; 0; 0; 12; 0; 0; 0]]%Q.
Definition d_Answer_sparse_9x12_Lower_Ones : list (list Q) :=
  [[1; 1; 1; 1; 1; 1; 1; 1; 1; 1; 1; 1];
   [0; 2; 1; 1; 1; 1; 1; 1; 1; 1; 1; 1];
   [3; 0; 0; 1; 1; 1; 1; 1; 1; 1; 1; 1];
   [0; 0; 0; 0; 1; 1; 1; 1; 1; 1; 1; 1];
   [0; 0; 0; 0; 0; 1; 1; 1; 1; 1; 1; 1];
   [0; 0; 0; 0; 6; 0; 1; 1; 1; 1; 1; 1];
   [3; 3; 0; 0; 0; 0; 0; 1; 1; 1; 1; 1];
   [0; 6; 6; 0; 0; 0; 0; 0; 1; 1; 1; 1];
   [9; 0; 0; 9; 0; 0; 0; 0; 12; 1; 1; 1]]%Q.
Definition d_Answer_sparse_9x12_NotLower : list (list Q) :=
  [[0; 1; 0; 0; 0; 0; 0; 0; 0; 0; 0; 0];
   [0; 0; 2; 0; 0; 0; 0; 0; 0; 0; 0; 0];
   [0; 0; 0; 3; 0; 0; 0; 0; 0; 0; 0; 0];
   [0; 0; 0; 0; 2; 2; 0; 0; 0; 0; 0; 0];
   [0; 0; 0; 0; 0; 4; 4; 0; 0; 0; 0; 0];
   [0; 0; 0; 0; 0; 0; 0; 6; 0; 0; 0; 0];
   [0; 0; 0; 0; 0; 0; 0; 0; 4; 4; 0; 0];
   [0; 0; 0; 0; 0; 0; 0; 0; 0; 8; 8; 0];
   [0; 0; 0; 0; 0; 0; 0; 0; 0; 0; 0; 12]]%Q.
Definition d_Answer_sparse_9x12_NotLower_Ones : list (list Q) :=
  [[1; 1; 0; 0; 0; 0; 0; 0; 0; 0; 0; 0];
   [1; 1; 2; 0; 0; 0; 0; 0; 0; 0; 0; 0];
   [1; 1; 1; 3; 0; 0; 0; 0; 0; 0; 0; 0];
   [1; 1; 1; 1; 2; 2; 0; 0; 0; 0; 0; 0];
   [1; 1; 1; 1; 1; 4; 4; 0; 0; 0; 0; 0];
   [1; 1; 1; 1; 1; 1; 0; 6; 0; 0; 0; 0];
   [1; 1; 1; 1; 1; 1; 1; 0; 4; 4; 0; 0];
   [1; 1; 1; 1; 1; 1; 1; 1; 0; 8; 8; 0];
   [1; 1; 1; 1; 1; 1; 1; 1; 1; 0; 0; 12]]%Q.
Definition d_Answer_rc_sparse_9x12 : list (list Q) :=
  [[1; 0; 0; 0; 0; 0; 0; 0; 0; 0; 0; 0];
   [0; 0; 2; 0; 0; 0; 0; 0; 0; 0; 0; 0];
   [3; 0; 0; 3; 0; 0; 0; 0; 0; 0; 0; 0];
   [0; 0; 0; 0; 2; 0; 0; 0; 0; 0; 0; 0];
   [0; 0; 0; 0; 0; 0; 4; 0; 0; 0; 0; 0];
   [0; 0; 0; 0; 6; 0; 0; 6; 0; 0; 0; 0];
   [0; 0; 0; 0; 0; 0; 0; 0; 0; 0; 0; 0];
   [0; 0; 0; 0; 0; 0; 0; 0; 0; 0; 0; 0];
   [0; 0; 0; 0; 0; 0; 0; 0; 0; 0; 0; 0]]%Q.
Definition d_Answer_cr_sparse_9x12 : list (list Q) :=
  [[0; 0; 0; 0; 0; 0; 0; 0; 0; 0; 0; 0];
   [0; 0; 0; 0; 0; 0; 0; 0; 0; 0; 0; 0];
   [0; 0; 0; 0; 0; 0; 0; 0; 0; 0; 0; 0];
   [0; 0; 0; 0; 0; 0; 0; 0; 0; 0; 0; 0];
   [0; 0; 0; 0; 0; 4; 4; 0; 0; 0; 0; 0];
   [0; 0; 0; 0; 6; 0; 0; 6; 0; 0; 0; 0];
   [0; 0; 0; 0; 0; 0; 0; 0; 0; 0; 0; 0];
   [0; 0; 0; 0; 0; 0; 0; 0; 0; 8; 8; 0];
   [0; 0; 0; 0; 0; 0; 0; 0; 12; 0; 0; 12]]%Q.
Definition d_Ones_3x4 : list (list Q) :=
  [[1; 1; 1; 1];
   [1; 1; 1; 1];
   [1; 1; 1; 1]]%Q.
Definition d_Ones_3x3 : list (list Q) :=
  [[1; 1; 1];
   [1; 1; 1];
   [1; 1; 1]]%Q.
Definition d_Ones_9x9 : list (list Q) :=
  [[1; 1; 1; 1; 1; 1; 1; 1; 1];
   [1; 1; 1; 1; 1; 1; 1; 1; 1];
   [1; 1; 1; 1; 1; 1; 1; 1; 1];
   [1; 1; 1; 1; 1; 1; 1; 1; 1];
   [1; 1; 1; 1; 1; 1; 1; 1; 1];
   [1; 1; 1; 1; 1; 1; 1; 1; 1];
   [1; 1; 1; 1; 1; 1; 1; 1; 1];
   [1; 1; 1; 1; 1; 1; 1; 1; 1];
   [1; 1; 1; 1; 1; 1; 1; 1; 1]]%Q.
Definition d_Ones_9x12 : list (list Q) :=
  [[1; 1; 1; 1; 1; 1; 1; 1; 1; 1; 1; 1];
   [1; 1; 1; 1; 1; 1; 1; 1; 1; 1; 1; 1];
   [1; 1; 1; 1; 1; 1; 1; 1; 1; 1; 1; 1];
   [1; 1; 1; 1; 1; 1; 1; 1; 1; 1; 1; 1];
   [1; 1; 1; 1; 1; 1; 1; 1; 1; 1; 1; 1];
   [1; 1; 1; 1; 1; 1; 1; 1; 1; 1; 1; 1];
   [1; 1; 1; 1; 1; 1; 1; 1; 1; 1; 1; 1];
   [1; 1; 1; 1; 1; 1; 1; 1; 1; 1; 1; 1];
   [1; 1; 1; 1; 1; 1; 1; 1; 1; 1; 1; 1]]%Q.
Definition d_Identity_3x3 : list (list Q) :=
  [[1; 0; 0];
   [0; 1; 0];
   [0; 0; 1]]%Q.
Definition d_Lower_3x4 : list (list Q) :=
  [[1; 0; 0; 0];
   [1; 1; 0; 0];
   [1; 1; 1; 0]]%Q.
Definition d_NotLower_3x4 : list (list Q) :=
  [[0; 1; 1; 1];
   [0; 0; 1; 1];
   [0; 0; 0; 1]]%Q.
Definition d_Lower_9x9 : list (list Q) :=
  [[1; 0; 0; 0; 0; 0; 0; 0; 0];
   [1; 1; 0; 0; 0; 0; 0; 0; 0];
   [1; 1; 1; 0; 0; 0; 0; 0; 0];
   [1; 1; 1; 1; 0; 0; 0; 0; 0];
   [1; 1; 1; 1; 1; 0; 0; 0; 0];
   [1; 1; 1; 1; 1; 1; 0; 0; 0];
   [1; 1; 1; 1; 1; 1; 1; 0; 0];
   [1; 1; 1; 1; 1; 1; 1; 1; 0];
   [1; 1; 1; 1; 1; 1; 1; 1; 1]]%Q.
Definition d_NotLower_9x9 : list (list Q) :=
  [[0; 1; 1; 1; 1; 1; 1; 1; 1];
   [0; 0; 1; 1; 1; 1; 1; 1; 1];
   [0; 0; 0; 1; 1; 1; 1; 1; 1];
   [0; 0; 0; 0; 1; 1; 1; 1; 1];
   [0; 0; 0; 0; 0; 1; 1; 1; 1];
   [0; 0; 0; 0; 0; 0; 1; 1; 1];
   [0; 0; 0; 0; 0; 0; 0; 1; 1];
   [0; 0; 0; 0; 0; 0; 0; 0; 1];
   [0; 0; 0; 0; 0; 0; 0; 0; 0]]%Q.
Definition d_Lower_9x12 : list (list Q) :=
  [[1; 0; 0; 0; 0; 0; 0; 0; 0; 0; 0; 0];
   [1; 1; 0; 0; 0; 0; 0; 0; 0; 0; 0; 0];
   [1; 1; 1; 0; 0; 0; 0; 0; 0; 0; 0; 0];
   [1; 1; 1; 1; 0; 0; 0; 0; 0; 0; 0; 0];
   [1; 1; 1; 1; 1; 0; 0; 0; 0; 0; 0; 0];
   [1; 1; 1; 1; 1; 1; 0; 0; 0; 0; 0; 0];
   [1; 1; 1; 1; 1; 1; 1; 0; 0; 0; 0; 0];
   [1; 1; 1; 1; 1; 1; 1; 1; 0; 0; 0; 0];
   [1; 1; 1; 1; 1; 1; 1; 1; 1; 0; 0; 0]]%Q.
Definition d_NotLower_9x12 : list (list Q) :=
  [[0; 1; 1; 1; 1; 1; 1; 1; 1; 1; 1; 1];
   [0; 0; 1; 1; 1; 1; 1; 1; 1; 1; 1; 1];
   [0; 0; 0; 1; 1; 1; 1; 1; 1; 1; 1; 1];
   [0; 0; 0; 0; 1; 1; 1; 1; 1; 1; 1; 1];
   [0; 0; 0; 0; 0; 1; 1; 1; 1; 1; 1; 1];
   [0; 0; 0; 0; 0; 0; 1; 1; 1; 1; 1; 1];
   [0; 0; 0; 0; 0; 0; 0; 1; 1; 1; 1; 1];
   [0; 0; 0; 0; 0; 0; 0; 0; 1; 1; 1; 1];
   [0; 0; 0; 0; 0; 0; 0; 0; 0; 1; 1; 1]]%Q.
Definition d_M_9x9 : list (list Q) :=
  [[1; 0; 0; 1; 0; 0; 1; 0; 0];
   [1; 1; 0; 1; 1; 0; 1; 1; 0];
   [1; 1; 1; 1; 1; 1; 1; 1; 1];
   [1; 0; 0; 1; 0; 0; 1; 0; 0];
   [1; 1; 0; 1; 1; 0; 1; 1; 0];
   [1; 1; 1; 1; 1; 1; 1; 1; 1];
   [1; 0; 0; 1; 0; 0; 1; 0; 0];
   [1; 1; 0; 1; 1; 0; 1; 1; 0];
   [1; 1; 1; 1; 1; 1; 1; 1; 1]]%Q.
Definition d_M_9x12 : list (list Q) :=
  [[1; 0; 0; 1; 0; 0; 1; 0; 0; 1; 0; 0];
   [1; 1; 0; 1; 1; 0; 1; 1; 0; 1; 1; 0];
   [1; 1; 1; 1; 1; 1; 1; 1; 1; 1; 1; 1];
   [1; 0; 0; 1; 0; 0; 1; 0; 0; 1; 0; 0];
   [1; 1; 0; 1; 1; 0; 1; 1; 0; 1; 1; 0];
   [1; 1; 1; 1; 1; 1; 1; 1; 1; 1; 1; 1];
   [1; 0; 0; 1; 0; 0; 1; 0; 0; 1; 0; 0];
   [1; 1; 0; 1; 1; 0; 1; 1; 0; 1; 1; 0];
   [1; 1; 1; 1; 1; 1; 1; 1; 1; 1; 1; 1]]%Q.
Definition d_M_10x12 : list (list Q) :=
  [[1; 0; 0; 1; 0; 0; 1; 0; 0; 1; 0; 0];
   [1; 1; 0; 1; 1; 0; 1; 1; 0; 1; 1; 0];
   [1; 1; 1; 1; 1; 1; 1; 1; 1; 1; 1; 1];
   [1; 0; 0; 1; 0; 0; 1; 0; 0; 1; 0; 0];
   [1; 1; 0; 1; 1; 0; 1; 1; 0; 1; 1; 0];
   [1; 1; 1; 1; 1; 1; 1; 1; 1; 1; 1; 1];
   [1; 0; 0; 1; 0; 0; 1; 0; 0; 1; 0; 0];
   [1; 1; 0; 1; 1; 0; 1; 1; 0; 1; 1; 0];
   [1; 1; 1; 1; 1; 1; 1; 1; 1; 1; 1; 1];
   [1; 1; 1; 1; 1; 1; 1; 1; 1; 1; 1; 1]]%Q.

(** test_kronecker_AB.cpp:393-495 *)
Example test_kronecker_bad_dimensions :
 (x_A <- mdense0 TyD d_A_sparse_3x3 0%Q ;;
  x_B <- mdense0 TyD d_B_sparse_3x4 0%Q ;;
  x_ones9x12 <- mdense0 TyD d_Ones_9x12 0%Q ;;
  x_M9x9 <- mdense0 TyD d_M_9x9 0%Q ;;
  x_M9x12 <- mdense0 TyD d_M_9x12 0%Q ;;
  x_M10x12 <- mdense0 TyD d_M_10x12 0%Q ;;
  x_result9x12 <- mnew 9 12 ;;
  x_result9x9 <- mnew 9 9 ;;
  x_result12x12 <- mnew 12 12 ;;
  _ <- throws DimensionException (t_kronecker TyD noacc qtimes NoMask MERGE x_result9x9 (Mat x_A)
    (Mat x_B)) ;;
  _ <- throws DimensionException (t_kronecker TyD noacc qtimes NoMask MERGE x_result12x12 (Mat x_A)
    (Mat x_B)) ;;
  _ <- throws DimensionException (t_kronecker TyD (acc TyD qplus) qtimes NoMask MERGE x_result9x9
    (Mat x_A) (Mat x_B)) ;;
  _ <- throws DimensionException (t_kronecker TyD (acc TyD qplus) qtimes NoMask MERGE x_result12x12
    (Mat x_A) (Mat x_B)) ;;
  _ <- throws DimensionException (t_kronecker TyD noacc qtimes (MVal x_M10x12) MERGE x_result9x12
    (Mat x_A) (Mat x_B)) ;;
  _ <- throws DimensionException (t_kronecker TyD noacc qtimes (MVal x_M9x9) MERGE x_result9x12 (Mat
    x_A) (Mat x_B)) ;;
  _ <- throws DimensionException (t_kronecker TyD noacc qtimes (MVal x_M9x12) REPLACE x_ones9x12
    (Mat x_A) (Mat x_A)) ;;
  _ <- throws DimensionException (t_kronecker TyD (acc TyD qsecond) qtimes (MVal x_M10x12) REPLACE
    x_ones9x12 (Mat x_A) (Mat x_B)) ;;
  _ <- throws DimensionException (t_kronecker TyD (acc TyD qsecond) qtimes (MVal x_M9x9) MERGE
    x_ones9x12 (Mat x_A) (Mat x_B)) ;;
  _ <- throws DimensionException (t_kronecker TyD noacc qtimes (MComp x_M10x12) REPLACE x_ones9x12
    (Mat x_A) (Mat x_B)) ;;
  _ <- throws DimensionException (t_kronecker TyD noacc qtimes (MComp x_M9x9) MERGE x_ones9x12 (Mat
    x_A) (Mat x_B)) ;;
  _ <- throws DimensionException (t_kronecker TyD (acc TyD qplus) qtimes (MComp x_M10x12) REPLACE
    x_ones9x12 (Mat x_A) (Mat x_B)) ;;
  _ <- throws DimensionException (t_kronecker TyD (acc TyD qplus) qtimes (MComp x_M9x9) MERGE
    x_ones9x12 (Mat x_A) (Mat x_B)) ;;
  Ok tt) = Ok tt.
Proof. vm_compute. reflexivity. Qed.

(** test_kronecker_AB.cpp:502-514 *)
Example test_kronecker_NoMask_NoAccum_AB :
 (x_C <- mnew 9 12 ;;
  x_A <- mdense0 TyD d_A_sparse_3x3 0%Q ;;
  x_B <- mdense0 TyD d_B_sparse_3x4 0%Q ;;
  x_answer <- mdense0 TyD d_Answer_sparse_9x12 0%Q ;;
  x_C_1 <- t_kronecker TyD noacc qtimes NoMask MERGE x_C (Mat x_A) (Mat x_B) ;;
  x_q <- meq x_C_1 x_answer ;;
  _ <- check x_q ;;
  Ok tt) = Ok tt.
Proof. vm_compute. reflexivity. Qed.

(** test_kronecker_AB.cpp:517-530 *)
Example test_kronecker_NoMask_NoAccum_AB_empty :
 (x_Zero <- mnew 3 3 ;;
  x_Ones <- mdense0 TyD d_Ones_3x3 0%Q ;;
  x_C <- mdense0 TyD d_Ones_9x9 0%Q ;;
  x_mD <- mdense0 TyD d_Ones_9x9 0%Q ;;
  x_Zero9x9 <- mnew 9 9 ;;
  x_C_1 <- t_kronecker TyD noacc qtimes NoMask MERGE x_C (Mat x_Zero) (Mat x_Ones) ;;
  x_q <- meq x_C_1 x_Zero9x9 ;;
  _ <- check x_q ;;
  x_mD_1 <- t_kronecker TyD noacc qtimes NoMask MERGE x_mD (Mat x_Ones) (Mat x_Zero) ;;
  x_q_1 <- meq x_mD_1 x_Zero9x9 ;;
  _ <- check x_q_1 ;;
  Ok tt) = Ok tt.
Proof. vm_compute. reflexivity. Qed.

(** test_kronecker_AB.cpp:533-544 *)
Example test_kronecker_NoMask_NoAccum_AB_dense :
 (x_Ones3x3 <- mdense0 TyD d_Ones_3x3 0%Q ;;
  x_Ones3x4 <- mdense0 TyD d_Ones_3x4 0%Q ;;
  x_Ones9x12 <- mdense0 TyD d_Ones_9x12 0%Q ;;
  x_result <- mnew 9 12 ;;
  x_result_1 <- t_kronecker TyD noacc qtimes NoMask MERGE x_result (Mat x_Ones3x3) (Mat x_Ones3x4)
    ;;
  x_q <- meq x_result_1 x_Ones9x12 ;;
  _ <- check x_q ;;
  Ok tt) = Ok tt.
Proof. vm_compute. reflexivity. Qed.

(** test_kronecker_AB.cpp:547-559 *)
Example test_kronecker_NoMask_NoAccum_AB_empty_rows :
 (x_C <- mnew 9 12 ;;
  x_A <- mdense0 TyD d_Ar_sparse_3x3 0%Q ;;
  x_B <- mdense0 TyD d_Br_sparse_3x4 0%Q ;;
  x_answer <- mdense0 TyD d_Answer_rr_sparse_9x12 0%Q ;;
  x_C_1 <- t_kronecker TyD noacc qtimes NoMask MERGE x_C (Mat x_A) (Mat x_B) ;;
  x_q <- meq x_C_1 x_answer ;;
  _ <- check x_q ;;
  Ok tt) = Ok tt.
Proof. vm_compute. reflexivity. Qed.

(** test_kronecker_AB.cpp:562-572 *)
Example test_kronecker_NoMask_NoAccum_AB_emptyRowA_emptyColB :
 (x_result <- mnew 9 12 ;;
  x_A <- mdense0 TyD d_Ar_sparse_3x3 0%Q ;;
  x_B <- mdense0 TyD d_Bc_sparse_3x4 0%Q ;;
  x_answer <- mdense0 TyD d_Answer_rc_sparse_9x12 0%Q ;;
  x_result_1 <- t_kronecker TyD noacc qtimes NoMask MERGE x_result (Mat x_A) (Mat x_B) ;;
  x_q <- meq x_result_1 x_answer ;;
  _ <- check x_q ;;
  Ok tt) = Ok tt.
Proof. vm_compute. reflexivity. Qed.

(** test_kronecker_AB.cpp:575-585 *)
Example test_kronecker_NoMask_NoAccum_AB_emptyColA_emptyRowB :
 (x_result <- mnew 9 12 ;;
  x_A <- mdense0 TyD d_Ac_sparse_3x3 0%Q ;;
  x_B <- mdense0 TyD d_Br_sparse_3x4 0%Q ;;
  x_answer <- mdense0 TyD d_Answer_cr_sparse_9x12 0%Q ;;
  x_result_1 <- t_kronecker TyD noacc qtimes NoMask MERGE x_result (Mat x_A) (Mat x_B) ;;
  x_q <- meq x_result_1 x_answer ;;
  _ <- check x_q ;;
  Ok tt) = Ok tt.
Proof. vm_compute. reflexivity. Qed.

(** test_kronecker_AB.cpp:588-599 *)
Example test_kronecker_NoMask_NoAccum_AB_ABdup :
 (x_mat <- mdense0 TyD d_A_sparse_3x3 0%Q ;;
  x_m3 <- mnew 9 9 ;;
  x_answer <- mdense0 TyD d_AA_sparse_9x9 0%Q ;;
  x_m3_1 <- t_kronecker TyD noacc qtimes NoMask MERGE x_m3 (Mat x_mat) (Mat x_mat) ;;
  x_q <- meq x_m3_1 x_answer ;;
  _ <- check x_q ;;
  Ok tt) = Ok tt.
Proof. vm_compute. reflexivity. Qed.

(** test_kronecker_AB.cpp:602-614 *)
Example test_kronecker_NoMask_NoAccum_AB_ACdup :
 (x_C <- mdense0 TyD d_A_sparse_3x3 0%Q ;;
  x_B <- mnew 1 1 ;;
  x_B_1 <- lil_setElement x_B 0 0 (cast TyD 1%Q) ;;
  x_answer <- mdense0 TyD d_A_sparse_3x3 0%Q ;;
  x_C_1 <- t_kronecker TyD noacc qtimes NoMask MERGE x_C (Mat x_C) (Mat x_B_1) ;;
  x_q <- meq x_C_1 x_answer ;;
  _ <- check x_q ;;
  Ok tt) = Ok tt.
Proof. vm_compute. reflexivity. Qed.

(** test_kronecker_AB.cpp:617-629 *)
Example test_kronecker_NoMask_NoAccum_AB_BCdup :
 (x_A <- mnew 1 1 ;;
  x_C <- mdense0 TyD d_A_sparse_3x3 0%Q ;;
  x_A_1 <- lil_setElement x_A 0 0 (cast TyD 1%Q) ;;
  x_answer <- mdense0 TyD d_A_sparse_3x3 0%Q ;;
  x_C_1 <- t_kronecker TyD noacc qtimes NoMask MERGE x_C (Mat x_A_1) (Mat x_C) ;;
  x_q <- meq x_C_1 x_answer ;;
  _ <- check x_q ;;
  Ok tt) = Ok tt.
Proof. vm_compute. reflexivity. Qed.

(** test_kronecker_AB.cpp:637-651 *)
Example test_kronecker_NoMask_Accum_AB :
 (x_C <- mdense0 TyD d_Ones_9x12 0%Q ;;
  x_A <- mdense0 TyD d_A_sparse_3x3 0%Q ;;
  x_B <- mdense0 TyD d_B_sparse_3x4 0%Q ;;
  x_answer <- mdense0 TyD d_Answer_sparse_9x12 0%Q ;;
  x_answer_1 <- t_eWiseAdd TyD noacc TyD TyD qplus NoMask MERGE x_answer (Mat x_answer) (Mat x_C) ;;
  x_C_1 <- t_kronecker TyD (acc TyD qplus) qtimes NoMask MERGE x_C (Mat x_A) (Mat x_B) ;;
  x_q <- meq x_C_1 x_answer_1 ;;
  _ <- check x_q ;;
  Ok tt) = Ok tt.
Proof. vm_compute. reflexivity. Qed.

(** test_kronecker_AB.cpp:654-667 *)
Example test_kronecker_NoMask_Accum_AB_empty :
 (x_Zero <- mnew 3 3 ;;
  x_Ones <- mdense0 TyD d_Ones_3x3 0%Q ;;
  x_C <- mdense0 TyD d_Ones_9x9 0%Q ;;
  x_mD <- mdense0 TyD d_Ones_9x9 0%Q ;;
  x_answer <- mdense0 TyD d_Ones_9x9 0%Q ;;
  x_C_1 <- t_kronecker TyD (acc TyD qplus) qtimes NoMask MERGE x_C (Mat x_Zero) (Mat x_Ones) ;;
  x_q <- meq x_C_1 x_answer ;;
  _ <- check x_q ;;
  x_mD_1 <- t_kronecker TyD (acc TyD qplus) qtimes NoMask MERGE x_mD (Mat x_Ones) (Mat x_Zero) ;;
  x_q_1 <- meq x_mD_1 x_answer ;;
  _ <- check x_q_1 ;;
  Ok tt) = Ok tt.
Proof. vm_compute. reflexivity. Qed.

(** test_kronecker_AB.cpp:670-684 *)
Example test_kronecker_NoMask_Accum_AB_dense :
 (x_Ones3x3 <- mdense0 TyD d_Ones_3x3 0%Q ;;
  x_Ones3x4 <- mdense0 TyD d_Ones_3x4 0%Q ;;
  x_Ones9x12 <- mdense0 TyD d_Ones_9x12 0%Q ;;
  x_result <- mdense0 TyD d_Ones_9x12 0%Q ;;
  x_answer <- mnew 9 12 ;;
  x_answer_1 <- t_eWiseAdd TyD noacc TyD TyD qplus NoMask MERGE x_answer (Mat x_Ones9x12) (Mat
    x_Ones9x12) ;;
  x_result_1 <- t_kronecker TyD (acc TyD qplus) qtimes NoMask MERGE x_result (Mat x_Ones3x3) (Mat
    x_Ones3x4) ;;
  x_q <- meq x_result_1 x_answer_1 ;;
  _ <- check x_q ;;
  Ok tt) = Ok tt.
Proof. vm_compute. reflexivity. Qed.

(** test_kronecker_AB.cpp:687-699 *)
Example test_kronecker_NoMask_Accum_AB_empty_rows :
 (x_C <- mdense0 TyD d_Ones_9x12 0%Q ;;
  x_A <- mdense0 TyD d_Ar_sparse_3x3 0%Q ;;
  x_B <- mdense0 TyD d_Br_sparse_3x4 0%Q ;;
  x_answer <- mdense0 TyD d_Answer_rr_sparse_9x12 0%Q ;;
  x_answer_1 <- t_eWiseAdd TyD noacc TyD TyD qplus NoMask MERGE x_answer (Mat x_C) (Mat x_answer) ;;
  x_C_1 <- t_kronecker TyD (acc TyD qplus) qtimes NoMask MERGE x_C (Mat x_A) (Mat x_B) ;;
  x_q <- meq x_C_1 x_answer_1 ;;
  _ <- check x_q ;;
  Ok tt) = Ok tt.
Proof. vm_compute. reflexivity. Qed.

(** test_kronecker_AB.cpp:702-713 *)
Example test_kronecker_NoMask_Accum_AB_emptyRowA_emptyColB :
 (x_result <- mdense0 TyD d_Ones_9x12 0%Q ;;
  x_A <- mdense0 TyD d_Ar_sparse_3x3 0%Q ;;
  x_B <- mdense0 TyD d_Bc_sparse_3x4 0%Q ;;
  x_answer <- mdense0 TyD d_Answer_rc_sparse_9x12 0%Q ;;
  x_answer_1 <- t_eWiseAdd TyD noacc TyD TyD qplus NoMask MERGE x_answer (Mat x_answer) (Mat
    x_result) ;;
  x_result_1 <- t_kronecker TyD (acc TyD qplus) qtimes NoMask MERGE x_result (Mat x_A) (Mat x_B) ;;
  x_q <- meq x_result_1 x_answer_1 ;;
  _ <- check x_q ;;
  Ok tt) = Ok tt.
Proof. vm_compute. reflexivity. Qed.

(** test_kronecker_AB.cpp:716-727 *)
Example test_kronecker_NoMask_Accum_AB_emptyColA_emptyRowB :
 (x_result <- mdense0 TyD d_Ones_9x12 0%Q ;;
  x_A <- mdense0 TyD d_Ac_sparse_3x3 0%Q ;;
  x_B <- mdense0 TyD d_Br_sparse_3x4 0%Q ;;
  x_answer <- mdense0 TyD d_Answer_cr_sparse_9x12 0%Q ;;
  x_answer_1 <- t_eWiseAdd TyD noacc TyD TyD qplus NoMask MERGE x_answer (Mat x_answer) (Mat
    x_result) ;;
  x_result_1 <- t_kronecker TyD (acc TyD qplus) qtimes NoMask MERGE x_result (Mat x_A) (Mat x_B) ;;
  x_q <- meq x_result_1 x_answer_1 ;;
  _ <- check x_q ;;
  Ok tt) = Ok tt.
Proof. vm_compute. reflexivity. Qed.

(** test_kronecker_AB.cpp:730-741 *)
Example test_kronecker_NoMask_Accum_AB_ABdup :
 (x_mat <- mdense0 TyD d_A_sparse_3x3 0%Q ;;
  x_m3 <- mdense0 TyD d_Ones_9x9 0%Q ;;
  x_answer <- mdense0 TyD d_AA_sparse_9x9 0%Q ;;
  x_answer_1 <- t_eWiseAdd TyD noacc TyD TyD qplus NoMask MERGE x_answer (Mat x_answer) (Mat x_m3)
    ;;
  x_m3_1 <- t_kronecker TyD (acc TyD qplus) qtimes NoMask MERGE x_m3 (Mat x_mat) (Mat x_mat) ;;
  x_q <- meq x_m3_1 x_answer_1 ;;
  _ <- check x_q ;;
  Ok tt) = Ok tt.
Proof. vm_compute. reflexivity. Qed.

(** test_kronecker_AB.cpp:744-755 *)
Example test_kronecker_NoMask_Accum_AB_ACdup :
 (x_C <- mdense0 TyD d_A_sparse_3x3 0%Q ;;
  x_B <- mnew 1 1 ;;
  x_B_1 <- lil_setElement x_B 0 0 (cast TyD 1%Q) ;;
  x_answer <- mdense0 TyD d_A_sparse_3x3 0%Q ;;
  x_answer_1 <- t_eWiseAdd TyD noacc TyD TyD qplus NoMask MERGE x_answer (Mat x_answer) (Mat
    x_answer) ;;
  x_C_1 <- t_kronecker TyD (acc TyD qplus) qtimes NoMask MERGE x_C (Mat x_C) (Mat x_B_1) ;;
  x_q <- meq x_C_1 x_answer_1 ;;
  _ <- check x_q ;;
  Ok tt) = Ok tt.
Proof. vm_compute. reflexivity. Qed.

(** test_kronecker_AB.cpp:758-769 *)
Example test_kronecker_NoMask_Accum_AB_BCdup :
 (x_A <- mnew 1 1 ;;
  x_C <- mdense0 TyD d_A_sparse_3x3 0%Q ;;
  x_A_1 <- lil_setElement x_A 0 0 (cast TyD 1%Q) ;;
  x_answer <- mdense0 TyD d_A_sparse_3x3 0%Q ;;
  x_answer_1 <- t_eWiseAdd TyD noacc TyD TyD qplus NoMask MERGE x_answer (Mat x_answer) (Mat
    x_answer) ;;
  x_C_1 <- t_kronecker TyD (acc TyD qplus) qtimes NoMask MERGE x_C (Mat x_A_1) (Mat x_C) ;;
  x_q <- meq x_C_1 x_answer_1 ;;
  _ <- check x_q ;;
  Ok tt) = Ok tt.
Proof. vm_compute. reflexivity. Qed.

(** test_kronecker_AB.cpp:776-833 *)
Example test_kronecker_Mask_NoAccum_AB :
 (x_C <- mnew 9 12 ;;
  x_A <- mdense0 TyD d_A_sparse_3x3 0%Q ;;
  x_B <- mdense0 TyD d_B_sparse_3x4 0%Q ;;
  x_Identity <- mdense0 TyD d_Identity_3x3 0%Q ;;
  x_Empty <- mnew 9 12 ;;
  x_Ones <- mdense0 TyD d_Ones_9x12 0%Q ;;
  x_MLower <- mdense0 TyD d_Lower_9x12 0%Q ;;
  x_MNotLower <- mdense0 TyD d_NotLower_9x12 0%Q ;;
  x_Answer_9x12 <- mdense0 TyD d_Answer_sparse_9x12 0%Q ;;
  x_Answer_9x12_Lower <- mdense0 TyD d_Answer_sparse_9x12_Lower 0%Q ;;
  x_Answer_9x12_NotLower <- mdense0 TyD d_Answer_sparse_9x12_NotLower 0%Q ;;
  x_Answer_9x12_Lower_Ones <- mdense0 TyD d_Answer_sparse_9x12_Lower_Ones 0%Q ;;
  x_Answer_9x12_NotLower_Ones <- mdense0 TyD d_Answer_sparse_9x12_NotLower_Ones 0%Q ;;
  x_C_1 <- lil_assign x_C x_Ones ;;
  x_C_2 <- t_kronecker TyD noacc qtimes (MVal x_Empty) MERGE x_C_1 (Mat x_A) (Mat x_B) ;;
  x_q <- meq x_C_2 x_Ones ;;
  _ <- check x_q ;;
  x_C_3 <- lil_assign x_C_2 x_Ones ;;
  x_C_4 <- t_kronecker TyD noacc qtimes (MVal x_Ones) MERGE x_C_3 (Mat x_A) (Mat x_B) ;;
  x_q_1 <- meq x_C_4 x_Answer_9x12 ;;
  _ <- check x_q_1 ;;
  x_C_5 <- lil_assign x_C_4 x_Ones ;;
  x_C_6 <- t_kronecker TyD noacc qtimes (MVal x_MLower) MERGE x_C_5 (Mat x_A) (Mat x_B) ;;
  x_q_2 <- meq x_C_6 x_Answer_9x12_Lower_Ones ;;
  _ <- check x_q_2 ;;
  x_C_7 <- lil_assign x_C_6 x_Ones ;;
  x_C_8 <- t_kronecker TyD noacc qtimes (MVal x_MNotLower) MERGE x_C_7 (Mat x_A) (Mat x_B) ;;
  x_q_3 <- meq x_C_8 x_Answer_9x12_NotLower_Ones ;;
  _ <- check x_q_3 ;;
  x_C_9 <- lil_assign x_C_8 x_Ones ;;
  x_C_10 <- t_kronecker TyD noacc qtimes (MVal x_Empty) REPLACE x_C_9 (Mat x_A) (Mat x_B) ;;
  x_q_4 <- meq x_C_10 x_Empty ;;
  _ <- check x_q_4 ;;
  x_C_11 <- lil_assign x_C_10 x_Ones ;;
  x_C_12 <- t_kronecker TyD noacc qtimes (MVal x_Ones) REPLACE x_C_11 (Mat x_A) (Mat x_B) ;;
  x_q_5 <- meq x_C_12 x_Answer_9x12 ;;
  _ <- check x_q_5 ;;
  x_C_13 <- lil_assign x_C_12 x_Ones ;;
  x_C_14 <- t_kronecker TyD noacc qtimes (MVal x_MLower) REPLACE x_C_13 (Mat x_A) (Mat x_B) ;;
  x_q_6 <- meq x_C_14 x_Answer_9x12_Lower ;;
  _ <- check x_q_6 ;;
  x_C_15 <- lil_assign x_C_14 x_Ones ;;
  x_C_16 <- t_kronecker TyD noacc qtimes (MVal x_MNotLower) REPLACE x_C_15 (Mat x_A) (Mat x_B) ;;
  x_q_7 <- meq x_C_16 x_Answer_9x12_NotLower ;;
  _ <- check x_q_7 ;;
  Ok tt) = Ok tt.
Proof. vm_compute. reflexivity. Qed.

(** test_kronecker_AB.cpp:836-875 *)
Example test_kronecker_Mask_NoAccum_ABM_empty :
 (x_C <- mnew 9 12 ;;
  x_A <- mdense0 TyD d_A_sparse_3x3 0%Q ;;
  x_B <- mdense0 TyD d_B_sparse_3x4 0%Q ;;
  x_Ones <- mdense0 TyD d_Ones_9x12 0%Q ;;
  x_Empty <- mnew 9 12 ;;
  x_Empty3x3 <- mnew 3 3 ;;
  x_Empty3x4 <- mnew 3 4 ;;
  x_MLower <- mdense0 TyD d_Lower_9x12 0%Q ;;
  x_MNotLower <- mdense0 TyD d_NotLower_9x12 0%Q ;;
  x_C_1 <- lil_assign x_C x_Ones ;;
  x_C_2 <- t_kronecker TyD noacc qtimes (MVal x_Empty) MERGE x_C_1 (Mat x_A) (Mat x_B) ;;
  x_q <- meq x_C_2 x_Ones ;;
  _ <- check x_q ;;
  x_C_3 <- lil_assign x_C_2 x_Ones ;;
  x_C_4 <- t_kronecker TyD noacc qtimes (MVal x_MLower) MERGE x_C_3 (Mat x_Empty3x3) (Mat x_B) ;;
  x_q_1 <- meq x_C_4 x_MNotLower ;;
  _ <- check x_q_1 ;;
  x_C_5 <- lil_assign x_C_4 x_Ones ;;
  x_C_6 <- t_kronecker TyD noacc qtimes (MVal x_MLower) MERGE x_C_5 (Mat x_A) (Mat x_Empty3x4) ;;
  x_q_2 <- meq x_C_6 x_MNotLower ;;
  _ <- check x_q_2 ;;
  x_C_7 <- lil_assign x_C_6 x_Ones ;;
  x_C_8 <- t_kronecker TyD noacc qtimes (MVal x_Empty) REPLACE x_C_7 (Mat x_A) (Mat x_B) ;;
  x_q_3 <- meq x_C_8 x_Empty ;;
  _ <- check x_q_3 ;;
  x_C_9 <- lil_assign x_C_8 x_Ones ;;
  x_C_10 <- t_kronecker TyD noacc qtimes (MVal x_MLower) REPLACE x_C_9 (Mat x_Empty3x3) (Mat x_B) ;;
  x_q_4 <- meq x_C_10 x_Empty ;;
  _ <- check x_q_4 ;;
  x_C_11 <- lil_assign x_C_10 x_Ones ;;
  x_C_12 <- t_kronecker TyD noacc qtimes (MVal x_MLower) REPLACE x_C_11 (Mat x_A) (Mat x_Empty3x4)
    ;;
  x_q_5 <- meq x_C_12 x_Empty ;;
  _ <- check x_q_5 ;;
  Ok tt) = Ok tt.
Proof. vm_compute. reflexivity. Qed.

(** test_kronecker_AB.cpp:878-896 *)
Example test_kronecker_Mask_NoAccum_ABM_dense :
 (x_A <- mdense0 TyD d_Ones_3x3 0%Q ;;
  x_B <- mdense0 TyD d_Ones_3x4 0%Q ;;
  x_MLower <- mdense0 TyD d_Lower_9x12 0%Q ;;
  x_MNotLower <- mdense0 TyD d_NotLower_9x12 0%Q ;;
  x_Ones <- mdense0 TyD d_Ones_9x12 0%Q ;;
  x_C <- mnew 9 12 ;;
  x_C_1 <- lil_assign x_C x_Ones ;;
  x_C_2 <- t_kronecker TyD noacc qtimes (MVal x_MLower) MERGE x_C_1 (Mat x_A) (Mat x_B) ;;
  x_q <- meq x_C_2 x_Ones ;;
  _ <- check x_q ;;
  x_C_3 <- lil_assign x_C_2 x_Ones ;;
  x_C_4 <- t_kronecker TyD noacc qtimes (MVal x_MLower) REPLACE x_C_3 (Mat x_A) (Mat x_B) ;;
  x_q_1 <- meq x_C_4 x_MLower ;;
  _ <- check x_q_1 ;;
  Ok tt) = Ok tt.
Proof. vm_compute. reflexivity. Qed.

(** test_kronecker_AB.cpp:899-920 *)
Example test_kronecker_Mask_NoAccum_AB_empty_rows :
 (x_Ones <- mdense0 TyD d_Ones_9x12 0%Q ;;
  x_A <- mdense0 TyD d_Ar_sparse_3x3 0%Q ;;
  x_B <- mdense0 TyD d_Br_sparse_3x4 0%Q ;;
  x_answer <- mdense0 TyD d_Answer_rr_sparse_9x12 0%Q ;;
  x_C <- mnew 9 12 ;;
  x_MLower <- mdense0 TyD d_Lower_9x12 0%Q ;;
  x_MNotLower <- mdense0 TyD d_NotLower_9x12 0%Q ;;
  x_C_1 <- lil_assign x_C x_Ones ;;
  x_answer_1 <- t_eWiseMult TyD noacc TyD TyD qtimes NoMask MERGE x_answer (Mat x_MLower) (Mat
    x_answer) ;;
  x_C_2 <- t_kronecker TyD noacc qtimes (MVal x_MLower) REPLACE x_C_1 (Mat x_A) (Mat x_B) ;;
  x_q <- meq x_C_2 x_answer_1 ;;
  _ <- check x_q ;;
  x_C_3 <- lil_assign x_C_2 x_Ones ;;
  x_answer_2 <- t_eWiseAdd TyD noacc TyD TyD qplus NoMask MERGE x_answer_1 (Mat x_MNotLower) (Mat
    x_answer_1) ;;
  x_C_4 <- t_kronecker TyD noacc qtimes (MVal x_MLower) MERGE x_C_3 (Mat x_A) (Mat x_B) ;;
  x_q_1 <- meq x_C_4 x_answer_2 ;;
  _ <- check x_q_1 ;;
  Ok tt) = Ok tt.
Proof. vm_compute. reflexivity. Qed.

(** test_kronecker_AB.cpp:923-946 *)
Example test_kronecker_Mask_NoAccum_AB_emptyRowA_emptyColB :
 (x_C <- mnew 9 12 ;;
  x_Ones <- mdense0 TyD d_Ones_9x12 0%Q ;;
  x_A <- mdense0 TyD d_Ar_sparse_3x3 0%Q ;;
  x_B <- mdense0 TyD d_Bc_sparse_3x4 0%Q ;;
  x_answer <- mdense0 TyD d_Answer_rc_sparse_9x12 0%Q ;;
  x_MLower <- mdense0 TyD d_Lower_9x12 0%Q ;;
  x_MNotLower <- mdense0 TyD d_NotLower_9x12 0%Q ;;
  x_C_1 <- lil_assign x_C x_Ones ;;
  x_answer_1 <- t_eWiseMult TyD noacc TyD TyD qtimes NoMask MERGE x_answer (Mat x_MLower) (Mat
    x_answer) ;;
  x_C_2 <- t_kronecker TyD noacc qtimes (MVal x_MLower) REPLACE x_C_1 (Mat x_A) (Mat x_B) ;;
  x_q <- meq x_C_2 x_answer_1 ;;
  _ <- check x_q ;;
  x_C_3 <- lil_assign x_C_2 x_Ones ;;
  x_answer_2 <- t_eWiseAdd TyD noacc TyD TyD qplus NoMask MERGE x_answer_1 (Mat x_MNotLower) (Mat
    x_answer_1) ;;
  x_C_4 <- t_kronecker TyD noacc qtimes (MVal x_MLower) MERGE x_C_3 (Mat x_A) (Mat x_B) ;;
  x_q_1 <- meq x_C_4 x_answer_2 ;;
  _ <- check x_q_1 ;;
  Ok tt) = Ok tt.
Proof. vm_compute. reflexivity. Qed.

(** test_kronecker_AB.cpp:949-971 *)
Example test_kronecker_Mask_NoAccum_AB_emptyColA_emptyRowB :
 (x_C <- mnew 9 12 ;;
  x_Ones <- mdense0 TyD d_Ones_9x12 0%Q ;;
  x_A <- mdense0 TyD d_Ac_sparse_3x3 0%Q ;;
  x_B <- mdense0 TyD d_Br_sparse_3x4 0%Q ;;
  x_answer <- mdense0 TyD d_Answer_cr_sparse_9x12 0%Q ;;
  x_MLower <- mdense0 TyD d_Lower_9x12 0%Q ;;
  x_MNotLower <- mdense0 TyD d_NotLower_9x12 0%Q ;;
  x_C_1 <- lil_assign x_C x_Ones ;;
  x_answer_1 <- t_eWiseMult TyD noacc TyD TyD qtimes NoMask MERGE x_answer (Mat x_MLower) (Mat
    x_answer) ;;
  x_C_2 <- t_kronecker TyD noacc qtimes (MVal x_MLower) REPLACE x_C_1 (Mat x_A) (Mat x_B) ;;
  x_q <- meq x_C_2 x_answer_1 ;;
  _ <- check x_q ;;
  x_C_3 <- lil_assign x_C_2 x_Ones ;;
  x_answer_2 <- t_eWiseAdd TyD noacc TyD TyD qplus NoMask MERGE x_answer_1 (Mat x_MNotLower) (Mat
    x_answer_1) ;;
  x_C_4 <- t_kronecker TyD noacc qtimes (MVal x_MLower) MERGE x_C_3 (Mat x_A) (Mat x_B) ;;
  x_q_1 <- meq x_C_4 x_answer_2 ;;
  _ <- check x_q_1 ;;
  Ok tt) = Ok tt.
Proof. vm_compute. reflexivity. Qed.

(** test_kronecker_AB.cpp:974-997 *)
Example test_kronecker_Mask_NoAccum_AB_emptyRowM :
 (x_C <- mnew 9 12 ;;
  x_Ones <- mdense0 TyD d_Ones_9x12 0%Q ;;
  x_A <- mdense0 TyD d_A_sparse_3x3 0%Q ;;
  x_B <- mdense0 TyD d_B_sparse_3x4 0%Q ;;
  x_answer <- mdense0 TyD d_Answer_sparse_9x12 0%Q ;;
  x_MLower <- mdense0 TyD d_Lower_9x12 0%Q ;;
  x_MNotLower <- mdense0 TyD d_NotLower_9x12 0%Q ;;
  x_C_1 <- lil_assign x_C x_Ones ;;
  x_answer_1 <- t_eWiseMult TyD noacc TyD TyD qtimes NoMask MERGE x_answer (Mat x_MLower) (Mat
    x_answer) ;;
  x_C_2 <- t_kronecker TyD noacc qtimes (MVal x_MLower) REPLACE x_C_1 (Mat x_A) (Mat x_B) ;;
  x_q <- meq x_C_2 x_answer_1 ;;
  _ <- check x_q ;;
  x_C_3 <- lil_assign x_C_2 x_Ones ;;
  x_answer_2 <- t_eWiseAdd TyD noacc TyD TyD qplus NoMask MERGE x_answer_1 (Mat x_MNotLower) (Mat
    x_answer_1) ;;
  x_C_4 <- t_kronecker TyD noacc qtimes (MVal x_MLower) MERGE x_C_3 (Mat x_A) (Mat x_B) ;;
  x_q_1 <- meq x_C_4 x_answer_2 ;;
  _ <- check x_q_1 ;;
  Ok tt) = Ok tt.
Proof. vm_compute. reflexivity. Qed.

(** test_kronecker_AB.cpp:1000-1022 *)
Example test_kronecker_Mask_NoAccum_AB_ABdup :
 (x_C <- mnew 9 9 ;;
  x_Ones <- mdense0 TyD d_Ones_9x9 0%Q ;;
  x_A <- mdense0 TyD d_A_sparse_3x3 0%Q ;;
  x_answer <- mdense0 TyD d_AA_sparse_9x9 0%Q ;;
  x_MLower <- mdense0 TyD d_Lower_9x9 0%Q ;;
  x_MNotLower <- mdense0 TyD d_NotLower_9x9 0%Q ;;
  x_C_1 <- lil_assign x_C x_Ones ;;
  x_answer_1 <- t_eWiseMult TyD noacc TyD TyD qtimes NoMask MERGE x_answer (Mat x_MLower) (Mat
    x_answer) ;;
  x_C_2 <- t_kronecker TyD noacc qtimes (MVal x_MLower) REPLACE x_C_1 (Mat x_A) (Mat x_A) ;;
  x_q <- meq x_C_2 x_answer_1 ;;
  _ <- check x_q ;;
  x_C_3 <- lil_assign x_C_2 x_Ones ;;
  x_answer_2 <- t_eWiseAdd TyD noacc TyD TyD qplus NoMask MERGE x_answer_1 (Mat x_MNotLower) (Mat
    x_answer_1) ;;
  x_C_4 <- t_kronecker TyD noacc qtimes (MVal x_MLower) MERGE x_C_3 (Mat x_A) (Mat x_A) ;;
  x_q_1 <- meq x_C_4 x_answer_2 ;;
  _ <- check x_q_1 ;;
  Ok tt) = Ok tt.
Proof. vm_compute. reflexivity. Qed.

(** test_kronecker_AB.cpp:1025-1050 *)
Example test_kronecker_Mask_NoAccum_AB_ACdup :
 (x_Ones <- mdense0 TyD d_Ones_3x4 0%Q ;;
  x_mat <- mdense0 TyD d_B_sparse_3x4 0%Q ;;
  x_C <- mnew 3 4 ;;
  x_B <- mnew 1 1 ;;
  x_B_1 <- lil_setElement x_B 0 0 (cast TyD 1%Q) ;;
  x_MLower <- mdense0 TyD d_Lower_3x4 0%Q ;;
  x_MNotLower <- mdense0 TyD d_NotLower_3x4 0%Q ;;
  x_C_1 <- lil_assign x_C x_mat ;;
  x_answer <- t_eWiseMult TyD noacc TyD TyD qtimes NoMask MERGE x_mat (Mat x_MLower) (Mat x_mat) ;;
  x_C_2 <- t_kronecker TyD noacc qtimes (MVal x_MLower) REPLACE x_C_1 (Mat x_C_1) (Mat x_B_1) ;;
  x_q <- meq x_C_2 x_answer ;;
  _ <- check x_q ;;
  x_C_3 <- lil_assign x_C_2 x_mat ;;
  x_C_4 <- t_kronecker TyD noacc qtimes (MVal x_MLower) MERGE x_C_3 (Mat x_C_3) (Mat x_B_1) ;;
  x_q_1 <- meq x_C_4 x_mat ;;
  _ <- check x_q_1 ;;
  Ok tt) = Ok tt.
Proof. vm_compute. reflexivity. Qed.

(** test_kronecker_AB.cpp:1053-1076 *)
Example test_kronecker_Mask_NoAccum_AB_BCdup :
 (x_mat <- mdense0 TyD d_B_sparse_3x4 0%Q ;;
  x_C <- mnew 3 4 ;;
  x_A <- mnew 1 1 ;;
  x_A_1 <- lil_setElement x_A 0 0 (cast TyD 1%Q) ;;
  x_MLower <- mdense0 TyD d_Lower_3x4 0%Q ;;
  x_MNotLower <- mdense0 TyD d_NotLower_3x4 0%Q ;;
  x_C_1 <- lil_assign x_C x_mat ;;
  x_answer <- t_eWiseMult TyD noacc TyD TyD qtimes NoMask MERGE x_mat (Mat x_MLower) (Mat x_mat) ;;
  x_C_2 <- t_kronecker TyD noacc qtimes (MVal x_MLower) REPLACE x_C_1 (Mat x_A_1) (Mat x_C_1) ;;
  x_q <- meq x_C_2 x_answer ;;
  _ <- check x_q ;;
  x_C_3 <- lil_assign x_C_2 x_mat ;;
  x_C_4 <- t_kronecker TyD noacc qtimes (MVal x_MLower) MERGE x_C_3 (Mat x_A_1) (Mat x_C_3) ;;
  x_q_1 <- meq x_C_4 x_mat ;;
  _ <- check x_q_1 ;;
  Ok tt) = Ok tt.
Proof. vm_compute. reflexivity. Qed.

(** test_kronecker_AB.cpp:1079-1103 *)
Example test_kronecker_Mask_NoAccum_AB_MCdup :
 (x_C <- mnew 9 12 ;;
  x_Ones <- mdense0 TyD d_Ones_9x12 0%Q ;;
  x_A <- mdense0 TyD d_A_sparse_3x3 0%Q ;;
  x_B <- mdense0 TyD d_B_sparse_3x4 0%Q ;;
  x_answer <- mdense0 TyD d_Answer_sparse_9x12 0%Q ;;
  x_MLower <- mdense0 TyD d_Lower_9x12 0%Q ;;
  x_MNotLower <- mdense0 TyD d_NotLower_9x12 0%Q ;;
  x_C_1 <- lil_assign x_C x_MLower ;;
  x_answer_1 <- t_eWiseMult TyD noacc TyD TyD qtimes NoMask MERGE x_answer (Mat x_MLower) (Mat
    x_answer) ;;
  x_C_2 <- t_kronecker TyD noacc qtimes (MVal x_C_1) REPLACE x_C_1 (Mat x_A) (Mat x_B) ;;
  x_q <- meq x_C_2 x_answer_1 ;;
  _ <- check x_q ;;
  x_C_3 <- lil_assign x_C_2 x_MLower ;;
  x_C_4 <- t_kronecker TyD noacc qtimes (MVal x_C_3) MERGE x_C_3 (Mat x_A) (Mat x_B) ;;
  x_q_1 <- meq x_C_4 x_answer_1 ;;
  _ <- check x_q_1 ;;
  Ok tt) = Ok tt.
Proof. vm_compute. reflexivity. Qed.

(** test_kronecker_AB.cpp:1110-1180 *)
Example test_kronecker_Mask_Accum_AB :
 (x_C <- mnew 9 12 ;;
  x_A <- mdense0 TyD d_A_sparse_3x3 0%Q ;;
  x_B <- mdense0 TyD d_B_sparse_3x4 0%Q ;;
  x_Identity <- mdense0 TyD d_Identity_3x3 0%Q ;;
  x_answer <- mnew 9 12 ;;
  x_Empty <- mnew 9 12 ;;
  x_Ones <- mdense0 TyD d_Ones_9x12 0%Q ;;
  x_MLower <- mdense0 TyD d_Lower_9x12 0%Q ;;
  x_MNotLower <- mdense0 TyD d_NotLower_9x12 0%Q ;;
  x_Answer_9x12 <- mdense0 TyD d_Answer_sparse_9x12 0%Q ;;
  x_Answer_9x12_Lower <- mdense0 TyD d_Answer_sparse_9x12_Lower 0%Q ;;
  x_Answer_9x12_NotLower <- mdense0 TyD d_Answer_sparse_9x12_NotLower 0%Q ;;
  x_Answer_9x12_Lower_Ones <- mdense0 TyD d_Answer_sparse_9x12_Lower_Ones 0%Q ;;
  x_Answer_9x12_NotLower_Ones <- mdense0 TyD d_Answer_sparse_9x12_NotLower_Ones 0%Q ;;
  x_C_1 <- lil_assign x_C x_Ones ;;
  x_C_2 <- t_kronecker TyD (acc TyD qplus) qtimes (MVal x_Empty) MERGE x_C_1 (Mat x_A) (Mat x_B) ;;
  x_q <- meq x_C_2 x_Ones ;;
  _ <- check x_q ;;
  x_C_3 <- lil_assign x_C_2 x_Ones ;;
  x_answer_1 <- t_eWiseAdd TyD noacc TyD TyD qplus NoMask MERGE x_answer (Mat x_Ones) (Mat
    x_Answer_9x12) ;;
  x_C_4 <- t_kronecker TyD (acc TyD qplus) qtimes (MVal x_Ones) MERGE x_C_3 (Mat x_A) (Mat x_B) ;;
  x_q_1 <- meq x_C_4 x_answer_1 ;;
  _ <- check x_q_1 ;;
  x_C_5 <- lil_assign x_C_4 x_Ones ;;
  x_answer_2 <- t_eWiseAdd TyD noacc TyD TyD qplus NoMask MERGE x_answer_1 (Mat x_Ones) (Mat
    x_Answer_9x12_Lower) ;;
  x_C_6 <- t_kronecker TyD (acc TyD qplus) qtimes (MVal x_MLower) MERGE x_C_5 (Mat x_A) (Mat x_B) ;;
  x_q_2 <- meq x_C_6 x_answer_2 ;;
  _ <- check x_q_2 ;;
  x_C_7 <- lil_assign x_C_6 x_Ones ;;
  x_answer_3 <- t_eWiseAdd TyD noacc TyD TyD qplus NoMask MERGE x_answer_2 (Mat x_Ones) (Mat
    x_Answer_9x12_NotLower) ;;
  x_C_8 <- t_kronecker TyD (acc TyD qplus) qtimes (MVal x_MNotLower) MERGE x_C_7 (Mat x_A) (Mat x_B)
    ;;
  x_q_3 <- meq x_C_8 x_answer_3 ;;
  _ <- check x_q_3 ;;
  x_C_9 <- lil_assign x_C_8 x_Ones ;;
  x_C_10 <- t_kronecker TyD (acc TyD qplus) qtimes (MVal x_Empty) REPLACE x_C_9 (Mat x_A) (Mat x_B)
    ;;
  x_q_4 <- meq x_C_10 x_Empty ;;
  _ <- check x_q_4 ;;
  x_C_11 <- lil_assign x_C_10 x_Ones ;;
  x_answer_4 <- t_eWiseAdd TyD noacc TyD TyD qplus NoMask MERGE x_answer_3 (Mat x_Ones) (Mat
    x_Answer_9x12) ;;
  x_C_12 <- t_kronecker TyD (acc TyD qplus) qtimes (MVal x_Ones) REPLACE x_C_11 (Mat x_A) (Mat x_B)
    ;;
  x_q_5 <- meq x_C_12 x_answer_4 ;;
  _ <- check x_q_5 ;;
  x_C_13 <- lil_assign x_C_12 x_Ones ;;
  x_answer_5 <- t_eWiseAdd TyD noacc TyD TyD qplus NoMask MERGE x_answer_4 (Mat x_MLower) (Mat
    x_Answer_9x12_Lower) ;;
  x_C_14 <- t_kronecker TyD (acc TyD qplus) qtimes (MVal x_MLower) REPLACE x_C_13 (Mat x_A) (Mat
    x_B) ;;
  x_q_6 <- meq x_C_14 x_answer_5 ;;
  _ <- check x_q_6 ;;
  x_C_15 <- lil_assign x_C_14 x_Ones ;;
  x_answer_6 <- t_eWiseAdd TyD noacc TyD TyD qplus NoMask MERGE x_answer_5 (Mat x_MNotLower) (Mat
    x_Answer_9x12_NotLower) ;;
  x_C_16 <- t_kronecker TyD (acc TyD qplus) qtimes (MVal x_MNotLower) REPLACE x_C_15 (Mat x_A) (Mat
    x_B) ;;
  x_q_7 <- meq x_C_16 x_answer_6 ;;
  _ <- check x_q_7 ;;
  Ok tt) = Ok tt.
Proof. vm_compute. reflexivity. Qed.

(** test_kronecker_AB.cpp:1183-1221 *)
Example test_kronecker_Mask_Accum_ABM_empty :
 (x_C <- mnew 9 12 ;;
  x_A <- mdense0 TyD d_A_sparse_3x3 0%Q ;;
  x_B <- mdense0 TyD d_B_sparse_3x4 0%Q ;;
  x_Ones <- mdense0 TyD d_Ones_9x12 0%Q ;;
  x_Empty <- mnew 9 12 ;;
  x_Empty3x3 <- mnew 3 3 ;;
  x_Empty3x4 <- mnew 3 4 ;;
  x_MLower <- mdense0 TyD d_Lower_9x12 0%Q ;;
  x_C_1 <- lil_assign x_C x_Ones ;;
  x_C_2 <- t_kronecker TyD (acc TyD qplus) qtimes (MVal x_Empty) MERGE x_C_1 (Mat x_A) (Mat x_B) ;;
  x_q <- meq x_C_2 x_Ones ;;
  _ <- check x_q ;;
  x_C_3 <- lil_assign x_C_2 x_Ones ;;
  x_C_4 <- t_kronecker TyD (acc TyD qplus) qtimes (MVal x_MLower) MERGE x_C_3 (Mat x_Empty3x3) (Mat
    x_B) ;;
  x_q_1 <- meq x_C_4 x_Ones ;;
  _ <- check x_q_1 ;;
  x_C_5 <- lil_assign x_C_4 x_Ones ;;
  x_C_6 <- t_kronecker TyD (acc TyD qplus) qtimes (MVal x_MLower) MERGE x_C_5 (Mat x_A) (Mat
    x_Empty3x4) ;;
  x_q_2 <- meq x_C_6 x_Ones ;;
  _ <- check x_q_2 ;;
  x_C_7 <- lil_assign x_C_6 x_Ones ;;
  x_C_8 <- t_kronecker TyD (acc TyD qplus) qtimes (MVal x_Empty) REPLACE x_C_7 (Mat x_A) (Mat x_B)
    ;;
  x_q_3 <- meq x_C_8 x_Empty ;;
  _ <- check x_q_3 ;;
  x_C_9 <- lil_assign x_C_8 x_Ones ;;
  x_C_10 <- t_kronecker TyD (acc TyD qplus) qtimes (MVal x_MLower) REPLACE x_C_9 (Mat x_Empty3x3)
    (Mat x_B) ;;
  x_q_4 <- meq x_C_10 x_MLower ;;
  _ <- check x_q_4 ;;
  x_C_11 <- lil_assign x_C_10 x_Ones ;;
  x_C_12 <- t_kronecker TyD (acc TyD qplus) qtimes (MVal x_MLower) REPLACE x_C_11 (Mat x_A) (Mat
    x_Empty3x4) ;;
  x_q_5 <- meq x_C_12 x_MLower ;;
  _ <- check x_q_5 ;;
  Ok tt) = Ok tt.
Proof. vm_compute. reflexivity. Qed.

(** test_kronecker_AB.cpp:1224-1247 *)
Example test_kronecker_Mask_Accum_ABM_dense :
 (x_A <- mdense0 TyD d_Ones_3x3 0%Q ;;
  x_B <- mdense0 TyD d_Ones_3x4 0%Q ;;
  x_MLower <- mdense0 TyD d_Lower_9x12 0%Q ;;
  x_MNotLower <- mdense0 TyD d_NotLower_9x12 0%Q ;;
  x_Ones <- mdense0 TyD d_Ones_9x12 0%Q ;;
  x_C <- mnew 9 12 ;;
  x_answer <- mnew 9 12 ;;
  x_C_1 <- lil_assign x_C x_Ones ;;
  x_C_2 <- t_kronecker TyD (acc TyD qplus) qtimes (MVal x_MLower) MERGE x_C_1 (Mat x_A) (Mat x_B) ;;
  x_answer_1 <- t_eWiseAdd TyD noacc TyD TyD qplus NoMask MERGE x_answer (Mat x_Ones) (Mat x_MLower)
    ;;
  x_q <- meq x_C_2 x_answer_1 ;;
  _ <- check x_q ;;
  x_C_3 <- lil_assign x_C_2 x_Ones ;;
  x_C_4 <- t_kronecker TyD (acc TyD qplus) qtimes (MVal x_MLower) REPLACE x_C_3 (Mat x_A) (Mat x_B)
    ;;
  x_answer_2 <- t_eWiseAdd TyD noacc TyD TyD qplus NoMask MERGE x_answer_1 (Mat x_MLower) (Mat
    x_MLower) ;;
  x_q_1 <- meq x_C_4 x_answer_2 ;;
  _ <- check x_q_1 ;;
  Ok tt) = Ok tt.
Proof. vm_compute. reflexivity. Qed.

(** test_kronecker_AB.cpp:1250-1271 *)
Example test_kronecker_Mask_Accum_AB_empty_rows :
 (x_Ones <- mdense0 TyD d_Ones_9x12 0%Q ;;
  x_A <- mdense0 TyD d_Ar_sparse_3x3 0%Q ;;
  x_B <- mdense0 TyD d_Br_sparse_3x4 0%Q ;;
  x_answer <- mdense0 TyD d_Answer_rr_sparse_9x12 0%Q ;;
  x_C <- mnew 9 12 ;;
  x_MLower <- mdense0 TyD d_Lower_9x12 0%Q ;;
  x_MNotLower <- mdense0 TyD d_NotLower_9x12 0%Q ;;
  x_C_1 <- lil_assign x_C x_Ones ;;
  x_answer_1 <- t_eWiseMult TyD noacc TyD TyD qtimes NoMask MERGE x_answer (Mat x_MLower) (Mat
    x_answer) ;;
  x_answer_2 <- t_eWiseAdd TyD noacc TyD TyD qplus NoMask MERGE x_answer_1 (Mat x_MLower) (Mat
    x_answer_1) ;;
  x_C_2 <- t_kronecker TyD (acc TyD qplus) qtimes (MVal x_MLower) REPLACE x_C_1 (Mat x_A) (Mat x_B)
    ;;
  x_q <- meq x_C_2 x_answer_2 ;;
  _ <- check x_q ;;
  x_C_3 <- lil_assign x_C_2 x_Ones ;;
  x_answer_3 <- t_eWiseAdd TyD noacc TyD TyD qplus NoMask MERGE x_answer_2 (Mat x_MNotLower) (Mat
    x_answer_2) ;;
  x_C_4 <- t_kronecker TyD (acc TyD qplus) qtimes (MVal x_MLower) MERGE x_C_3 (Mat x_A) (Mat x_B) ;;
  x_q_1 <- meq x_C_4 x_answer_3 ;;
  _ <- check x_q_1 ;;
  Ok tt) = Ok tt.
Proof. vm_compute. reflexivity. Qed.

(** test_kronecker_AB.cpp:1274-1297 *)
Example test_kronecker_Mask_Accum_AB_emptyRowA_emptyColB :
 (x_C <- mnew 9 12 ;;
  x_Ones <- mdense0 TyD d_Ones_9x12 0%Q ;;
  x_A <- mdense0 TyD d_Ar_sparse_3x3 0%Q ;;
  x_B <- mdense0 TyD d_Bc_sparse_3x4 0%Q ;;
  x_answer <- mdense0 TyD d_Answer_rc_sparse_9x12 0%Q ;;
  x_MLower <- mdense0 TyD d_Lower_9x12 0%Q ;;
  x_MNotLower <- mdense0 TyD d_NotLower_9x12 0%Q ;;
  x_C_1 <- lil_assign x_C x_Ones ;;
  x_answer_1 <- t_eWiseMult TyD noacc TyD TyD qtimes NoMask MERGE x_answer (Mat x_MLower) (Mat
    x_answer) ;;
  x_answer_2 <- t_eWiseAdd TyD noacc TyD TyD qplus NoMask MERGE x_answer_1 (Mat x_MLower) (Mat
    x_answer_1) ;;
  x_C_2 <- t_kronecker TyD (acc TyD qplus) qtimes (MVal x_MLower) REPLACE x_C_1 (Mat x_A) (Mat x_B)
    ;;
  x_q <- meq x_C_2 x_answer_2 ;;
  _ <- check x_q ;;
  x_C_3 <- lil_assign x_C_2 x_Ones ;;
  x_answer_3 <- t_eWiseAdd TyD noacc TyD TyD qplus NoMask MERGE x_answer_2 (Mat x_MNotLower) (Mat
    x_answer_2) ;;
  x_C_4 <- t_kronecker TyD (acc TyD qplus) qtimes (MVal x_MLower) MERGE x_C_3 (Mat x_A) (Mat x_B) ;;
  x_q_1 <- meq x_C_4 x_answer_3 ;;
  _ <- check x_q_1 ;;
  Ok tt) = Ok tt.
Proof. vm_compute. reflexivity. Qed.

(** test_kronecker_AB.cpp:1300-1323 *)
Example test_kronecker_Mask_Accum_AB_emptyColA_emptyRowB :
 (x_C <- mnew 9 12 ;;
  x_Ones <- mdense0 TyD d_Ones_9x12 0%Q ;;
  x_A <- mdense0 TyD d_Ac_sparse_3x3 0%Q ;;
  x_B <- mdense0 TyD d_Br_sparse_3x4 0%Q ;;
  x_answer <- mdense0 TyD d_Answer_cr_sparse_9x12 0%Q ;;
  x_MLower <- mdense0 TyD d_Lower_9x12 0%Q ;;
  x_MNotLower <- mdense0 TyD d_NotLower_9x12 0%Q ;;
  x_C_1 <- lil_assign x_C x_Ones ;;
  x_answer_1 <- t_eWiseMult TyD noacc TyD TyD qtimes NoMask MERGE x_answer (Mat x_MLower) (Mat
    x_answer) ;;
  x_answer_2 <- t_eWiseAdd TyD noacc TyD TyD qplus NoMask MERGE x_answer_1 (Mat x_MLower) (Mat
    x_answer_1) ;;
  x_C_2 <- t_kronecker TyD (acc TyD qplus) qtimes (MVal x_MLower) REPLACE x_C_1 (Mat x_A) (Mat x_B)
    ;;
  x_q <- meq x_C_2 x_answer_2 ;;
  _ <- check x_q ;;
  x_C_3 <- lil_assign x_C_2 x_Ones ;;
  x_answer_3 <- t_eWiseAdd TyD noacc TyD TyD qplus NoMask MERGE x_answer_2 (Mat x_MNotLower) (Mat
    x_answer_2) ;;
  x_C_4 <- t_kronecker TyD (acc TyD qplus) qtimes (MVal x_MLower) MERGE x_C_3 (Mat x_A) (Mat x_B) ;;
  x_q_1 <- meq x_C_4 x_answer_3 ;;
  _ <- check x_q_1 ;;
  Ok tt) = Ok tt.
Proof. vm_compute. reflexivity. Qed.

(** test_kronecker_AB.cpp:1326-1349 *)
Example test_kronecker_Mask_Accum_AB_emptyRowM :
 (x_C <- mnew 9 12 ;;
  x_Ones <- mdense0 TyD d_Ones_9x12 0%Q ;;
  x_A <- mdense0 TyD d_A_sparse_3x3 0%Q ;;
  x_B <- mdense0 TyD d_B_sparse_3x4 0%Q ;;
  x_answer <- mdense0 TyD d_Answer_sparse_9x12 0%Q ;;
  x_MLower <- mdense0 TyD d_Lower_9x12 0%Q ;;
  x_MNotLower <- mdense0 TyD d_NotLower_9x12 0%Q ;;
  x_C_1 <- lil_assign x_C x_Ones ;;
  x_answer_1 <- t_eWiseMult TyD noacc TyD TyD qtimes NoMask MERGE x_answer (Mat x_MLower) (Mat
    x_answer) ;;
  x_answer_2 <- t_eWiseAdd TyD noacc TyD TyD qplus NoMask MERGE x_answer_1 (Mat x_MLower) (Mat
    x_answer_1) ;;
  x_C_2 <- t_kronecker TyD (acc TyD qplus) qtimes (MVal x_MLower) REPLACE x_C_1 (Mat x_A) (Mat x_B)
    ;;
  x_q <- meq x_C_2 x_answer_2 ;;
  _ <- check x_q ;;
  x_C_3 <- lil_assign x_C_2 x_Ones ;;
  x_answer_3 <- t_eWiseAdd TyD noacc TyD TyD qplus NoMask MERGE x_answer_2 (Mat x_MNotLower) (Mat
    x_answer_2) ;;
  x_C_4 <- t_kronecker TyD (acc TyD qplus) qtimes (MVal x_MLower) MERGE x_C_3 (Mat x_A) (Mat x_B) ;;
  x_q_1 <- meq x_C_4 x_answer_3 ;;
  _ <- check x_q_1 ;;
  Ok tt) = Ok tt.
Proof. vm_compute. reflexivity. Qed.

(** test_kronecker_AB.cpp:1352-1375 *)
Example test_kronecker_Mask_Accum_AB_ABdup :
 (x_C <- mnew 9 9 ;;
  x_Ones <- mdense0 TyD d_Ones_9x9 0%Q ;;
  x_A <- mdense0 TyD d_A_sparse_3x3 0%Q ;;
  x_answer <- mdense0 TyD d_AA_sparse_9x9 0%Q ;;
  x_MLower <- mdense0 TyD d_Lower_9x9 0%Q ;;
  x_MNotLower <- mdense0 TyD d_NotLower_9x9 0%Q ;;
  x_C_1 <- lil_assign x_C x_Ones ;;
  x_answer_1 <- t_eWiseMult TyD noacc TyD TyD qtimes NoMask MERGE x_answer (Mat x_MLower) (Mat
    x_answer) ;;
  x_answer_2 <- t_eWiseAdd TyD noacc TyD TyD qplus NoMask MERGE x_answer_1 (Mat x_MLower) (Mat
    x_answer_1) ;;
  x_C_2 <- t_kronecker TyD (acc TyD qplus) qtimes (MVal x_MLower) REPLACE x_C_1 (Mat x_A) (Mat x_A)
    ;;
  x_q <- meq x_C_2 x_answer_2 ;;
  _ <- check x_q ;;
  x_C_3 <- lil_assign x_C_2 x_Ones ;;
  x_answer_3 <- t_eWiseAdd TyD noacc TyD TyD qplus NoMask MERGE x_answer_2 (Mat x_MNotLower) (Mat
    x_answer_2) ;;
  x_C_4 <- t_kronecker TyD (acc TyD qplus) qtimes (MVal x_MLower) MERGE x_C_3 (Mat x_A) (Mat x_A) ;;
  x_q_1 <- meq x_C_4 x_answer_3 ;;
  _ <- check x_q_1 ;;
  Ok tt) = Ok tt.
Proof. vm_compute. reflexivity. Qed.

(** test_kronecker_AB.cpp:1378-1404 *)
Example test_kronecker_Mask_Accum_AB_ACdup :
 (x_Ones <- mdense0 TyD d_Ones_3x4 0%Q ;;
  x_mat <- mdense0 TyD d_B_sparse_3x4 0%Q ;;
  x_C <- mnew 3 4 ;;
  x_B <- mnew 1 1 ;;
  x_B_1 <- lil_setElement x_B 0 0 (cast TyD 1%Q) ;;
  x_MLower <- mdense0 TyD d_Lower_3x4 0%Q ;;
  x_MNotLower <- mdense0 TyD d_NotLower_3x4 0%Q ;;
  x_C_1 <- lil_assign x_C x_mat ;;
  x_answer <- t_eWiseMult TyD noacc TyD TyD qtimes NoMask MERGE x_mat (Mat x_MLower) (Mat x_mat) ;;
  x_answer_1 <- t_eWiseAdd TyD noacc TyD TyD qplus NoMask MERGE x_answer (Mat x_answer) (Mat
    x_answer) ;;
  x_C_2 <- t_kronecker TyD (acc TyD qplus) qtimes (MVal x_MLower) REPLACE x_C_1 (Mat x_C_1) (Mat
    x_B_1) ;;
  x_q <- meq x_C_2 x_answer_1 ;;
  _ <- check x_q ;;
  x_C_3 <- lil_assign x_C_2 x_mat ;;
  x_answer_2 <- t_eWiseMult TyD noacc TyD TyD qtimes NoMask MERGE x_answer_1 (Mat x_MLower) (Mat
    x_mat) ;;
  x_answer_3 <- t_eWiseAdd TyD noacc TyD TyD qplus NoMask MERGE x_answer_2 (Mat x_mat) (Mat
    x_answer_2) ;;
  x_C_4 <- t_kronecker TyD (acc TyD qplus) qtimes (MVal x_MLower) MERGE x_C_3 (Mat x_C_3) (Mat
    x_B_1) ;;
  x_q_1 <- meq x_C_4 x_answer_3 ;;
  _ <- check x_q_1 ;;
  Ok tt) = Ok tt.
Proof. vm_compute. reflexivity. Qed.

(** test_kronecker_AB.cpp:1407-1433 *)
Example test_kronecker_Mask_Accum_AB_BCdup :
 (x_mat <- mdense0 TyD d_B_sparse_3x4 0%Q ;;
  x_C <- mnew 3 4 ;;
  x_A <- mnew 1 1 ;;
  x_A_1 <- lil_setElement x_A 0 0 (cast TyD 1%Q) ;;
  x_MLower <- mdense0 TyD d_Lower_3x4 0%Q ;;
  x_MNotLower <- mdense0 TyD d_NotLower_3x4 0%Q ;;
  x_C_1 <- lil_assign x_C x_mat ;;
  x_answer <- t_eWiseMult TyD noacc TyD TyD qtimes NoMask MERGE x_mat (Mat x_MLower) (Mat x_mat) ;;
  x_answer_1 <- t_eWiseAdd TyD noacc TyD TyD qplus NoMask MERGE x_answer (Mat x_answer) (Mat
    x_answer) ;;
  x_C_2 <- t_kronecker TyD (acc TyD qplus) qtimes (MVal x_MLower) REPLACE x_C_1 (Mat x_A_1) (Mat
    x_C_1) ;;
  x_q <- meq x_C_2 x_answer_1 ;;
  _ <- check x_q ;;
  x_C_3 <- lil_assign x_C_2 x_mat ;;
  x_answer_2 <- t_eWiseMult TyD noacc TyD TyD qtimes NoMask MERGE x_answer_1 (Mat x_MLower) (Mat
    x_mat) ;;
  x_answer_3 <- t_eWiseAdd TyD noacc TyD TyD qplus NoMask MERGE x_answer_2 (Mat x_answer_2) (Mat
    x_mat) ;;
  x_C_4 <- t_kronecker TyD (acc TyD qplus) qtimes (MVal x_MLower) MERGE x_C_3 (Mat x_A_1) (Mat
    x_C_3) ;;
  x_q_1 <- meq x_C_4 x_answer_3 ;;
  _ <- check x_q_1 ;;
  Ok tt) = Ok tt.
Proof. vm_compute. reflexivity. Qed.

(** test_kronecker_AB.cpp:1436-1461 *)
Example test_kronecker_Mask_Accum_AB_MCdup :
 (x_C <- mnew 9 12 ;;
  x_Ones <- mdense0 TyD d_Ones_9x12 0%Q ;;
  x_A <- mdense0 TyD d_A_sparse_3x3 0%Q ;;
  x_B <- mdense0 TyD d_B_sparse_3x4 0%Q ;;
  x_answer <- mdense0 TyD d_Answer_sparse_9x12 0%Q ;;
  x_MLower <- mdense0 TyD d_Lower_9x12 0%Q ;;
  x_MNotLower <- mdense0 TyD d_NotLower_9x12 0%Q ;;
  x_C_1 <- lil_assign x_C x_MLower ;;
  x_answer_1 <- t_eWiseMult TyD noacc TyD TyD qtimes NoMask MERGE x_answer (Mat x_MLower) (Mat
    x_answer) ;;
  x_answer_2 <- t_eWiseAdd TyD noacc TyD TyD qplus NoMask MERGE x_answer_1 (Mat x_MLower) (Mat
    x_answer_1) ;;
  x_C_2 <- t_kronecker TyD (acc TyD qplus) qtimes (MVal x_C_1) REPLACE x_C_1 (Mat x_A) (Mat x_B) ;;
  x_q <- meq x_C_2 x_answer_2 ;;
  _ <- check x_q ;;
  x_C_3 <- lil_assign x_C_2 x_MLower ;;
  x_C_4 <- t_kronecker TyD (acc TyD qplus) qtimes (MVal x_C_3) MERGE x_C_3 (Mat x_A) (Mat x_B) ;;
  x_q_1 <- meq x_C_4 x_answer_2 ;;
  _ <- check x_q_1 ;;
  Ok tt) = Ok tt.
Proof. vm_compute. reflexivity. Qed.

(** test_kronecker_AB.cpp:1468-1525 *)
Example test_kronecker_CompMask_NoAccum_AB :
 (x_C <- mnew 9 12 ;;
  x_A <- mdense0 TyD d_A_sparse_3x3 0%Q ;;
  x_B <- mdense0 TyD d_B_sparse_3x4 0%Q ;;
  x_Identity <- mdense0 TyD d_Identity_3x3 0%Q ;;
  x_Empty <- mnew 9 12 ;;
  x_Ones <- mdense0 TyD d_Ones_9x12 0%Q ;;
  x_MLower <- mdense0 TyD d_Lower_9x12 0%Q ;;
  x_MNotLower <- mdense0 TyD d_NotLower_9x12 0%Q ;;
  x_Answer_9x12 <- mdense0 TyD d_Answer_sparse_9x12 0%Q ;;
  x_Answer_9x12_Lower <- mdense0 TyD d_Answer_sparse_9x12_Lower 0%Q ;;
  x_Answer_9x12_NotLower <- mdense0 TyD d_Answer_sparse_9x12_NotLower 0%Q ;;
  x_Answer_9x12_Lower_Ones <- mdense0 TyD d_Answer_sparse_9x12_Lower_Ones 0%Q ;;
  x_Answer_9x12_NotLower_Ones <- mdense0 TyD d_Answer_sparse_9x12_NotLower_Ones 0%Q ;;
  x_C_1 <- lil_assign x_C x_Ones ;;
  x_C_2 <- t_kronecker TyD noacc qtimes (MComp x_Ones) MERGE x_C_1 (Mat x_A) (Mat x_B) ;;
  x_q <- meq x_C_2 x_Ones ;;
  _ <- check x_q ;;
  x_C_3 <- lil_assign x_C_2 x_Ones ;;
  x_C_4 <- t_kronecker TyD noacc qtimes (MComp x_Empty) MERGE x_C_3 (Mat x_A) (Mat x_B) ;;
  x_q_1 <- meq x_C_4 x_Answer_9x12 ;;
  _ <- check x_q_1 ;;
  x_C_5 <- lil_assign x_C_4 x_Ones ;;
  x_C_6 <- t_kronecker TyD noacc qtimes (MComp x_MNotLower) MERGE x_C_5 (Mat x_A) (Mat x_B) ;;
  x_q_2 <- meq x_C_6 x_Answer_9x12_Lower_Ones ;;
  _ <- check x_q_2 ;;
  x_C_7 <- lil_assign x_C_6 x_Ones ;;
  x_C_8 <- t_kronecker TyD noacc qtimes (MComp x_MLower) MERGE x_C_7 (Mat x_A) (Mat x_B) ;;
  x_q_3 <- meq x_C_8 x_Answer_9x12_NotLower_Ones ;;
  _ <- check x_q_3 ;;
  x_C_9 <- lil_assign x_C_8 x_Ones ;;
  x_C_10 <- t_kronecker TyD noacc qtimes (MComp x_Ones) REPLACE x_C_9 (Mat x_A) (Mat x_B) ;;
  x_q_4 <- meq x_C_10 x_Empty ;;
  _ <- check x_q_4 ;;
  x_C_11 <- lil_assign x_C_10 x_Ones ;;
  x_C_12 <- t_kronecker TyD noacc qtimes (MComp x_Empty) REPLACE x_C_11 (Mat x_A) (Mat x_B) ;;
  x_q_5 <- meq x_C_12 x_Answer_9x12 ;;
  _ <- check x_q_5 ;;
  x_C_13 <- lil_assign x_C_12 x_Ones ;;
  x_C_14 <- t_kronecker TyD noacc qtimes (MComp x_MNotLower) REPLACE x_C_13 (Mat x_A) (Mat x_B) ;;
  x_q_6 <- meq x_C_14 x_Answer_9x12_Lower ;;
  _ <- check x_q_6 ;;
  x_C_15 <- lil_assign x_C_14 x_Ones ;;
  x_C_16 <- t_kronecker TyD noacc qtimes (MComp x_MLower) REPLACE x_C_15 (Mat x_A) (Mat x_B) ;;
  x_q_7 <- meq x_C_16 x_Answer_9x12_NotLower ;;
  _ <- check x_q_7 ;;
  Ok tt) = Ok tt.
Proof. vm_compute. reflexivity. Qed.

(** test_kronecker_AB.cpp:1528-1567 *)
Example test_kronecker_CompMask_NoAccum_ABM_empty :
 (x_C <- mnew 9 12 ;;
  x_A <- mdense0 TyD d_A_sparse_3x3 0%Q ;;
  x_B <- mdense0 TyD d_B_sparse_3x4 0%Q ;;
  x_Ones <- mdense0 TyD d_Ones_9x12 0%Q ;;
  x_Empty <- mnew 9 12 ;;
  x_Empty3x3 <- mnew 3 3 ;;
  x_Empty3x4 <- mnew 3 4 ;;
  x_MLower <- mdense0 TyD d_Lower_9x12 0%Q ;;
  x_MNotLower <- mdense0 TyD d_NotLower_9x12 0%Q ;;
  x_C_1 <- lil_assign x_C x_Ones ;;
  x_C_2 <- t_kronecker TyD noacc qtimes (MComp x_Ones) MERGE x_C_1 (Mat x_A) (Mat x_B) ;;
  x_q <- meq x_C_2 x_Ones ;;
  _ <- check x_q ;;
  x_C_3 <- lil_assign x_C_2 x_Ones ;;
  x_C_4 <- t_kronecker TyD noacc qtimes (MComp x_MNotLower) MERGE x_C_3 (Mat x_Empty3x3) (Mat x_B)
    ;;
  x_q_1 <- meq x_C_4 x_MNotLower ;;
  _ <- check x_q_1 ;;
  x_C_5 <- lil_assign x_C_4 x_Ones ;;
  x_C_6 <- t_kronecker TyD noacc qtimes (MComp x_MNotLower) MERGE x_C_5 (Mat x_A) (Mat x_Empty3x4)
    ;;
  x_q_2 <- meq x_C_6 x_MNotLower ;;
  _ <- check x_q_2 ;;
  x_C_7 <- lil_assign x_C_6 x_Ones ;;
  x_C_8 <- t_kronecker TyD noacc qtimes (MComp x_Ones) REPLACE x_C_7 (Mat x_A) (Mat x_B) ;;
  x_q_3 <- meq x_C_8 x_Empty ;;
  _ <- check x_q_3 ;;
  x_C_9 <- lil_assign x_C_8 x_Ones ;;
  x_C_10 <- t_kronecker TyD noacc qtimes (MComp x_MNotLower) REPLACE x_C_9 (Mat x_Empty3x3) (Mat
    x_B) ;;
  x_q_4 <- meq x_C_10 x_Empty ;;
  _ <- check x_q_4 ;;
  x_C_11 <- lil_assign x_C_10 x_Ones ;;
  x_C_12 <- t_kronecker TyD noacc qtimes (MComp x_MNotLower) REPLACE x_C_11 (Mat x_A) (Mat
    x_Empty3x4) ;;
  x_q_5 <- meq x_C_12 x_Empty ;;
  _ <- check x_q_5 ;;
  Ok tt) = Ok tt.
Proof. vm_compute. reflexivity. Qed.

(** test_kronecker_AB.cpp:1570-1588 *)
Example test_kronecker_CompMask_NoAccum_ABM_dense :
 (x_A <- mdense0 TyD d_Ones_3x3 0%Q ;;
  x_B <- mdense0 TyD d_Ones_3x4 0%Q ;;
  x_MLower <- mdense0 TyD d_Lower_9x12 0%Q ;;
  x_MNotLower <- mdense0 TyD d_NotLower_9x12 0%Q ;;
  x_Ones <- mdense0 TyD d_Ones_9x12 0%Q ;;
  x_C <- mnew 9 12 ;;
  x_C_1 <- lil_assign x_C x_Ones ;;
  x_C_2 <- t_kronecker TyD noacc qtimes (MComp x_MNotLower) MERGE x_C_1 (Mat x_A) (Mat x_B) ;;
  x_q <- meq x_C_2 x_Ones ;;
  _ <- check x_q ;;
  x_C_3 <- lil_assign x_C_2 x_Ones ;;
  x_C_4 <- t_kronecker TyD noacc qtimes (MComp x_MNotLower) REPLACE x_C_3 (Mat x_A) (Mat x_B) ;;
  x_q_1 <- meq x_C_4 x_MLower ;;
  _ <- check x_q_1 ;;
  Ok tt) = Ok tt.
Proof. vm_compute. reflexivity. Qed.

(** test_kronecker_AB.cpp:1591-1612 *)
Example test_kronecker_CompMask_NoAccum_AB_empty_rows :
 (x_Ones <- mdense0 TyD d_Ones_9x12 0%Q ;;
  x_A <- mdense0 TyD d_Ar_sparse_3x3 0%Q ;;
  x_B <- mdense0 TyD d_Br_sparse_3x4 0%Q ;;
  x_answer <- mdense0 TyD d_Answer_rr_sparse_9x12 0%Q ;;
  x_C <- mnew 9 12 ;;
  x_MLower <- mdense0 TyD d_Lower_9x12 0%Q ;;
  x_MNotLower <- mdense0 TyD d_NotLower_9x12 0%Q ;;
  x_C_1 <- lil_assign x_C x_Ones ;;
  x_answer_1 <- t_eWiseMult TyD noacc TyD TyD qtimes NoMask MERGE x_answer (Mat x_MLower) (Mat
    x_answer) ;;
  x_C_2 <- t_kronecker TyD noacc qtimes (MComp x_MNotLower) REPLACE x_C_1 (Mat x_A) (Mat x_B) ;;
  x_q <- meq x_C_2 x_answer_1 ;;
  _ <- check x_q ;;
  x_C_3 <- lil_assign x_C_2 x_Ones ;;
  x_answer_2 <- t_eWiseAdd TyD noacc TyD TyD qplus NoMask MERGE x_answer_1 (Mat x_MNotLower) (Mat
    x_answer_1) ;;
  x_C_4 <- t_kronecker TyD noacc qtimes (MComp x_MNotLower) MERGE x_C_3 (Mat x_A) (Mat x_B) ;;
  x_q_1 <- meq x_C_4 x_answer_2 ;;
  _ <- check x_q_1 ;;
  Ok tt) = Ok tt.
Proof. vm_compute. reflexivity. Qed.

(** test_kronecker_AB.cpp:1615-1638 *)
Example test_kronecker_CompMask_NoAccum_AB_emptyRowA_emptyColB :
 (x_C <- mnew 9 12 ;;
  x_Ones <- mdense0 TyD d_Ones_9x12 0%Q ;;
  x_A <- mdense0 TyD d_Ar_sparse_3x3 0%Q ;;
  x_B <- mdense0 TyD d_Bc_sparse_3x4 0%Q ;;
  x_answer <- mdense0 TyD d_Answer_rc_sparse_9x12 0%Q ;;
  x_MLower <- mdense0 TyD d_Lower_9x12 0%Q ;;
  x_MNotLower <- mdense0 TyD d_NotLower_9x12 0%Q ;;
  x_C_1 <- lil_assign x_C x_Ones ;;
  x_answer_1 <- t_eWiseMult TyD noacc TyD TyD qtimes NoMask MERGE x_answer (Mat x_MLower) (Mat
    x_answer) ;;
  x_C_2 <- t_kronecker TyD noacc qtimes (MComp x_MNotLower) REPLACE x_C_1 (Mat x_A) (Mat x_B) ;;
  x_q <- meq x_C_2 x_answer_1 ;;
  _ <- check x_q ;;
  x_C_3 <- lil_assign x_C_2 x_Ones ;;
  x_answer_2 <- t_eWiseAdd TyD noacc TyD TyD qplus NoMask MERGE x_answer_1 (Mat x_MNotLower) (Mat
    x_answer_1) ;;
  x_C_4 <- t_kronecker TyD noacc qtimes (MComp x_MNotLower) MERGE x_C_3 (Mat x_A) (Mat x_B) ;;
  x_q_1 <- meq x_C_4 x_answer_2 ;;
  _ <- check x_q_1 ;;
  Ok tt) = Ok tt.
Proof. vm_compute. reflexivity. Qed.

(** test_kronecker_AB.cpp:1641-1663 *)
Example test_kronecker_CompMask_NoAccum_AB_emptyColA_emptyRowB :
 (x_C <- mnew 9 12 ;;
  x_Ones <- mdense0 TyD d_Ones_9x12 0%Q ;;
  x_A <- mdense0 TyD d_Ac_sparse_3x3 0%Q ;;
  x_B <- mdense0 TyD d_Br_sparse_3x4 0%Q ;;
  x_answer <- mdense0 TyD d_Answer_cr_sparse_9x12 0%Q ;;
  x_MLower <- mdense0 TyD d_Lower_9x12 0%Q ;;
  x_MNotLower <- mdense0 TyD d_NotLower_9x12 0%Q ;;
  x_C_1 <- lil_assign x_C x_Ones ;;
  x_answer_1 <- t_eWiseMult TyD noacc TyD TyD qtimes NoMask MERGE x_answer (Mat x_MLower) (Mat
    x_answer) ;;
  x_C_2 <- t_kronecker TyD noacc qtimes (MComp x_MNotLower) REPLACE x_C_1 (Mat x_A) (Mat x_B) ;;
  x_q <- meq x_C_2 x_answer_1 ;;
  _ <- check x_q ;;
  x_C_3 <- lil_assign x_C_2 x_Ones ;;
  x_answer_2 <- t_eWiseAdd TyD noacc TyD TyD qplus NoMask MERGE x_answer_1 (Mat x_MNotLower) (Mat
    x_answer_1) ;;
  x_C_4 <- t_kronecker TyD noacc qtimes (MComp x_MNotLower) MERGE x_C_3 (Mat x_A) (Mat x_B) ;;
  x_q_1 <- meq x_C_4 x_answer_2 ;;
  _ <- check x_q_1 ;;
  Ok tt) = Ok tt.
Proof. vm_compute. reflexivity. Qed.

(** test_kronecker_AB.cpp:1666-1689 *)
Example test_kronecker_CompMask_NoAccum_AB_emptyRowM :
 (x_C <- mnew 9 12 ;;
  x_Ones <- mdense0 TyD d_Ones_9x12 0%Q ;;
  x_A <- mdense0 TyD d_A_sparse_3x3 0%Q ;;
  x_B <- mdense0 TyD d_B_sparse_3x4 0%Q ;;
  x_answer <- mdense0 TyD d_Answer_sparse_9x12 0%Q ;;
  x_MLower <- mdense0 TyD d_Lower_9x12 0%Q ;;
  x_MNotLower <- mdense0 TyD d_NotLower_9x12 0%Q ;;
  x_C_1 <- lil_assign x_C x_Ones ;;
  x_answer_1 <- t_eWiseMult TyD noacc TyD TyD qtimes NoMask MERGE x_answer (Mat x_MLower) (Mat
    x_answer) ;;
  x_C_2 <- t_kronecker TyD noacc qtimes (MComp x_MNotLower) REPLACE x_C_1 (Mat x_A) (Mat x_B) ;;
  x_q <- meq x_C_2 x_answer_1 ;;
  _ <- check x_q ;;
  x_C_3 <- lil_assign x_C_2 x_Ones ;;
  x_answer_2 <- t_eWiseAdd TyD noacc TyD TyD qplus NoMask MERGE x_answer_1 (Mat x_MNotLower) (Mat
    x_answer_1) ;;
  x_C_4 <- t_kronecker TyD noacc qtimes (MComp x_MNotLower) MERGE x_C_3 (Mat x_A) (Mat x_B) ;;
  x_q_1 <- meq x_C_4 x_answer_2 ;;
  _ <- check x_q_1 ;;
  Ok tt) = Ok tt.
Proof. vm_compute. reflexivity. Qed.

(** test_kronecker_AB.cpp:1692-1714 *)
Example test_kronecker_CompMask_NoAccum_AB_ABdup :
 (x_C <- mnew 9 9 ;;
  x_Ones <- mdense0 TyD d_Ones_9x9 0%Q ;;
  x_A <- mdense0 TyD d_A_sparse_3x3 0%Q ;;
  x_answer <- mdense0 TyD d_AA_sparse_9x9 0%Q ;;
  x_MLower <- mdense0 TyD d_Lower_9x9 0%Q ;;
  x_MNotLower <- mdense0 TyD d_NotLower_9x9 0%Q ;;
  x_C_1 <- lil_assign x_C x_Ones ;;
  x_answer_1 <- t_eWiseMult TyD noacc TyD TyD qtimes NoMask MERGE x_answer (Mat x_MLower) (Mat
    x_answer) ;;
  x_C_2 <- t_kronecker TyD noacc qtimes (MComp x_MNotLower) REPLACE x_C_1 (Mat x_A) (Mat x_A) ;;
  x_q <- meq x_C_2 x_answer_1 ;;
  _ <- check x_q ;;
  x_C_3 <- lil_assign x_C_2 x_Ones ;;
  x_answer_2 <- t_eWiseAdd TyD noacc TyD TyD qplus NoMask MERGE x_answer_1 (Mat x_MNotLower) (Mat
    x_answer_1) ;;
  x_C_4 <- t_kronecker TyD noacc qtimes (MComp x_MNotLower) MERGE x_C_3 (Mat x_A) (Mat x_A) ;;
  x_q_1 <- meq x_C_4 x_answer_2 ;;
  _ <- check x_q_1 ;;
  Ok tt) = Ok tt.
Proof. vm_compute. reflexivity. Qed.

(** test_kronecker_AB.cpp:1717-1742 *)
Example test_kronecker_CompMask_NoAccum_AB_ACdup :
 (x_Ones <- mdense0 TyD d_Ones_3x4 0%Q ;;
  x_mat <- mdense0 TyD d_B_sparse_3x4 0%Q ;;
  x_C <- mnew 3 4 ;;
  x_B <- mnew 1 1 ;;
  x_B_1 <- lil_setElement x_B 0 0 (cast TyD 1%Q) ;;
  x_MLower <- mdense0 TyD d_Lower_3x4 0%Q ;;
  x_MNotLower <- mdense0 TyD d_NotLower_3x4 0%Q ;;
  x_C_1 <- lil_assign x_C x_mat ;;
  x_answer <- t_eWiseMult TyD noacc TyD TyD qtimes NoMask MERGE x_mat (Mat x_MLower) (Mat x_mat) ;;
  x_C_2 <- t_kronecker TyD noacc qtimes (MComp x_MNotLower) REPLACE x_C_1 (Mat x_C_1) (Mat x_B_1) ;;
  x_q <- meq x_C_2 x_answer ;;
  _ <- check x_q ;;
  x_C_3 <- lil_assign x_C_2 x_mat ;;
  x_C_4 <- t_kronecker TyD noacc qtimes (MComp x_MNotLower) MERGE x_C_3 (Mat x_C_3) (Mat x_B_1) ;;
  x_q_1 <- meq x_C_4 x_mat ;;
  _ <- check x_q_1 ;;
  Ok tt) = Ok tt.
Proof. vm_compute. reflexivity. Qed.

(** test_kronecker_AB.cpp:1745-1768 *)
Example test_kronecker_CompMask_NoAccum_AB_BCdup :
 (x_mat <- mdense0 TyD d_B_sparse_3x4 0%Q ;;
  x_C <- mnew 3 4 ;;
  x_A <- mnew 1 1 ;;
  x_A_1 <- lil_setElement x_A 0 0 (cast TyD 1%Q) ;;
  x_MLower <- mdense0 TyD d_Lower_3x4 0%Q ;;
  x_MNotLower <- mdense0 TyD d_NotLower_3x4 0%Q ;;
  x_C_1 <- lil_assign x_C x_mat ;;
  x_answer <- t_eWiseMult TyD noacc TyD TyD qtimes NoMask MERGE x_mat (Mat x_MLower) (Mat x_mat) ;;
  x_C_2 <- t_kronecker TyD noacc qtimes (MComp x_MNotLower) REPLACE x_C_1 (Mat x_A_1) (Mat x_C_1) ;;
  x_q <- meq x_C_2 x_answer ;;
  _ <- check x_q ;;
  x_C_3 <- lil_assign x_C_2 x_mat ;;
  x_C_4 <- t_kronecker TyD noacc qtimes (MComp x_MNotLower) MERGE x_C_3 (Mat x_A_1) (Mat x_C_3) ;;
  x_q_1 <- meq x_C_4 x_mat ;;
  _ <- check x_q_1 ;;
  Ok tt) = Ok tt.
Proof. vm_compute. reflexivity. Qed.

(** test_kronecker_AB.cpp:1771-1796 *)
Example test_kronecker_CompMask_NoAccum_AB_MCdup :
 (x_C <- mnew 9 12 ;;
  x_Ones <- mdense0 TyD d_Ones_9x12 0%Q ;;
  x_A <- mdense0 TyD d_A_sparse_3x3 0%Q ;;
  x_B <- mdense0 TyD d_B_sparse_3x4 0%Q ;;
  x_answer <- mdense0 TyD d_Answer_sparse_9x12 0%Q ;;
  x_MLower <- mdense0 TyD d_Lower_9x12 0%Q ;;
  x_MNotLower <- mdense0 TyD d_NotLower_9x12 0%Q ;;
  x_C_1 <- lil_assign x_C x_MLower ;;
  x_answer_1 <- t_eWiseMult TyD noacc TyD TyD qtimes NoMask MERGE x_answer (Mat x_MNotLower) (Mat
    x_answer) ;;
  x_C_2 <- t_kronecker TyD noacc qtimes (MComp x_C_1) REPLACE x_C_1 (Mat x_A) (Mat x_B) ;;
  x_q <- meq x_C_2 x_answer_1 ;;
  _ <- check x_q ;;
  x_C_3 <- lil_assign x_C_2 x_MLower ;;
  x_answer_2 <- t_eWiseAdd TyD noacc TyD TyD qplus NoMask MERGE x_answer_1 (Mat x_MLower) (Mat
    x_answer_1) ;;
  x_C_4 <- t_kronecker TyD noacc qtimes (MComp x_C_3) MERGE x_C_3 (Mat x_A) (Mat x_B) ;;
  x_q_1 <- meq x_C_4 x_answer_2 ;;
  _ <- check x_q_1 ;;
  Ok tt) = Ok tt.
Proof. vm_compute. reflexivity. Qed.

(** test_kronecker_AB.cpp:1803-1873 *)
Example test_kronecker_CompMask_Accum_AB :
 (x_C <- mnew 9 12 ;;
  x_A <- mdense0 TyD d_A_sparse_3x3 0%Q ;;
  x_B <- mdense0 TyD d_B_sparse_3x4 0%Q ;;
  x_Identity <- mdense0 TyD d_Identity_3x3 0%Q ;;
  x_answer <- mnew 9 12 ;;
  x_Empty <- mnew 9 12 ;;
  x_Ones <- mdense0 TyD d_Ones_9x12 0%Q ;;
  x_MLower <- mdense0 TyD d_Lower_9x12 0%Q ;;
  x_MNotLower <- mdense0 TyD d_NotLower_9x12 0%Q ;;
  x_Answer_9x12 <- mdense0 TyD d_Answer_sparse_9x12 0%Q ;;
  x_Answer_9x12_Lower <- mdense0 TyD d_Answer_sparse_9x12_Lower 0%Q ;;
  x_Answer_9x12_NotLower <- mdense0 TyD d_Answer_sparse_9x12_NotLower 0%Q ;;
  x_Answer_9x12_Lower_Ones <- mdense0 TyD d_Answer_sparse_9x12_Lower_Ones 0%Q ;;
  x_Answer_9x12_NotLower_Ones <- mdense0 TyD d_Answer_sparse_9x12_NotLower_Ones 0%Q ;;
  x_C_1 <- lil_assign x_C x_Ones ;;
  x_C_2 <- t_kronecker TyD (acc TyD qplus) qtimes (MComp x_Ones) MERGE x_C_1 (Mat x_A) (Mat x_B) ;;
  x_q <- meq x_C_2 x_Ones ;;
  _ <- check x_q ;;
  x_C_3 <- lil_assign x_C_2 x_Ones ;;
  x_answer_1 <- t_eWiseAdd TyD noacc TyD TyD qplus NoMask MERGE x_answer (Mat x_Ones) (Mat
    x_Answer_9x12) ;;
  x_C_4 <- t_kronecker TyD (acc TyD qplus) qtimes (MComp x_Empty) MERGE x_C_3 (Mat x_A) (Mat x_B) ;;
  x_q_1 <- meq x_C_4 x_answer_1 ;;
  _ <- check x_q_1 ;;
  x_C_5 <- lil_assign x_C_4 x_Ones ;;
  x_answer_2 <- t_eWiseAdd TyD noacc TyD TyD qplus NoMask MERGE x_answer_1 (Mat x_Ones) (Mat
    x_Answer_9x12_Lower) ;;
  x_C_6 <- t_kronecker TyD (acc TyD qplus) qtimes (MComp x_MNotLower) MERGE x_C_5 (Mat x_A) (Mat
    x_B) ;;
  x_q_2 <- meq x_C_6 x_answer_2 ;;
  _ <- check x_q_2 ;;
  x_C_7 <- lil_assign x_C_6 x_Ones ;;
  x_answer_3 <- t_eWiseAdd TyD noacc TyD TyD qplus NoMask MERGE x_answer_2 (Mat x_Ones) (Mat
    x_Answer_9x12_NotLower) ;;
  x_C_8 <- t_kronecker TyD (acc TyD qplus) qtimes (MComp x_MLower) MERGE x_C_7 (Mat x_A) (Mat x_B)
    ;;
  x_q_3 <- meq x_C_8 x_answer_3 ;;
  _ <- check x_q_3 ;;
  x_C_9 <- lil_assign x_C_8 x_Ones ;;
  x_C_10 <- t_kronecker TyD (acc TyD qplus) qtimes (MComp x_Ones) REPLACE x_C_9 (Mat x_A) (Mat x_B)
    ;;
  x_q_4 <- meq x_C_10 x_Empty ;;
  _ <- check x_q_4 ;;
  x_C_11 <- lil_assign x_C_10 x_Ones ;;
  x_answer_4 <- t_eWiseAdd TyD noacc TyD TyD qplus NoMask MERGE x_answer_3 (Mat x_Ones) (Mat
    x_Answer_9x12) ;;
  x_C_12 <- t_kronecker TyD (acc TyD qplus) qtimes (MComp x_Empty) REPLACE x_C_11 (Mat x_A) (Mat
    x_B) ;;
  x_q_5 <- meq x_C_12 x_answer_4 ;;
  _ <- check x_q_5 ;;
  x_C_13 <- lil_assign x_C_12 x_Ones ;;
  x_answer_5 <- t_eWiseAdd TyD noacc TyD TyD qplus NoMask MERGE x_answer_4 (Mat x_MLower) (Mat
    x_Answer_9x12_Lower) ;;
  x_C_14 <- t_kronecker TyD (acc TyD qplus) qtimes (MComp x_MNotLower) REPLACE x_C_13 (Mat x_A) (Mat
    x_B) ;;
  x_q_6 <- meq x_C_14 x_answer_5 ;;
  _ <- check x_q_6 ;;
  x_C_15 <- lil_assign x_C_14 x_Ones ;;
  x_answer_6 <- t_eWiseAdd TyD noacc TyD TyD qplus NoMask MERGE x_answer_5 (Mat x_MNotLower) (Mat
    x_Answer_9x12_NotLower) ;;
  x_C_16 <- t_kronecker TyD (acc TyD qplus) qtimes (MComp x_MLower) REPLACE x_C_15 (Mat x_A) (Mat
    x_B) ;;
  x_q_7 <- meq x_C_16 x_answer_6 ;;
  _ <- check x_q_7 ;;
  Ok tt) = Ok tt.
Proof. vm_compute. reflexivity. Qed.

(** test_kronecker_AB.cpp:1876-1915 *)
Example test_kronecker_CompMask_Accum_ABM_empty :
 (x_C <- mnew 9 12 ;;
  x_A <- mdense0 TyD d_A_sparse_3x3 0%Q ;;
  x_B <- mdense0 TyD d_B_sparse_3x4 0%Q ;;
  x_Ones <- mdense0 TyD d_Ones_9x12 0%Q ;;
  x_Empty <- mnew 9 12 ;;
  x_Empty3x3 <- mnew 3 3 ;;
  x_Empty3x4 <- mnew 3 4 ;;
  x_MLower <- mdense0 TyD d_Lower_9x12 0%Q ;;
  x_MNotLower <- mdense0 TyD d_NotLower_9x12 0%Q ;;
  x_C_1 <- lil_assign x_C x_Ones ;;
  x_C_2 <- t_kronecker TyD (acc TyD qplus) qtimes (MComp x_Ones) MERGE x_C_1 (Mat x_A) (Mat x_B) ;;
  x_q <- meq x_C_2 x_Ones ;;
  _ <- check x_q ;;
  x_C_3 <- lil_assign x_C_2 x_Ones ;;
  x_C_4 <- t_kronecker TyD (acc TyD qplus) qtimes (MComp x_MNotLower) MERGE x_C_3 (Mat x_Empty3x3)
    (Mat x_B) ;;
  x_q_1 <- meq x_C_4 x_Ones ;;
  _ <- check x_q_1 ;;
  x_C_5 <- lil_assign x_C_4 x_Ones ;;
  x_C_6 <- t_kronecker TyD (acc TyD qplus) qtimes (MComp x_MNotLower) MERGE x_C_5 (Mat x_A) (Mat
    x_Empty3x4) ;;
  x_q_2 <- meq x_C_6 x_Ones ;;
  _ <- check x_q_2 ;;
  x_C_7 <- lil_assign x_C_6 x_Ones ;;
  x_C_8 <- t_kronecker TyD (acc TyD qplus) qtimes (MComp x_Ones) REPLACE x_C_7 (Mat x_A) (Mat x_B)
    ;;
  x_q_3 <- meq x_C_8 x_Empty ;;
  _ <- check x_q_3 ;;
  x_C_9 <- lil_assign x_C_8 x_Ones ;;
  x_C_10 <- t_kronecker TyD (acc TyD qplus) qtimes (MComp x_MNotLower) REPLACE x_C_9 (Mat
    x_Empty3x3) (Mat x_B) ;;
  x_q_4 <- meq x_C_10 x_MLower ;;
  _ <- check x_q_4 ;;
  x_C_11 <- lil_assign x_C_10 x_Ones ;;
  x_C_12 <- t_kronecker TyD (acc TyD qplus) qtimes (MComp x_MNotLower) REPLACE x_C_11 (Mat x_A) (Mat
    x_Empty3x4) ;;
  x_q_5 <- meq x_C_12 x_MLower ;;
  _ <- check x_q_5 ;;
  Ok tt) = Ok tt.
Proof. vm_compute. reflexivity. Qed.

(** test_kronecker_AB.cpp:1918-1941 *)
Example test_kronecker_CompMask_Accum_ABM_dense :
 (x_A <- mdense0 TyD d_Ones_3x3 0%Q ;;
  x_B <- mdense0 TyD d_Ones_3x4 0%Q ;;
  x_MLower <- mdense0 TyD d_Lower_9x12 0%Q ;;
  x_MNotLower <- mdense0 TyD d_NotLower_9x12 0%Q ;;
  x_Ones <- mdense0 TyD d_Ones_9x12 0%Q ;;
  x_C <- mnew 9 12 ;;
  x_answer <- mnew 9 12 ;;
  x_C_1 <- lil_assign x_C x_Ones ;;
  x_C_2 <- t_kronecker TyD (acc TyD qplus) qtimes (MComp x_MNotLower) MERGE x_C_1 (Mat x_A) (Mat
    x_B) ;;
  x_answer_1 <- t_eWiseAdd TyD noacc TyD TyD qplus NoMask MERGE x_answer (Mat x_Ones) (Mat x_MLower)
    ;;
  x_q <- meq x_C_2 x_answer_1 ;;
  _ <- check x_q ;;
  x_C_3 <- lil_assign x_C_2 x_Ones ;;
  x_C_4 <- t_kronecker TyD (acc TyD qplus) qtimes (MComp x_MNotLower) REPLACE x_C_3 (Mat x_A) (Mat
    x_B) ;;
  x_answer_2 <- t_eWiseAdd TyD noacc TyD TyD qplus NoMask MERGE x_answer_1 (Mat x_MLower) (Mat
    x_MLower) ;;
  x_q_1 <- meq x_C_4 x_answer_2 ;;
  _ <- check x_q_1 ;;
  Ok tt) = Ok tt.
Proof. vm_compute. reflexivity. Qed.

(** test_kronecker_AB.cpp:1944-1965 *)
Example test_kronecker_CompMask_Accum_AB_empty_rows :
 (x_Ones <- mdense0 TyD d_Ones_9x12 0%Q ;;
  x_A <- mdense0 TyD d_Ar_sparse_3x3 0%Q ;;
  x_B <- mdense0 TyD d_Br_sparse_3x4 0%Q ;;
  x_answer <- mdense0 TyD d_Answer_rr_sparse_9x12 0%Q ;;
  x_C <- mnew 9 12 ;;
  x_MLower <- mdense0 TyD d_Lower_9x12 0%Q ;;
  x_MNotLower <- mdense0 TyD d_NotLower_9x12 0%Q ;;
  x_C_1 <- lil_assign x_C x_Ones ;;
  x_answer_1 <- t_eWiseMult TyD noacc TyD TyD qtimes NoMask MERGE x_answer (Mat x_MLower) (Mat
    x_answer) ;;
  x_answer_2 <- t_eWiseAdd TyD noacc TyD TyD qplus NoMask MERGE x_answer_1 (Mat x_MLower) (Mat
    x_answer_1) ;;
  x_C_2 <- t_kronecker TyD (acc TyD qplus) qtimes (MComp x_MNotLower) REPLACE x_C_1 (Mat x_A) (Mat
    x_B) ;;
  x_q <- meq x_C_2 x_answer_2 ;;
  _ <- check x_q ;;
  x_C_3 <- lil_assign x_C_2 x_Ones ;;
  x_answer_3 <- t_eWiseAdd TyD noacc TyD TyD qplus NoMask MERGE x_answer_2 (Mat x_MNotLower) (Mat
    x_answer_2) ;;
  x_C_4 <- t_kronecker TyD (acc TyD qplus) qtimes (MComp x_MNotLower) MERGE x_C_3 (Mat x_A) (Mat
    x_B) ;;
  x_q_1 <- meq x_C_4 x_answer_3 ;;
  _ <- check x_q_1 ;;
  Ok tt) = Ok tt.
Proof. vm_compute. reflexivity. Qed.

(** test_kronecker_AB.cpp:1968-1991 *)
Example test_kronecker_CompMask_Accum_AB_emptyRowA_emptyColB :
 (x_C <- mnew 9 12 ;;
  x_Ones <- mdense0 TyD d_Ones_9x12 0%Q ;;
  x_A <- mdense0 TyD d_Ar_sparse_3x3 0%Q ;;
  x_B <- mdense0 TyD d_Bc_sparse_3x4 0%Q ;;
  x_answer <- mdense0 TyD d_Answer_rc_sparse_9x12 0%Q ;;
  x_MLower <- mdense0 TyD d_Lower_9x12 0%Q ;;
  x_MNotLower <- mdense0 TyD d_NotLower_9x12 0%Q ;;
  x_C_1 <- lil_assign x_C x_Ones ;;
  x_answer_1 <- t_eWiseMult TyD noacc TyD TyD qtimes NoMask MERGE x_answer (Mat x_MLower) (Mat
    x_answer) ;;
  x_answer_2 <- t_eWiseAdd TyD noacc TyD TyD qplus NoMask MERGE x_answer_1 (Mat x_MLower) (Mat
    x_answer_1) ;;
  x_C_2 <- t_kronecker TyD (acc TyD qplus) qtimes (MComp x_MNotLower) REPLACE x_C_1 (Mat x_A) (Mat
    x_B) ;;
  x_q <- meq x_C_2 x_answer_2 ;;
  _ <- check x_q ;;
  x_C_3 <- lil_assign x_C_2 x_Ones ;;
  x_answer_3 <- t_eWiseAdd TyD noacc TyD TyD qplus NoMask MERGE x_answer_2 (Mat x_MNotLower) (Mat
    x_answer_2) ;;
  x_C_4 <- t_kronecker TyD (acc TyD qplus) qtimes (MComp x_MNotLower) MERGE x_C_3 (Mat x_A) (Mat
    x_B) ;;
  x_q_1 <- meq x_C_4 x_answer_3 ;;
  _ <- check x_q_1 ;;
  Ok tt) = Ok tt.
Proof. vm_compute. reflexivity. Qed.

(** test_kronecker_AB.cpp:1994-2017 *)
Example test_kronecker_CompMask_Accum_AB_emptyColA_emptyRowB :
 (x_C <- mnew 9 12 ;;
  x_Ones <- mdense0 TyD d_Ones_9x12 0%Q ;;
  x_A <- mdense0 TyD d_Ac_sparse_3x3 0%Q ;;
  x_B <- mdense0 TyD d_Br_sparse_3x4 0%Q ;;
  x_answer <- mdense0 TyD d_Answer_cr_sparse_9x12 0%Q ;;
  x_MLower <- mdense0 TyD d_Lower_9x12 0%Q ;;
  x_MNotLower <- mdense0 TyD d_NotLower_9x12 0%Q ;;
  x_C_1 <- lil_assign x_C x_Ones ;;
  x_answer_1 <- t_eWiseMult TyD noacc TyD TyD qtimes NoMask MERGE x_answer (Mat x_MLower) (Mat
    x_answer) ;;
  x_answer_2 <- t_eWiseAdd TyD noacc TyD TyD qplus NoMask MERGE x_answer_1 (Mat x_MLower) (Mat
    x_answer_1) ;;
  x_C_2 <- t_kronecker TyD (acc TyD qplus) qtimes (MComp x_MNotLower) REPLACE x_C_1 (Mat x_A) (Mat
    x_B) ;;
  x_q <- meq x_C_2 x_answer_2 ;;
  _ <- check x_q ;;
  x_C_3 <- lil_assign x_C_2 x_Ones ;;
  x_answer_3 <- t_eWiseAdd TyD noacc TyD TyD qplus NoMask MERGE x_answer_2 (Mat x_MNotLower) (Mat
    x_answer_2) ;;
  x_C_4 <- t_kronecker TyD (acc TyD qplus) qtimes (MComp x_MNotLower) MERGE x_C_3 (Mat x_A) (Mat
    x_B) ;;
  x_q_1 <- meq x_C_4 x_answer_3 ;;
  _ <- check x_q_1 ;;
  Ok tt) = Ok tt.
Proof. vm_compute. reflexivity. Qed.

(** test_kronecker_AB.cpp:2020-2043 *)
Example test_kronecker_CompMask_Accum_ABM_emptyRowM :
 (x_C <- mnew 9 12 ;;
  x_Ones <- mdense0 TyD d_Ones_9x12 0%Q ;;
  x_A <- mdense0 TyD d_A_sparse_3x3 0%Q ;;
  x_B <- mdense0 TyD d_B_sparse_3x4 0%Q ;;
  x_answer <- mdense0 TyD d_Answer_sparse_9x12 0%Q ;;
  x_MLower <- mdense0 TyD d_Lower_9x12 0%Q ;;
  x_MNotLower <- mdense0 TyD d_NotLower_9x12 0%Q ;;
  x_C_1 <- lil_assign x_C x_Ones ;;
  x_answer_1 <- t_eWiseMult TyD noacc TyD TyD qtimes NoMask MERGE x_answer (Mat x_MLower) (Mat
    x_answer) ;;
  x_answer_2 <- t_eWiseAdd TyD noacc TyD TyD qplus NoMask MERGE x_answer_1 (Mat x_MLower) (Mat
    x_answer_1) ;;
  x_C_2 <- t_kronecker TyD (acc TyD qplus) qtimes (MComp x_MNotLower) REPLACE x_C_1 (Mat x_A) (Mat
    x_B) ;;
  x_q <- meq x_C_2 x_answer_2 ;;
  _ <- check x_q ;;
  x_C_3 <- lil_assign x_C_2 x_Ones ;;
  x_answer_3 <- t_eWiseAdd TyD noacc TyD TyD qplus NoMask MERGE x_answer_2 (Mat x_MNotLower) (Mat
    x_answer_2) ;;
  x_C_4 <- t_kronecker TyD (acc TyD qplus) qtimes (MComp x_MNotLower) MERGE x_C_3 (Mat x_A) (Mat
    x_B) ;;
  x_q_1 <- meq x_C_4 x_answer_3 ;;
  _ <- check x_q_1 ;;
  Ok tt) = Ok tt.
Proof. vm_compute. reflexivity. Qed.

(** test_kronecker_AB.cpp:2046-2069 *)
Example test_kronecker_CompMask_Accum_AB_ABdup :
 (x_C <- mnew 9 9 ;;
  x_Ones <- mdense0 TyD d_Ones_9x9 0%Q ;;
  x_A <- mdense0 TyD d_A_sparse_3x3 0%Q ;;
  x_answer <- mdense0 TyD d_AA_sparse_9x9 0%Q ;;
  x_MLower <- mdense0 TyD d_Lower_9x9 0%Q ;;
  x_MNotLower <- mdense0 TyD d_NotLower_9x9 0%Q ;;
  x_C_1 <- lil_assign x_C x_Ones ;;
  x_answer_1 <- t_eWiseMult TyD noacc TyD TyD qtimes NoMask MERGE x_answer (Mat x_MLower) (Mat
    x_answer) ;;
  x_answer_2 <- t_eWiseAdd TyD noacc TyD TyD qplus NoMask MERGE x_answer_1 (Mat x_MLower) (Mat
    x_answer_1) ;;
  x_C_2 <- t_kronecker TyD (acc TyD qplus) qtimes (MComp x_MNotLower) REPLACE x_C_1 (Mat x_A) (Mat
    x_A) ;;
  x_q <- meq x_C_2 x_answer_2 ;;
  _ <- check x_q ;;
  x_C_3 <- lil_assign x_C_2 x_Ones ;;
  x_answer_3 <- t_eWiseAdd TyD noacc TyD TyD qplus NoMask MERGE x_answer_2 (Mat x_MNotLower) (Mat
    x_answer_2) ;;
  x_C_4 <- t_kronecker TyD (acc TyD qplus) qtimes (MComp x_MNotLower) MERGE x_C_3 (Mat x_A) (Mat
    x_A) ;;
  x_q_1 <- meq x_C_4 x_answer_3 ;;
  _ <- check x_q_1 ;;
  Ok tt) = Ok tt.
Proof. vm_compute. reflexivity. Qed.

(** test_kronecker_AB.cpp:2072-2098 *)
Example test_kronecker_CompMask_Accum_AB_ACdup :
 (x_Ones <- mdense0 TyD d_Ones_3x4 0%Q ;;
  x_mat <- mdense0 TyD d_B_sparse_3x4 0%Q ;;
  x_C <- mnew 3 4 ;;
  x_B <- mnew 1 1 ;;
  x_B_1 <- lil_setElement x_B 0 0 (cast TyD 1%Q) ;;
  x_MLower <- mdense0 TyD d_Lower_3x4 0%Q ;;
  x_MNotLower <- mdense0 TyD d_NotLower_3x4 0%Q ;;
  x_C_1 <- lil_assign x_C x_mat ;;
  x_answer <- t_eWiseMult TyD noacc TyD TyD qtimes NoMask MERGE x_mat (Mat x_MLower) (Mat x_mat) ;;
  x_answer_1 <- t_eWiseAdd TyD noacc TyD TyD qplus NoMask MERGE x_answer (Mat x_answer) (Mat
    x_answer) ;;
  x_C_2 <- t_kronecker TyD (acc TyD qplus) qtimes (MComp x_MNotLower) REPLACE x_C_1 (Mat x_C_1) (Mat
    x_B_1) ;;
  x_q <- meq x_C_2 x_answer_1 ;;
  _ <- check x_q ;;
  x_C_3 <- lil_assign x_C_2 x_mat ;;
  x_answer_2 <- t_eWiseMult TyD noacc TyD TyD qtimes NoMask MERGE x_answer_1 (Mat x_MLower) (Mat
    x_mat) ;;
  x_answer_3 <- t_eWiseAdd TyD noacc TyD TyD qplus NoMask MERGE x_answer_2 (Mat x_mat) (Mat
    x_answer_2) ;;
  x_C_4 <- t_kronecker TyD (acc TyD qplus) qtimes (MComp x_MNotLower) MERGE x_C_3 (Mat x_C_3) (Mat
    x_B_1) ;;
  x_q_1 <- meq x_C_4 x_answer_3 ;;
  _ <- check x_q_1 ;;
  Ok tt) = Ok tt.
Proof. vm_compute. reflexivity. Qed.

(** test_kronecker_AB.cpp:2101-2127 *)
Example test_kronecker_CompMask_Accum_AB_BCdup :
 (x_mat <- mdense0 TyD d_B_sparse_3x4 0%Q ;;
  x_C <- mnew 3 4 ;;
  x_A <- mnew 1 1 ;;
  x_A_1 <- lil_setElement x_A 0 0 (cast TyD 1%Q) ;;
  x_MLower <- mdense0 TyD d_Lower_3x4 0%Q ;;
  x_MNotLower <- mdense0 TyD d_NotLower_3x4 0%Q ;;
  x_C_1 <- lil_assign x_C x_mat ;;
  x_answer <- t_eWiseMult TyD noacc TyD TyD qtimes NoMask MERGE x_mat (Mat x_MLower) (Mat x_mat) ;;
  x_answer_1 <- t_eWiseAdd TyD noacc TyD TyD qplus NoMask MERGE x_answer (Mat x_answer) (Mat
    x_answer) ;;
  x_C_2 <- t_kronecker TyD (acc TyD qplus) qtimes (MComp x_MNotLower) REPLACE x_C_1 (Mat x_A_1) (Mat
    x_C_1) ;;
  x_q <- meq x_C_2 x_answer_1 ;;
  _ <- check x_q ;;
  x_C_3 <- lil_assign x_C_2 x_mat ;;
  x_answer_2 <- t_eWiseMult TyD noacc TyD TyD qtimes NoMask MERGE x_answer_1 (Mat x_MLower) (Mat
    x_mat) ;;
  x_answer_3 <- t_eWiseAdd TyD noacc TyD TyD qplus NoMask MERGE x_answer_2 (Mat x_answer_2) (Mat
    x_mat) ;;
  x_C_4 <- t_kronecker TyD (acc TyD qplus) qtimes (MComp x_MNotLower) MERGE x_C_3 (Mat x_A_1) (Mat
    x_C_3) ;;
  x_q_1 <- meq x_C_4 x_answer_3 ;;
  _ <- check x_q_1 ;;
  Ok tt) = Ok tt.
Proof. vm_compute. reflexivity. Qed.

(** test_kronecker_AB.cpp:2130-2155 *)
Example test_kronecker_CompMask_Accum_AB_MCdup :
 (x_C <- mnew 9 12 ;;
  x_Ones <- mdense0 TyD d_Ones_9x12 0%Q ;;
  x_A <- mdense0 TyD d_A_sparse_3x3 0%Q ;;
  x_B <- mdense0 TyD d_B_sparse_3x4 0%Q ;;
  x_answer <- mdense0 TyD d_Answer_sparse_9x12 0%Q ;;
  x_MLower <- mdense0 TyD d_Lower_9x12 0%Q ;;
  x_MNotLower <- mdense0 TyD d_NotLower_9x12 0%Q ;;
  x_C_1 <- lil_assign x_C x_MLower ;;
  x_answer_1 <- t_eWiseMult TyD noacc TyD TyD qtimes NoMask MERGE x_answer (Mat x_MNotLower) (Mat
    x_answer) ;;
  x_C_2 <- t_kronecker TyD (acc TyD qplus) qtimes (MComp x_C_1) REPLACE x_C_1 (Mat x_A) (Mat x_B) ;;
  x_q <- meq x_C_2 x_answer_1 ;;
  _ <- check x_q ;;
  x_C_3 <- lil_assign x_C_2 x_MLower ;;
  x_answer_2 <- t_eWiseAdd TyD noacc TyD TyD qplus NoMask MERGE x_answer_1 (Mat x_MLower) (Mat
    x_answer_1) ;;
  x_C_4 <- t_kronecker TyD (acc TyD qplus) qtimes (MComp x_C_3) MERGE x_C_3 (Mat x_A) (Mat x_B) ;;
  x_q_1 <- meq x_C_4 x_answer_2 ;;
  _ <- check x_q_1 ;;
  Ok tt) = Ok tt.
Proof. vm_compute. reflexivity. Qed.
