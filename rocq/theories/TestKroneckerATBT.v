(** The tests of /repo/src/test/test_kronecker_ATBT.cpp, run on the model.  Generated translation. *)
From Verif Require Import TestRun.

Definition d_A_sparse_3x3 : list (list Q) :=
  [[1; 0; 0];
   [0; 2; 0];
   [3; 0; 4]]%Q.
Definition d_AT_sparse_3x3 : list (list Q) :=
  [[1; 0; 3];
   [0; 2; 0];
   [0; 0; 4]]%Q.
Definition d_Ar_sparse_3x3 : list (list Q) :=
  [[1; 0; 0];
   [0; 2; 0];
   [0; 0; 0]]%Q.
Definition d_Ac_sparse_3x3 : list (list Q) :=
  [[0; 0; 0];
   [0; 2; 0];
   [0; 0; 4]]%Q.
Definition d_B_sparse_3x4 : list (list Q) :=
  [[1; 1; 0; 0];
   [0; 2; 2; 0];
   [3; 0; 0; 3]]%Q.
Definition d_B_sparse_4x3 : list (list Q) :=
  [[1; 0; 3];
   [1; 2; 0];
   [0; 2; 0];
   [0; 0; 3]]%Q.
Definition d_Br_sparse_4x3 : list (list Q) :=
  [[0; 0; 3];
   [0; 2; 0];
   [0; 2; 0];
   [0; 0; 3]]%Q.
Definition d_Bc_sparse_4x3 : list (list Q) :=
  [[1; 0; 3];
   [0; 0; 0];
   [0; 2; 0];
   [0; 0; 3]]%Q.
Definition d_ATAT_sparse_9x9 : list (list Q) :=
  [[1; 0; 3; 0; 0; 0; 3; 0; 9];
   [0; 2; 0; 0; 0; 0; 0; 6; 0];
   [0; 0; 4; 0; 0; 0; 0; 0; 12];
   [0; 0; 0; 2; 0; 6; 0; 0; 0];
   [0; 0; 0; 0; 4; 0; 0; 0; 0];
   [0; 0; 0; 0; 0; 8; 0; 0; 0];
   [0; 0; 0; 0; 0; 0; 4; 0; 12];
   [0; 0; 0; 0; 0; 0; 0; 8; 0];
   [0; 0; 0; 0; 0; 0; 0; 0; 16]]%Q.
Definition d_Answer_rr_sparse_9x12 : list (list Q) :=
  [[0; 0; 0; 0; 0; 0; 0; 0; 0; 0; 0; 0];
   [0; 2; 2; 0; 0; 0; 0; 0; 0; 0; 0; 0];
   [3; 0; 0; 3; 0; 0; 0; 0; 0; 0; 0; 0];
   [0; 0; 0; 0; 0; 0; 0; 0; 0; 0; 0; 0];
   [0; 0; 0; 0; 0; 4; 4; 0; 0; 0; 0; 0];
   [0; 0; 0; 0; 6; 0; 0; 6; 0; 0; 0; 0];
   [0; 0; 0; 0; 0; 0; 0; 0; 0; 0; 0; 0];
   [0; 0; 0; 0; 0; 0; 0; 0; 0; 0; 0; 0];
   [0; 0; 0; 0; 0; 0; 0; 0; 0; 0; 0; 0]]%Q.
Definition d_Answer_sparse_9x12 : list (list Q) :=
  [[1; 1; 0; 0; 0; 0; 0; 0; 0; 0; 0; 0];
   [0; 2; 2; 0; 0; 0; 0; 0; 0; 0; 0; 0];
   [3; 0; 0; 3; 0; 0; 0; 0; 0; 0; 0; 0];
   [0; 0; 0; 0; 2; 2; 0; 0; 0; 0; 0; 0];
   [0; 0; 0; 0; 0; 4; 4; 0; 0; 0; 0; 0];
   [0; 0; 0; 0; 6; 0; 0; 6; 0; 0; 0; 0];
   [3; 3; 0; 0; 0; 0; 0; 0; 4; 4; 0; 0];
   [0; 6; 6; 0; 0; 0; 0; 0; 0; 8; 8; 0];
   [9; 0; 0; 9; 0; 0; 0; 0; 12; 0; 0; 12]]%Q.
Definition d_Answer_sparse_9x12_Lower : list (list Q) :=
  [[1; 0; 0; 0; 0; 0; 0; 0; 0; 0; 0; 0];
   [0; 2; 0; 0; 0; 0; 0; 0; 0; 0; 0; 0];
   [3; 0; 0; 0; 0; 0; 0; 0; 0; 0; 0; 0];
   [0; 0; 0; 0; 0; 0; 0; 0; 0; 0; 0; 0];
   [0; 0; 0; 0; 0; 0; 0; 0; 0; 0; 0; 0];
   [0; 0; 0; 0; 6; 0; 0; 0; 0; 0; 0; 0];
   [3; 3; 0; 0; 0; 0; 0; 0; 0; 0; 0; 0];
   [0; 6; 6; 0; 0; 0; 0; 0; 0; 0; 0; 0];
   [9; 0; 0; 9; 0; 0; 0; 0; 12; 0; 0; 0]]%Q.
Definition d_Answer_sparse_9x12_Lower_Ones : list (list Q) :=
  [[1; 1; 1; 1; 1; 1; 1; 1; 1; 1; 1; 1];
   [0; 2; 1; 1; 1; 1; 1; 1; 1; 1; 1; 1];
   [3; 0; 0; 1; 1; 1; 1; 1; 1; 1; 1; 1];
   [0; 0; 0; 0; 1; 1; 1; 1; 1; 1; 1; 1];
   [0; 0; 0; 0; 0; 1; 1; 1; 1; 1; 1; 1];
   [0; 0; 0; 0; 6; 0; 1; 1; 1; 1; 1; 1];
   [3; 3; 0; 0; 0; 0; 0; 1; 1; 1; 1; 1];
   [0; 6; 6; 0; 0; 0; 0; 0; 1; 1; 1; 1];
   [9; 0; 0; 9; 0; 0; 0; 0; 12; 1; 1; 1]]%Q.
Definition d_Answer_sparse_9x12_NotLower : list (list Q) :=
  [[0; 1; 0; 0; 0; 0; 0; 0; 0; 0; 0; 0];
   [0; 0; 2; 0; 0; 0; 0; 0; 0; 0; 0; 0];
   [0; 0; 0; 3; 0; 0; 0; 0; 0; 0; 0; 0];
   [0; 0; 0; 0; 2; 2; 0; 0; 0; 0; 0; 0];
   [0; 0; 0; 0; 0; 4; 4; 0; 0; 0; 0; 0];
   [0; 0; 0; 0; 0; 0; 0; 6; 0; 0; 0; 0];
   [0; 0; 0; 0; 0; 0; 0; 0; 4; 4; 0; 0];
   [0; 0; 0; 0; 0; 0; 0; 0; 0; 8; 8; 0];
   [0; 0; 0; 0; 0; 0; 0; 0; 0; 0; 0; 12]]%Q.
Definition d_Answer_sparse_9x12_NotLower_Ones : list (list Q) :=
  [[1; 1; 0; 0; 0; 0; 0; 0; 0; 0; 0; 0];
   [1; 1; 2; 0; 0; 0; 0; 0; 0; 0; 0; 0];
   [1; 1; 1; 3; 0; 0; 0; 0; 0; 0; 0; 0];
   [1; 1; 1; 1; 2; 2; 0; 0; 0; 0; 0; 0];
   [1; 1; 1; 1; 1; 4; 4; 0; 0; 0; 0; 0];
   [1; 1; 1; 1; 1; 1; 0; 6; 0; 0; 0; 0];
   [1; 1; 1; 1; 1; 1; 1; 0; 4; 4; 0; 0];
   [1; 1; 1; 1; 1; 1; 1; 1; 0; 8; 8; 0];
   [1; 1; 1; 1; 1; 1; 1; 1; 1; 0; 0; 12]]%Q.
Definition d_Answer_rc_sparse_9x12 : list (list Q) :=
  [[1; 0; 0; 0; 0; 0; 0; 0; 0; 0; 0; 0];
   [0; 0; 2; 0; 0; 0; 0; 0; 0; 0; 0; 0];
   [3; 0; 0; 3; 0; 0; 0; 0; 0; 0; 0; 0];
   [0; 0; 0; 0; 2; 0; 0; 0; 0; 0; 0; 0];
   [0; 0; 0; 0; 0; 0; 4; 0; 0; 0; 0; 0];
   [0; 0; 0; 0; 6; 0; 0; 6; 0; 0; 0; 0];
   [0; 0; 0; 0; 0; 0; 0; 0; 0; 0; 0; 0];
   [0; 0; 0; 0; 0; 0; 0; 0; 0; 0; 0; 0];
   [0; 0; 0; 0; 0; 0; 0; 0; 0; 0; 0; 0]]%Q.
Definition d_Answer_cr_sparse_9x12 : list (list Q) :=
  [[0; 0; 0; 0; 0; 0; 0; 0; 0; 0; 0; 0];
   [0; 0; 0; 0; 0; 0; 0; 0; 0; 0; 0; 0];
   [0; 0; 0; 0; 0; 0; 0; 0; 0; 0; 0; 0];
   [0; 0; 0; 0; 0; 0; 0; 0; 0; 0; 0; 0];
   [0; 0; 0; 0; 0; 4; 4; 0; 0; 0; 0; 0];
   [0; 0; 0; 0; 6; 0; 0; 6; 0; 0; 0; 0];
   [0; 0; 0; 0; 0; 0; 0; 0; 0; 0; 0; 0];
   [0; 0; 0; 0; 0; 0; 0; 0; 0; 8; 8; 0];
   [0; 0; 0; 0; 0; 0; 0; 0; 12; 0; 0; 12]]%Q.
Definition d_Ones_3x4 : list (list Q) :=
  [[1; 1; 1; 1];
   [1; 1; 1; 1];
   [1; 1; 1; 1]]%Q.
Definition d_Ones_3x3 : list (list Q) :=
  [[1; 1; 1];
   [1; 1; 1];
   [1; 1; 1]]%Q.
Definition d_Ones_4x3 : list (list Q) :=
  [[1; 1; 1];
   [1; 1; 1];
   [1; 1; 1];
   [1; 1; 1]]%Q.
Definition d_Ones_9x9 : list (list Q) :=
  [[1; 1; 1; 1; 1; 1; 1; 1; 1];
   [1; 1; 1; 1; 1; 1; 1; 1; 1];
   [1; 1; 1; 1; 1; 1; 1; 1; 1];
   [1; 1; 1; 1; 1; 1; 1; 1; 1];
   [1; 1; 1; 1; 1; 1; 1; 1; 1];
   [1; 1; 1; 1; 1; 1; 1; 1; 1];
   [1; 1; 1; 1; 1; 1; 1; 1; 1];
   [1; 1; 1; 1; 1; 1; 1; 1; 1];
   [1; 1; 1; 1; 1; 1; 1; 1; 1]]%Q.
Definition d_Ones_9x12 : list (list Q) :=
  [[1; 1; 1; 1; 1; 1; 1; 1; 1; 1; 1; 1];
   [1; 1; 1; 1; 1; 1; 1; 1; 1; 1; 1; 1];
   [1; 1; 1; 1; 1; 1; 1; 1; 1; 1; 1; 1];
   [1; 1; 1; 1; 1; 1; 1; 1; 1; 1; 1; 1];
   [1; 1; 1; 1; 1; 1; 1; 1; 1; 1; 1; 1];
   [1; 1; 1; 1; 1; 1; 1; 1; 1; 1; 1; 1];
   [1; 1; 1; 1; 1; 1; 1; 1; 1; 1; 1; 1];
   [1; 1; 1; 1; 1; 1; 1; 1; 1; 1; 1; 1];
   [1; 1; 1; 1; 1; 1; 1; 1; 1; 1; 1; 1]]%Q.
Definition d_Identity_3x3 : list (list Q) :=
  [[1; 0; 0];
   [0; 1; 0];
   [0; 0; 1]]%Q.
Definition d_Lower_3x3 : list (list Q) :=
  [[1; 0; 0];
   [1; 1; 0];
   [1; 1; 1]]%Q.
Definition d_Lower_3x4 : list (list Q) :=
  [[1; 0; 0; 0];
   [1; 1; 0; 0];
   [1; 1; 1; 0]]%Q.
Definition d_NotLower_3x3 : list (list Q) :=
  [[0; 1; 1];
   [0; 0; 1];
   [0; 0; 0]]%Q.
Definition d_NotLower_3x4 : list (list Q) :=
  [[0; 1; 1; 1];
   [0; 0; 1; 1];
   [0; 0; 0; 1]]%Q.
Definition d_Lower_9x9 : list (list Q) :=
  [[1; 0; 0; 0; 0; 0; 0; 0; 0];
   [1; 1; 0; 0; 0; 0; 0; 0; 0];
   [1; 1; 1; 0; 0; 0; 0; 0; 0];
   [1; 1; 1; 1; 0; 0; 0; 0; 0];
   [1; 1; 1; 1; 1; 0; 0; 0; 0];
   [1; 1; 1; 1; 1; 1; 0; 0; 0];
   [1; 1; 1; 1; 1; 1; 1; 0; 0];
   [1; 1; 1; 1; 1; 1; 1; 1; 0];
   [1; 1; 1; 1; 1; 1; 1; 1; 1]]%Q.
Definition d_NotLower_9x9 : list (list Q) :=
  [[0; 1; 1; 1; 1; 1; 1; 1; 1];
   [0; 0; 1; 1; 1; 1; 1; 1; 1];
   [0; 0; 0; 1; 1; 1; 1; 1; 1];
   [0; 0; 0; 0; 1; 1; 1; 1; 1];
   [0; 0; 0; 0; 0; 1; 1; 1; 1];
   [0; 0; 0; 0; 0; 0; 1; 1; 1];
   [0; 0; 0; 0; 0; 0; 0; 1; 1];
   [0; 0; 0; 0; 0; 0; 0; 0; 1];
   [0; 0; 0; 0; 0; 0; 0; 0; 0]]%Q.
Definition d_Lower_9x12 : list (list Q) :=
  [[1; 0; 0; 0; 0; 0; 0; 0; 0; 0; 0; 0];
   [1; 1; 0; 0; 0; 0; 0; 0; 0; 0; 0; 0];
   [1; 1; 1; 0; 0; 0; 0; 0; 0; 0; 0; 0];
   [1; 1; 1; 1; 0; 0; 0; 0; 0; 0; 0; 0];
   [1; 1; 1; 1; 1; 0; 0; 0; 0; 0; 0; 0];
   [1; 1; 1; 1; 1; 1; 0; 0; 0; 0; 0; 0];
   [1; 1; 1; 1; 1; 1; 1; 0; 0; 0; 0; 0];
   [1; 1; 1; 1; 1; 1; 1; 1; 0; 0; 0; 0];
   [1; 1; 1; 1; 1; 1; 1; 1; 1; 0; 0; 0]]%Q.
Definition d_NotLower_9x12 : list (list Q) :=
  [[0; 1; 1; 1; 1; 1; 1; 1; 1; 1; 1; 1];
   [0; 0; 1; 1; 1; 1; 1; 1; 1; 1; 1; 1];
   [0; 0; 0; 1; 1; 1; 1; 1; 1; 1; 1; 1];
   [0; 0; 0; 0; 1; 1; 1; 1; 1; 1; 1; 1];
   [0; 0; 0; 0; 0; 1; 1; 1; 1; 1; 1; 1];
   [0; 0; 0; 0; 0; 0; 1; 1; 1; 1; 1; 1];
   [0; 0; 0; 0; 0; 0; 0; 1; 1; 1; 1; 1];
   [0; 0; 0; 0; 0; 0; 0; 0; 1; 1; 1; 1];
   [0; 0; 0; 0; 0; 0; 0; 0; 0; 1; 1; 1]]%Q.
Definition d_M_9x9 : list (list Q) :=
  [[1; 0; 0; 1; 0; 0; 1; 0; 0];
   [1; 1; 0; 1; 1; 0; 1; 1; 0];
   [1; 1; 1; 1; 1; 1; 1; 1; 1];
   [1; 0; 0; 1; 0; 0; 1; 0; 0];
   [1; 1; 0; 1; 1; 0; 1; 1; 0];
   [1; 1; 1; 1; 1; 1; 1; 1; 1];
   [1; 0; 0; 1; 0; 0; 1; 0; 0];
   [1; 1; 0; 1; 1; 0; 1; 1; 0];
   [1; 1; 1; 1; 1; 1; 1; 1; 1]]%Q.
Definition d_M_9x12 : list (list Q) :=
  [[1; 0; 0; 1; 0; 0; 1; 0; 0; 1; 0; 0];
   [1; 1; 0; 1; 1; 0; 1; 1; 0; 1; 1; 0];
   [1; 1; 1; 1; 1; 1; 1; 1; 1; 1; 1; 1];
   [1; 0; 0; 1; 0; 0; 1; 0; 0; 1; 0; 0];
   [1; 1; 0; 1; 1; 0; 1; 1; 0; 1; 1; 0];
   [1; 1; 1; 1; 1; 1; 1; 1; 1; 1; 1; 1];
   [1; 0; 0; 1; 0; 0; 1; 0; 0; 1; 0; 0];
   [1; 1; 0; 1; 1; 0; 1; 1; 0; 1; 1; 0];
   [1; 1; 1; 1; 1; 1; 1; 1; 1; 1; 1; 1]]%Q.
Definition d_M_10x12 : list (list Q) :=
  [[1; 0; 0; 1; 0; 0; 1; 0; 0; 1; 0; 0];
   [1; 1; 0; 1; 1; 0; 1; 1; 0; 1; 1; 0];
   [1; 1; 1; 1; 1; 1; 1; 1; 1; 1; 1; 1];
   [1; 0; 0; 1; 0; 0; 1; 0; 0; 1; 0; 0];
   [1; 1; 0; 1; 1; 0; 1; 1; 0; 1; 1; 0];
   [1; 1; 1; 1; 1; 1; 1; 1; 1; 1; 1; 1];
   [1; 0; 0; 1; 0; 0; 1; 0; 0; 1; 0; 0];
   [1; 1; 0; 1; 1; 0; 1; 1; 0; 1; 1; 0];
   [1; 1; 1; 1; 1; 1; 1; 1; 1; 1; 1; 1];
   [1; 1; 1; 1; 1; 1; 1; 1; 1; 1; 1; 1]]%Q.

(** test_kronecker_ATBT.cpp:429-531 *)
Example test_kronecker_ATBT_bad_dimensions :
 (x_A <- mdense0 TyD d_AT_sparse_3x3 0%Q ;;
  x_B <- mdense0 TyD d_B_sparse_4x3 0%Q ;;
  x_ones9x12 <- mdense0 TyD d_Ones_9x12 0%Q ;;
  x_M9x9 <- mdense0 TyD d_M_9x9 0%Q ;;
  x_M9x12 <- mdense0 TyD d_M_9x12 0%Q ;;
  x_M10x12 <- mdense0 TyD d_M_10x12 0%Q ;;
  x_result9x12 <- mnew 9 12 ;;
  x_result9x9 <- mnew 9 9 ;;
  x_result12x12 <- mnew 12 12 ;;
  _ <- throws DimensionException (t_kronecker TyD noacc qtimes NoMask MERGE x_result9x9 (Trn x_A)
    (Trn x_B)) ;;
  _ <- throws DimensionException (t_kronecker TyD noacc qtimes NoMask MERGE x_result12x12 (Trn x_A)
    (Trn x_B)) ;;
  _ <- throws DimensionException (t_kronecker TyD (acc TyD qplus) qtimes NoMask MERGE x_result9x9
    (Trn x_A) (Trn x_B)) ;;
  _ <- throws DimensionException (t_kronecker TyD (acc TyD qplus) qtimes NoMask MERGE x_result12x12
    (Trn x_A) (Trn x_B)) ;;
  _ <- throws DimensionException (t_kronecker TyD noacc qtimes (MVal x_M10x12) MERGE x_result9x12
    (Trn x_A) (Trn x_B)) ;;
  _ <- throws DimensionException (t_kronecker TyD noacc qtimes (MVal x_M9x9) MERGE x_result9x12 (Trn
    x_A) (Trn x_B)) ;;
  _ <- throws DimensionException (t_kronecker TyD noacc qtimes (MVal x_M9x12) REPLACE x_ones9x12
    (Trn x_A) (Trn x_A)) ;;
  _ <- throws DimensionException (t_kronecker TyD (acc TyD qsecond) qtimes (MVal x_M10x12) REPLACE
    x_ones9x12 (Trn x_A) (Trn x_B)) ;;
  _ <- throws DimensionException (t_kronecker TyD (acc TyD qsecond) qtimes (MVal x_M9x9) MERGE
    x_ones9x12 (Trn x_A) (Trn x_B)) ;;
  _ <- throws DimensionException (t_kronecker TyD noacc qtimes (MComp x_M10x12) REPLACE x_ones9x12
    (Trn x_A) (Trn x_B)) ;;
  _ <- throws DimensionException (t_kronecker TyD noacc qtimes (MComp x_M9x9) MERGE x_ones9x12 (Trn
    x_A) (Trn x_B)) ;;
  _ <- throws DimensionException (t_kronecker TyD (acc TyD qplus) qtimes (MComp x_M10x12) REPLACE
    x_ones9x12 (Trn x_A) (Trn x_B)) ;;
  _ <- throws DimensionException (t_kronecker TyD (acc TyD qplus) qtimes (MComp x_M9x9) MERGE
    x_ones9x12 (Trn x_A) (Trn x_B)) ;;
  Ok tt) = Ok tt.
Proof. vm_compute. reflexivity. Qed.

(** test_kronecker_ATBT.cpp:538-550 *)
Example test_kronecker_NoMask_NoAccum_ATBT :
 (x_C <- mnew 9 12 ;;
  x_A <- mdense0 TyD d_AT_sparse_3x3 0%Q ;;
  x_B <- mdense0 TyD d_B_sparse_4x3 0%Q ;;
  x_answer <- mdense0 TyD d_Answer_sparse_9x12 0%Q ;;
  x_C_1 <- t_kronecker TyD noacc qtimes NoMask MERGE x_C (Trn x_A) (Trn x_B) ;;
  x_q <- meq x_C_1 x_answer ;;
  _ <- check x_q ;;
  Ok tt) = Ok tt.
Proof. vm_compute. reflexivity. Qed.

(** test_kronecker_ATBT.cpp:553-566 *)
Example test_kronecker_NoMask_NoAccum_ATBT_empty :
 (x_Zero <- mnew 3 3 ;;
  x_Ones <- mdense0 TyD d_Ones_3x3 0%Q ;;
  x_C <- mdense0 TyD d_Ones_9x9 0%Q ;;
  x_mD <- mdense0 TyD d_Ones_9x9 0%Q ;;
  x_Zero9x9 <- mnew 9 9 ;;
  x_C_1 <- t_kronecker TyD noacc qtimes NoMask MERGE x_C (Trn x_Zero) (Trn x_Ones) ;;
  x_q <- meq x_C_1 x_Zero9x9 ;;
  _ <- check x_q ;;
  x_mD_1 <- t_kronecker TyD noacc qtimes NoMask MERGE x_mD (Trn x_Ones) (Trn x_Zero) ;;
  x_q_1 <- meq x_mD_1 x_Zero9x9 ;;
  _ <- check x_q_1 ;;
  Ok tt) = Ok tt.
Proof. vm_compute. reflexivity. Qed.

(** test_kronecker_ATBT.cpp:569-580 *)
Example test_kronecker_NoMask_NoAccum_ATBT_dense :
 (x_Ones3x3 <- mdense0 TyD d_Ones_3x3 0%Q ;;
  x_Ones4x3 <- mdense0 TyD d_Ones_4x3 0%Q ;;
  x_Ones9x12 <- mdense0 TyD d_Ones_9x12 0%Q ;;
  x_result <- mnew 9 12 ;;
  x_result_1 <- t_kronecker TyD noacc qtimes NoMask MERGE x_result (Trn x_Ones3x3) (Trn x_Ones4x3)
    ;;
  x_q <- meq x_result_1 x_Ones9x12 ;;
  _ <- check x_q ;;
  Ok tt) = Ok tt.
Proof. vm_compute. reflexivity. Qed.

(** test_kronecker_ATBT.cpp:583-595 *)
Example test_kronecker_NoMask_NoAccum_ATBT_empty_rows :
 (x_C <- mnew 9 12 ;;
  x_A <- mdense0 TyD d_Ar_sparse_3x3 0%Q ;;
  x_B <- mdense0 TyD d_Br_sparse_4x3 0%Q ;;
  x_answer <- mdense0 TyD d_Answer_rr_sparse_9x12 0%Q ;;
  x_C_1 <- t_kronecker TyD noacc qtimes NoMask MERGE x_C (Trn x_A) (Trn x_B) ;;
  x_q <- meq x_C_1 x_answer ;;
  _ <- check x_q ;;
  Ok tt) = Ok tt.
Proof. vm_compute. reflexivity. Qed.

(** test_kronecker_ATBT.cpp:598-608 *)
Example test_kronecker_NoMask_NoAccum_ATBT_emptyRowA_emptyColB :
 (x_result <- mnew 9 12 ;;
  x_A <- mdense0 TyD d_Ar_sparse_3x3 0%Q ;;
  x_B <- mdense0 TyD d_Bc_sparse_4x3 0%Q ;;
  x_answer <- mdense0 TyD d_Answer_rc_sparse_9x12 0%Q ;;
  x_result_1 <- t_kronecker TyD noacc qtimes NoMask MERGE x_result (Trn x_A) (Trn x_B) ;;
  x_q <- meq x_result_1 x_answer ;;
  _ <- check x_q ;;
  Ok tt) = Ok tt.
Proof. vm_compute. reflexivity. Qed.

(** test_kronecker_ATBT.cpp:611-621 *)
Example test_kronecker_NoMask_NoAccum_ATBT_emptyColA_emptyRowB :
 (x_result <- mnew 9 12 ;;
  x_A <- mdense0 TyD d_Ac_sparse_3x3 0%Q ;;
  x_B <- mdense0 TyD d_Br_sparse_4x3 0%Q ;;
  x_answer <- mdense0 TyD d_Answer_cr_sparse_9x12 0%Q ;;
  x_result_1 <- t_kronecker TyD noacc qtimes NoMask MERGE x_result (Trn x_A) (Trn x_B) ;;
  x_q <- meq x_result_1 x_answer ;;
  _ <- check x_q ;;
  Ok tt) = Ok tt.
Proof. vm_compute. reflexivity. Qed.

(** test_kronecker_ATBT.cpp:624-635 *)
Example test_kronecker_NoMask_NoAccum_ATBT_ABdup :
 (x_mat <- mdense0 TyD d_A_sparse_3x3 0%Q ;;
  x_m3 <- mnew 9 9 ;;
  x_answer <- mdense0 TyD d_ATAT_sparse_9x9 0%Q ;;
  x_m3_1 <- t_kronecker TyD noacc qtimes NoMask MERGE x_m3 (Trn x_mat) (Trn x_mat) ;;
  x_q <- meq x_m3_1 x_answer ;;
  _ <- check x_q ;;
  Ok tt) = Ok tt.
Proof. vm_compute. reflexivity. Qed.

(** test_kronecker_ATBT.cpp:638-650 *)
Example test_kronecker_NoMask_NoAccum_ATBT_ACdup :
 (x_C <- mdense0 TyD d_A_sparse_3x3 0%Q ;;
  x_B <- mnew 1 1 ;;
  x_B_1 <- lil_setElement x_B 0 0 (cast TyD 1%Q) ;;
  x_answer <- mdense0 TyD d_AT_sparse_3x3 0%Q ;;
  x_C_1 <- t_kronecker TyD noacc qtimes NoMask MERGE x_C (Trn x_C) (Trn x_B_1) ;;
  x_q <- meq x_C_1 x_answer ;;
  _ <- check x_q ;;
  Ok tt) = Ok tt.
Proof. vm_compute. reflexivity. Qed.

(** test_kronecker_ATBT.cpp:653-665 *)
Example test_kronecker_NoMask_NoAccum_ATBT_BCdup :
 (x_A <- mnew 1 1 ;;
  x_C <- mdense0 TyD d_A_sparse_3x3 0%Q ;;
  x_A_1 <- lil_setElement x_A 0 0 (cast TyD 1%Q) ;;
  x_answer <- mdense0 TyD d_AT_sparse_3x3 0%Q ;;
  x_C_1 <- t_kronecker TyD noacc qtimes NoMask MERGE x_C (Trn x_A_1) (Trn x_C) ;;
  x_q <- meq x_C_1 x_answer ;;
  _ <- check x_q ;;
  Ok tt) = Ok tt.
Proof. vm_compute. reflexivity. Qed.

(** test_kronecker_ATBT.cpp:673-684 *)
Example test_kronecker_NoMask_Accum_ATBT :
 (x_C <- mdense0 TyD d_Ones_9x12 0%Q ;;
  x_A <- mdense0 TyD d_AT_sparse_3x3 0%Q ;;
  x_B <- mdense0 TyD d_B_sparse_4x3 0%Q ;;
  x_answer <- mdense0 TyD d_Answer_sparse_9x12 0%Q ;;
  x_answer_1 <- t_eWiseAdd TyD noacc TyD TyD qplus NoMask MERGE x_answer (Mat x_answer) (Mat x_C) ;;
  x_C_1 <- t_kronecker TyD (acc TyD qplus) qtimes NoMask MERGE x_C (Trn x_A) (Trn x_B) ;;
  x_q <- meq x_C_1 x_answer_1 ;;
  _ <- check x_q ;;
  Ok tt) = Ok tt.
Proof. vm_compute. reflexivity. Qed.

(** test_kronecker_ATBT.cpp:687-700 *)
Example test_kronecker_NoMask_Accum_ATBT_empty :
 (x_Zero <- mnew 3 3 ;;
  x_Ones <- mdense0 TyD d_Ones_3x3 0%Q ;;
  x_C <- mdense0 TyD d_Ones_9x9 0%Q ;;
  x_mD <- mdense0 TyD d_Ones_9x9 0%Q ;;
  x_answer <- mdense0 TyD d_Ones_9x9 0%Q ;;
  x_C_1 <- t_kronecker TyD (acc TyD qplus) qtimes NoMask MERGE x_C (Trn x_Zero) (Trn x_Ones) ;;
  x_q <- meq x_C_1 x_answer ;;
  _ <- check x_q ;;
  x_mD_1 <- t_kronecker TyD (acc TyD qplus) qtimes NoMask MERGE x_mD (Trn x_Ones) (Trn x_Zero) ;;
  x_q_1 <- meq x_mD_1 x_answer ;;
  _ <- check x_q_1 ;;
  Ok tt) = Ok tt.
Proof. vm_compute. reflexivity. Qed.

(** test_kronecker_ATBT.cpp:703-717 *)
Example test_kronecker_NoMask_Accum_ATBT_dense :
 (x_Ones3x3 <- mdense0 TyD d_Ones_3x3 0%Q ;;
  x_Ones4x3 <- mdense0 TyD d_Ones_4x3 0%Q ;;
  x_Ones9x12 <- mdense0 TyD d_Ones_9x12 0%Q ;;
  x_result <- mdense0 TyD d_Ones_9x12 0%Q ;;
  x_answer <- mnew 9 12 ;;
  x_answer_1 <- t_eWiseAdd TyD noacc TyD TyD qplus NoMask MERGE x_answer (Mat x_Ones9x12) (Mat
    x_Ones9x12) ;;
  x_result_1 <- t_kronecker TyD (acc TyD qplus) qtimes NoMask MERGE x_result (Trn x_Ones3x3) (Trn
    x_Ones4x3) ;;
  x_q <- meq x_result_1 x_answer_1 ;;
  _ <- check x_q ;;
  Ok tt) = Ok tt.
Proof. vm_compute. reflexivity. Qed.

(** test_kronecker_ATBT.cpp:720-732 *)
Example test_kronecker_NoMask_Accum_ATBT_empty_rows :
 (x_C <- mdense0 TyD d_Ones_9x12 0%Q ;;
  x_A <- mdense0 TyD d_Ar_sparse_3x3 0%Q ;;
  x_B <- mdense0 TyD d_Br_sparse_4x3 0%Q ;;
  x_answer <- mdense0 TyD d_Answer_rr_sparse_9x12 0%Q ;;
  x_answer_1 <- t_eWiseAdd TyD noacc TyD TyD qplus NoMask MERGE x_answer (Mat x_C) (Mat x_answer) ;;
  x_C_1 <- t_kronecker TyD (acc TyD qplus) qtimes NoMask MERGE x_C (Trn x_A) (Trn x_B) ;;
  x_q <- meq x_C_1 x_answer_1 ;;
  _ <- check x_q ;;
  Ok tt) = Ok tt.
Proof. vm_compute. reflexivity. Qed.

(** test_kronecker_ATBT.cpp:735-745 *)
Example test_kronecker_NoMask_Accum_ATBT_emptyRowA_emptyColB :
 (x_result <- mdense0 TyD d_Ones_9x12 0%Q ;;
  x_A <- mdense0 TyD d_Ar_sparse_3x3 0%Q ;;
  x_B <- mdense0 TyD d_Bc_sparse_4x3 0%Q ;;
  x_answer <- mdense0 TyD d_Answer_rc_sparse_9x12 0%Q ;;
  x_answer_1 <- t_eWiseAdd TyD noacc TyD TyD qplus NoMask MERGE x_answer (Mat x_answer) (Mat
    x_result) ;;
  x_result_1 <- t_kronecker TyD (acc TyD qplus) qtimes NoMask MERGE x_result (Trn x_A) (Trn x_B) ;;
  x_q <- meq x_result_1 x_answer_1 ;;
  _ <- check x_q ;;
  Ok tt) = Ok tt.
Proof. vm_compute. reflexivity. Qed.

(** test_kronecker_ATBT.cpp:748-758 *)
Example test_kronecker_NoMask_Accum_ATBT_emptyColA_emptyRowB :
 (x_result <- mdense0 TyD d_Ones_9x12 0%Q ;;
  x_A <- mdense0 TyD d_Ac_sparse_3x3 0%Q ;;
  x_B <- mdense0 TyD d_Br_sparse_4x3 0%Q ;;
  x_answer <- mdense0 TyD d_Answer_cr_sparse_9x12 0%Q ;;
  x_answer_1 <- t_eWiseAdd TyD noacc TyD TyD qplus NoMask MERGE x_answer (Mat x_answer) (Mat
    x_result) ;;
  x_result_1 <- t_kronecker TyD (acc TyD qplus) qtimes NoMask MERGE x_result (Trn x_A) (Trn x_B) ;;
  x_q <- meq x_result_1 x_answer_1 ;;
  _ <- check x_q ;;
  Ok tt) = Ok tt.
Proof. vm_compute. reflexivity. Qed.

(** test_kronecker_ATBT.cpp:761-772 *)
Example test_kronecker_NoMask_Accum_ATBT_ABdup :
 (x_mat <- mdense0 TyD d_A_sparse_3x3 0%Q ;;
  x_m3 <- mdense0 TyD d_Ones_9x9 0%Q ;;
  x_answer <- mdense0 TyD d_ATAT_sparse_9x9 0%Q ;;
  x_answer_1 <- t_eWiseAdd TyD noacc TyD TyD qplus NoMask MERGE x_answer (Mat x_answer) (Mat x_m3)
    ;;
  x_m3_1 <- t_kronecker TyD (acc TyD qplus) qtimes NoMask MERGE x_m3 (Trn x_mat) (Trn x_mat) ;;
  x_q <- meq x_m3_1 x_answer_1 ;;
  _ <- check x_q ;;
  Ok tt) = Ok tt.
Proof. vm_compute. reflexivity. Qed.

(** test_kronecker_ATBT.cpp:775-786 *)
Example test_kronecker_NoMask_Accum_ATBT_ACdup :
 (x_C <- mdense0 TyD d_A_sparse_3x3 0%Q ;;
  x_B <- mnew 1 1 ;;
  x_B_1 <- lil_setElement x_B 0 0 (cast TyD 1%Q) ;;
  x_answer <- mdense0 TyD d_AT_sparse_3x3 0%Q ;;
  x_answer_1 <- t_eWiseAdd TyD noacc TyD TyD qplus NoMask MERGE x_answer (Trn x_answer) (Mat
    x_answer) ;;
  x_C_1 <- t_kronecker TyD (acc TyD qplus) qtimes NoMask MERGE x_C (Trn x_C) (Trn x_B_1) ;;
  x_q <- meq x_C_1 x_answer_1 ;;
  _ <- check x_q ;;
  Ok tt) = Ok tt.
Proof. vm_compute. reflexivity. Qed.

(** test_kronecker_ATBT.cpp:789-801 *)
Example test_kronecker_NoMask_Accum_ATBT_BCdup :
 (x_A <- mnew 1 1 ;;
  x_C <- mdense0 TyD d_A_sparse_3x3 0%Q ;;
  x_A_1 <- lil_setElement x_A 0 0 (cast TyD 1%Q) ;;
  x_answer <- mdense0 TyD d_A_sparse_3x3 0%Q ;;
  x_answer_1 <- t_eWiseAdd TyD noacc TyD TyD qplus NoMask MERGE x_answer (Mat x_answer) (Trn
    x_answer) ;;
  x_C_1 <- t_kronecker TyD (acc TyD qplus) qtimes NoMask MERGE x_C (Trn x_A_1) (Trn x_C) ;;
  x_q <- meq x_C_1 x_answer_1 ;;
  _ <- check x_q ;;
  Ok tt) = Ok tt.
Proof. vm_compute. reflexivity. Qed.

(** test_kronecker_ATBT.cpp:808-865 *)
Example test_kronecker_Mask_NoAccum_ATBT :
 (x_C <- mnew 9 12 ;;
  x_A <- mdense0 TyD d_AT_sparse_3x3 0%Q ;;
  x_B <- mdense0 TyD d_B_sparse_4x3 0%Q ;;
  x_Identity <- mdense0 TyD d_Identity_3x3 0%Q ;;
  x_Empty <- mnew 9 12 ;;
  x_Ones <- mdense0 TyD d_Ones_9x12 0%Q ;;
  x_MLower <- mdense0 TyD d_Lower_9x12 0%Q ;;
  x_MNotLower <- mdense0 TyD d_NotLower_9x12 0%Q ;;
  x_Answer_9x12 <- mdense0 TyD d_Answer_sparse_9x12 0%Q ;;
  x_Answer_9x12_Lower <- mdense0 TyD d_Answer_sparse_9x12_Lower 0%Q ;;
  x_Answer_9x12_NotLower <- mdense0 TyD d_Answer_sparse_9x12_NotLower 0%Q ;;
  x_Answer_9x12_Lower_Ones <- mdense0 TyD d_Answer_sparse_9x12_Lower_Ones 0%Q ;;
  x_Answer_9x12_NotLower_Ones <- mdense0 TyD d_Answer_sparse_9x12_NotLower_Ones 0%Q ;;
  x_C_1 <- lil_assign x_C x_Ones ;;
  x_C_2 <- t_kronecker TyD noacc qtimes (MVal x_Empty) MERGE x_C_1 (Trn x_A) (Trn x_B) ;;
  x_q <- meq x_C_2 x_Ones ;;
  _ <- check x_q ;;
  x_C_3 <- lil_assign x_C_2 x_Ones ;;
  x_C_4 <- t_kronecker TyD noacc qtimes (MVal x_Ones) MERGE x_C_3 (Trn x_A) (Trn x_B) ;;
  x_q_1 <- meq x_C_4 x_Answer_9x12 ;;
  _ <- check x_q_1 ;;
  x_C_5 <- lil_assign x_C_4 x_Ones ;;
  x_C_6 <- t_kronecker TyD noacc qtimes (MVal x_MLower) MERGE x_C_5 (Trn x_A) (Trn x_B) ;;
  x_q_2 <- meq x_C_6 x_Answer_9x12_Lower_Ones ;;
  _ <- check x_q_2 ;;
  x_C_7 <- lil_assign x_C_6 x_Ones ;;
  x_C_8 <- t_kronecker TyD noacc qtimes (MVal x_MNotLower) MERGE x_C_7 (Trn x_A) (Trn x_B) ;;
  x_q_3 <- meq x_C_8 x_Answer_9x12_NotLower_Ones ;;
  _ <- check x_q_3 ;;
  x_C_9 <- lil_assign x_C_8 x_Ones ;;
  x_C_10 <- t_kronecker TyD noacc qtimes (MVal x_Empty) REPLACE x_C_9 (Trn x_A) (Trn x_B) ;;
  x_q_4 <- meq x_C_10 x_Empty ;;
  _ <- check x_q_4 ;;
  x_C_11 <- lil_assign x_C_10 x_Ones ;;
  x_C_12 <- t_kronecker TyD noacc qtimes (MVal x_Ones) REPLACE x_C_11 (Trn x_A) (Trn x_B) ;;
  x_q_5 <- meq x_C_12 x_Answer_9x12 ;;
  _ <- check x_q_5 ;;
  x_C_13 <- lil_assign x_C_12 x_Ones ;;
  x_C_14 <- t_kronecker TyD noacc qtimes (MVal x_MLower) REPLACE x_C_13 (Trn x_A) (Trn x_B) ;;
  x_q_6 <- meq x_C_14 x_Answer_9x12_Lower ;;
  _ <- check x_q_6 ;;
  x_C_15 <- lil_assign x_C_14 x_Ones ;;
  x_C_16 <- t_kronecker TyD noacc qtimes (MVal x_MNotLower) REPLACE x_C_15 (Trn x_A) (Trn x_B) ;;
  x_q_7 <- meq x_C_16 x_Answer_9x12_NotLower ;;
  _ <- check x_q_7 ;;
  Ok tt) = Ok tt.
Proof. vm_compute. reflexivity. Qed.

(** test_kronecker_ATBT.cpp:868-907 *)
Example test_kronecker_Mask_NoAccum_ATBTM_empty :
 (x_C <- mnew 9 12 ;;
  x_A <- mdense0 TyD d_AT_sparse_3x3 0%Q ;;
  x_B <- mdense0 TyD d_B_sparse_4x3 0%Q ;;
  x_Ones <- mdense0 TyD d_Ones_9x12 0%Q ;;
  x_Empty <- mnew 9 12 ;;
  x_Empty3x3 <- mnew 3 3 ;;
  x_Empty4x3 <- mnew 4 3 ;;
  x_MLower <- mdense0 TyD d_Lower_9x12 0%Q ;;
  x_MNotLower <- mdense0 TyD d_NotLower_9x12 0%Q ;;
  x_C_1 <- lil_assign x_C x_Ones ;;
  x_C_2 <- t_kronecker TyD noacc qtimes (MVal x_Empty) MERGE x_C_1 (Trn x_A) (Trn x_B) ;;
  x_q <- meq x_C_2 x_Ones ;;
  _ <- check x_q ;;
  x_C_3 <- lil_assign x_C_2 x_Ones ;;
  x_C_4 <- t_kronecker TyD noacc qtimes (MVal x_MLower) MERGE x_C_3 (Trn x_Empty3x3) (Trn x_B) ;;
  x_q_1 <- meq x_C_4 x_MNotLower ;;
  _ <- check x_q_1 ;;
  x_C_5 <- lil_assign x_C_4 x_Ones ;;
  x_C_6 <- t_kronecker TyD noacc qtimes (MVal x_MLower) MERGE x_C_5 (Trn x_A) (Trn x_Empty4x3) ;;
  x_q_2 <- meq x_C_6 x_MNotLower ;;
  _ <- check x_q_2 ;;
  x_C_7 <- lil_assign x_C_6 x_Ones ;;
  x_C_8 <- t_kronecker TyD noacc qtimes (MVal x_Empty) REPLACE x_C_7 (Trn x_A) (Trn x_B) ;;
  x_q_3 <- meq x_C_8 x_Empty ;;
  _ <- check x_q_3 ;;
  x_C_9 <- lil_assign x_C_8 x_Ones ;;
  x_C_10 <- t_kronecker TyD noacc qtimes (MVal x_MLower) REPLACE x_C_9 (Trn x_Empty3x3) (Trn x_B) ;;
  x_q_4 <- meq x_C_10 x_Empty ;;
  _ <- check x_q_4 ;;
  x_C_11 <- lil_assign x_C_10 x_Ones ;;
  x_C_12 <- t_kronecker TyD noacc qtimes (MVal x_MLower) REPLACE x_C_11 (Trn x_A) (Trn x_Empty4x3)
    ;;
  x_q_5 <- meq x_C_12 x_Empty ;;
  _ <- check x_q_5 ;;
  Ok tt) = Ok tt.
Proof. vm_compute. reflexivity. Qed.

(** test_kronecker_ATBT.cpp:910-928 *)
Example test_kronecker_Mask_NoAccum_ATBTM_dense :
 (x_A <- mdense0 TyD d_Ones_3x3 0%Q ;;
  x_B <- mdense0 TyD d_Ones_4x3 0%Q ;;
  x_MLower <- mdense0 TyD d_Lower_9x12 0%Q ;;
  x_MNotLower <- mdense0 TyD d_NotLower_9x12 0%Q ;;
  x_Ones <- mdense0 TyD d_Ones_9x12 0%Q ;;
  x_C <- mnew 9 12 ;;
  x_C_1 <- lil_assign x_C x_Ones ;;
  x_C_2 <- t_kronecker TyD noacc qtimes (MVal x_MLower) MERGE x_C_1 (Trn x_A) (Trn x_B) ;;
  x_q <- meq x_C_2 x_Ones ;;
  _ <- check x_q ;;
  x_C_3 <- lil_assign x_C_2 x_Ones ;;
  x_C_4 <- t_kronecker TyD noacc qtimes (MVal x_MLower) REPLACE x_C_3 (Trn x_A) (Trn x_B) ;;
  x_q_1 <- meq x_C_4 x_MLower ;;
  _ <- check x_q_1 ;;
  Ok tt) = Ok tt.
Proof. vm_compute. reflexivity. Qed.

(** test_kronecker_ATBT.cpp:931-952 *)
Example test_kronecker_Mask_NoAccum_ATBT_empty_rows :
 (x_Ones <- mdense0 TyD d_Ones_9x12 0%Q ;;
  x_A <- mdense0 TyD d_Ar_sparse_3x3 0%Q ;;
  x_B <- mdense0 TyD d_Br_sparse_4x3 0%Q ;;
  x_answer <- mdense0 TyD d_Answer_rr_sparse_9x12 0%Q ;;
  x_C <- mnew 9 12 ;;
  x_MLower <- mdense0 TyD d_Lower_9x12 0%Q ;;
  x_MNotLower <- mdense0 TyD d_NotLower_9x12 0%Q ;;
  x_C_1 <- lil_assign x_C x_Ones ;;
  x_answer_1 <- t_eWiseMult TyD noacc TyD TyD qtimes NoMask MERGE x_answer (Mat x_MLower) (Mat
    x_answer) ;;
  x_C_2 <- t_kronecker TyD noacc qtimes (MVal x_MLower) REPLACE x_C_1 (Trn x_A) (Trn x_B) ;;
  x_q <- meq x_C_2 x_answer_1 ;;
  _ <- check x_q ;;
  x_C_3 <- lil_assign x_C_2 x_Ones ;;
  x_answer_2 <- t_eWiseAdd TyD noacc TyD TyD qplus NoMask MERGE x_answer_1 (Mat x_MNotLower) (Mat
    x_answer_1) ;;
  x_C_4 <- t_kronecker TyD noacc qtimes (MVal x_MLower) MERGE x_C_3 (Trn x_A) (Trn x_B) ;;
  x_q_1 <- meq x_C_4 x_answer_2 ;;
  _ <- check x_q_1 ;;
  Ok tt) = Ok tt.
Proof. vm_compute. reflexivity. Qed.

(** test_kronecker_ATBT.cpp:955-978 *)
Example test_kronecker_Mask_NoAccum_ATBT_emptyRowA_emptyColB :
 (x_C <- mnew 9 12 ;;
  x_Ones <- mdense0 TyD d_Ones_9x12 0%Q ;;
  x_A <- mdense0 TyD d_Ar_sparse_3x3 0%Q ;;
  x_B <- mdense0 TyD d_Bc_sparse_4x3 0%Q ;;
  x_answer <- mdense0 TyD d_Answer_rc_sparse_9x12 0%Q ;;
  x_MLower <- mdense0 TyD d_Lower_9x12 0%Q ;;
  x_MNotLower <- mdense0 TyD d_NotLower_9x12 0%Q ;;
  x_C_1 <- lil_assign x_C x_Ones ;;
  x_answer_1 <- t_eWiseMult TyD noacc TyD TyD qtimes NoMask MERGE x_answer (Mat x_MLower) (Mat
    x_answer) ;;
  x_C_2 <- t_kronecker TyD noacc qtimes (MVal x_MLower) REPLACE x_C_1 (Trn x_A) (Trn x_B) ;;
  x_q <- meq x_C_2 x_answer_1 ;;
  _ <- check x_q ;;
  x_C_3 <- lil_assign x_C_2 x_Ones ;;
  x_answer_2 <- t_eWiseAdd TyD noacc TyD TyD qplus NoMask MERGE x_answer_1 (Mat x_MNotLower) (Mat
    x_answer_1) ;;
  x_C_4 <- t_kronecker TyD noacc qtimes (MVal x_MLower) MERGE x_C_3 (Trn x_A) (Trn x_B) ;;
  x_q_1 <- meq x_C_4 x_answer_2 ;;
  _ <- check x_q_1 ;;
  Ok tt) = Ok tt.
Proof. vm_compute. reflexivity. Qed.

(** test_kronecker_ATBT.cpp:981-1003 *)
Example test_kronecker_Mask_NoAccum_ATBT_emptyColA_emptyRowB :
 (x_C <- mnew 9 12 ;;
  x_Ones <- mdense0 TyD d_Ones_9x12 0%Q ;;
  x_A <- mdense0 TyD d_Ac_sparse_3x3 0%Q ;;
  x_B <- mdense0 TyD d_Br_sparse_4x3 0%Q ;;
  x_answer <- mdense0 TyD d_Answer_cr_sparse_9x12 0%Q ;;
  x_MLower <- mdense0 TyD d_Lower_9x12 0%Q ;;
  x_MNotLower <- mdense0 TyD d_NotLower_9x12 0%Q ;;
  x_C_1 <- lil_assign x_C x_Ones ;;
  x_answer_1 <- t_eWiseMult TyD noacc TyD TyD qtimes NoMask MERGE x_answer (Mat x_MLower) (Mat
    x_answer) ;;
  x_C_2 <- t_kronecker TyD noacc qtimes (MVal x_MLower) REPLACE x_C_1 (Trn x_A) (Trn x_B) ;;
  x_q <- meq x_C_2 x_answer_1 ;;
  _ <- check x_q ;;
  x_C_3 <- lil_assign x_C_2 x_Ones ;;
  x_answer_2 <- t_eWiseAdd TyD noacc TyD TyD qplus NoMask MERGE x_answer_1 (Mat x_MNotLower) (Mat
    x_answer_1) ;;
  x_C_4 <- t_kronecker TyD noacc qtimes (MVal x_MLower) MERGE x_C_3 (Trn x_A) (Trn x_B) ;;
  x_q_1 <- meq x_C_4 x_answer_2 ;;
  _ <- check x_q_1 ;;
  Ok tt) = Ok tt.
Proof. vm_compute. reflexivity. Qed.

(** test_kronecker_ATBT.cpp:1006-1029 *)
Example test_kronecker_Mask_NoAccum_ATBT_emptyRowM :
 (x_C <- mnew 9 12 ;;
  x_Ones <- mdense0 TyD d_Ones_9x12 0%Q ;;
  x_A <- mdense0 TyD d_AT_sparse_3x3 0%Q ;;
  x_B <- mdense0 TyD d_B_sparse_4x3 0%Q ;;
  x_answer <- mdense0 TyD d_Answer_sparse_9x12 0%Q ;;
  x_MLower <- mdense0 TyD d_Lower_9x12 0%Q ;;
  x_MNotLower <- mdense0 TyD d_NotLower_9x12 0%Q ;;
  x_C_1 <- lil_assign x_C x_Ones ;;
  x_answer_1 <- t_eWiseMult TyD noacc TyD TyD qtimes NoMask MERGE x_answer (Mat x_MLower) (Mat
    x_answer) ;;
  x_C_2 <- t_kronecker TyD noacc qtimes (MVal x_MLower) REPLACE x_C_1 (Trn x_A) (Trn x_B) ;;
  x_q <- meq x_C_2 x_answer_1 ;;
  _ <- check x_q ;;
  x_C_3 <- lil_assign x_C_2 x_Ones ;;
  x_answer_2 <- t_eWiseAdd TyD noacc TyD TyD qplus NoMask MERGE x_answer_1 (Mat x_MNotLower) (Mat
    x_answer_1) ;;
  x_C_4 <- t_kronecker TyD noacc qtimes (MVal x_MLower) MERGE x_C_3 (Trn x_A) (Trn x_B) ;;
  x_q_1 <- meq x_C_4 x_answer_2 ;;
  _ <- check x_q_1 ;;
  Ok tt) = Ok tt.
Proof. vm_compute. reflexivity. Qed.

(** test_kronecker_ATBT.cpp:1032-1054 *)
Example test_kronecker_Mask_NoAccum_ATBT_ABdup :
 (x_C <- mnew 9 9 ;;
  x_Ones <- mdense0 TyD d_Ones_9x9 0%Q ;;
  x_A <- mdense0 TyD d_A_sparse_3x3 0%Q ;;
  x_answer <- mdense0 TyD d_ATAT_sparse_9x9 0%Q ;;
  x_MLower <- mdense0 TyD d_Lower_9x9 0%Q ;;
  x_MNotLower <- mdense0 TyD d_NotLower_9x9 0%Q ;;
  x_C_1 <- lil_assign x_C x_Ones ;;
  x_answer_1 <- t_eWiseMult TyD noacc TyD TyD qtimes NoMask MERGE x_answer (Mat x_MLower) (Mat
    x_answer) ;;
  x_C_2 <- t_kronecker TyD noacc qtimes (MVal x_MLower) REPLACE x_C_1 (Trn x_A) (Trn x_A) ;;
  x_q <- meq x_C_2 x_answer_1 ;;
  _ <- check x_q ;;
  x_C_3 <- lil_assign x_C_2 x_Ones ;;
  x_answer_2 <- t_eWiseAdd TyD noacc TyD TyD qplus NoMask MERGE x_answer_1 (Mat x_MNotLower) (Mat
    x_answer_1) ;;
  x_C_4 <- t_kronecker TyD noacc qtimes (MVal x_MLower) MERGE x_C_3 (Trn x_A) (Trn x_A) ;;
  x_q_1 <- meq x_C_4 x_answer_2 ;;
  _ <- check x_q_1 ;;
  Ok tt) = Ok tt.
Proof. vm_compute. reflexivity. Qed.

(** test_kronecker_ATBT.cpp:1057-1081 *)
Example test_kronecker_Mask_NoAccum_ATBT_ACdup :
 (x_mat <- mdense0 TyD d_A_sparse_3x3 0%Q ;;
  x_C <- mnew 3 3 ;;
  x_B <- mnew 1 1 ;;
  x_B_1 <- lil_setElement x_B 0 0 (cast TyD 1%Q) ;;
  x_answer <- mdense0 TyD d_AT_sparse_3x3 0%Q ;;
  x_MLower <- mdense0 TyD d_Lower_3x3 0%Q ;;
  x_MNotLower <- mdense0 TyD d_NotLower_3x3 0%Q ;;
  x_C_1 <- lil_assign x_C x_mat ;;
  x_answer_1 <- t_eWiseMult TyD noacc TyD TyD qtimes NoMask MERGE x_answer (Mat x_MLower) (Trn
    x_mat) ;;
  x_C_2 <- t_kronecker TyD noacc qtimes (MVal x_MLower) REPLACE x_C_1 (Trn x_C_1) (Trn x_B_1) ;;
  x_q <- meq x_C_2 x_answer_1 ;;
  _ <- check x_q ;;
  x_C_3 <- lil_assign x_C_2 x_mat ;;
  x_C_4 <- t_kronecker TyD noacc qtimes (MVal x_MLower) MERGE x_C_3 (Trn x_C_3) (Trn x_B_1) ;;
  x_q_1 <- meq x_C_4 x_answer_1 ;;
  _ <- check x_q_1 ;;
  Ok tt) = Ok tt.
Proof. vm_compute. reflexivity. Qed.

(** test_kronecker_ATBT.cpp:1084-1110 *)
Example test_kronecker_Mask_NoAccum_ATBT_BCdup :
 (x_mat <- mdense0 TyD d_A_sparse_3x3 0%Q ;;
  x_C <- mnew 3 3 ;;
  x_A <- mnew 1 1 ;;
  x_A_1 <- lil_setElement x_A 0 0 (cast TyD 1%Q) ;;
  x_MLower <- mdense0 TyD d_Lower_3x3 0%Q ;;
  x_MNotLower <- mdense0 TyD d_NotLower_3x3 0%Q ;;
  x_C_1 <- lil_assign x_C x_mat ;;
  x_answer <- t_eWiseMult TyD noacc TyD TyD qtimes NoMask MERGE x_mat (Mat x_MLower) (Trn x_mat) ;;
  x_C_2 <- t_kronecker TyD noacc qtimes (MVal x_MLower) REPLACE x_C_1 (Trn x_A_1) (Trn x_C_1) ;;
  x_q <- meq x_C_2 x_answer ;;
  _ <- check x_q ;;
  x_C_3 <- lil_assign x_C_2 x_mat ;;
  x_answer_1 <- t_eWiseMult TyD noacc TyD TyD qtimes NoMask MERGE x_answer (Trn x_MLower) (Trn
    x_answer) ;;
  x_C_4 <- t_kronecker TyD noacc qtimes (MVal x_MLower) MERGE x_C_3 (Trn x_A_1) (Trn x_C_3) ;;
  x_q_1 <- meq x_C_4 x_answer_1 ;;
  _ <- check x_q_1 ;;
  Ok tt) = Ok tt.
Proof. vm_compute. reflexivity. Qed.

(** test_kronecker_ATBT.cpp:1113-1137 *)
Example test_kronecker_Mask_NoAccum_ATBT_MCdup :
 (x_C <- mnew 9 12 ;;
  x_Ones <- mdense0 TyD d_Ones_9x12 0%Q ;;
  x_A <- mdense0 TyD d_AT_sparse_3x3 0%Q ;;
  x_B <- mdense0 TyD d_B_sparse_4x3 0%Q ;;
  x_answer <- mdense0 TyD d_Answer_sparse_9x12 0%Q ;;
  x_MLower <- mdense0 TyD d_Lower_9x12 0%Q ;;
  x_MNotLower <- mdense0 TyD d_NotLower_9x12 0%Q ;;
  x_C_1 <- lil_assign x_C x_MLower ;;
  x_answer_1 <- t_eWiseMult TyD noacc TyD TyD qtimes NoMask MERGE x_answer (Mat x_MLower) (Mat
    x_answer) ;;
  x_C_2 <- t_kronecker TyD noacc qtimes (MVal x_C_1) REPLACE x_C_1 (Trn x_A) (Trn x_B) ;;
  x_q <- meq x_C_2 x_answer_1 ;;
  _ <- check x_q ;;
  x_C_3 <- lil_assign x_C_2 x_MLower ;;
  x_C_4 <- t_kronecker TyD noacc qtimes (MVal x_C_3) MERGE x_C_3 (Trn x_A) (Trn x_B) ;;
  x_q_1 <- meq x_C_4 x_answer_1 ;;
  _ <- check x_q_1 ;;
  Ok tt) = Ok tt.
Proof. vm_compute. reflexivity. Qed.

(** test_kronecker_ATBT.cpp:1144-1214 *)
Example test_kronecker_Mask_Accum_ATBT :
 (x_C <- mnew 9 12 ;;
  x_A <- mdense0 TyD d_AT_sparse_3x3 0%Q ;;
  x_B <- mdense0 TyD d_B_sparse_4x3 0%Q ;;
  x_Identity <- mdense0 TyD d_Identity_3x3 0%Q ;;
  x_answer <- mnew 9 12 ;;
  x_Empty <- mnew 9 12 ;;
  x_Ones <- mdense0 TyD d_Ones_9x12 0%Q ;;
  x_MLower <- mdense0 TyD d_Lower_9x12 0%Q ;;
  x_MNotLower <- mdense0 TyD d_NotLower_9x12 0%Q ;;
  x_Answer_9x12 <- mdense0 TyD d_Answer_sparse_9x12 0%Q ;;
  x_Answer_9x12_Lower <- mdense0 TyD d_Answer_sparse_9x12_Lower 0%Q ;;
  x_Answer_9x12_NotLower <- mdense0 TyD d_Answer_sparse_9x12_NotLower 0%Q ;;
  x_Answer_9x12_Lower_Ones <- mdense0 TyD d_Answer_sparse_9x12_Lower_Ones 0%Q ;;
  x_Answer_9x12_NotLower_Ones <- mdense0 TyD d_Answer_sparse_9x12_NotLower_Ones 0%Q ;;
  x_C_1 <- lil_assign x_C x_Ones ;;
  x_C_2 <- t_kronecker TyD (acc TyD qplus) qtimes (MVal x_Empty) MERGE x_C_1 (Trn x_A) (Trn x_B) ;;
  x_q <- meq x_C_2 x_Ones ;;
  _ <- check x_q ;;
  x_C_3 <- lil_assign x_C_2 x_Ones ;;
  x_answer_1 <- t_eWiseAdd TyD noacc TyD TyD qplus NoMask MERGE x_answer (Mat x_Ones) (Mat
    x_Answer_9x12) ;;
  x_C_4 <- t_kronecker TyD (acc TyD qplus) qtimes (MVal x_Ones) MERGE x_C_3 (Trn x_A) (Trn x_B) ;;
  x_q_1 <- meq x_C_4 x_answer_1 ;;
  _ <- check x_q_1 ;;
  x_C_5 <- lil_assign x_C_4 x_Ones ;;
  x_answer_2 <- t_eWiseAdd TyD noacc TyD TyD qplus NoMask MERGE x_answer_1 (Mat x_Ones) (Mat
    x_Answer_9x12_Lower) ;;
  x_C_6 <- t_kronecker TyD (acc TyD qplus) qtimes (MVal x_MLower) MERGE x_C_5 (Trn x_A) (Trn x_B) ;;
  x_q_2 <- meq x_C_6 x_answer_2 ;;
  _ <- check x_q_2 ;;
  x_C_7 <- lil_assign x_C_6 x_Ones ;;
  x_answer_3 <- t_eWiseAdd TyD noacc TyD TyD qplus NoMask MERGE x_answer_2 (Mat x_Ones) (Mat
    x_Answer_9x12_NotLower) ;;
  x_C_8 <- t_kronecker TyD (acc TyD qplus) qtimes (MVal x_MNotLower) MERGE x_C_7 (Trn x_A) (Trn x_B)
    ;;
  x_q_3 <- meq x_C_8 x_answer_3 ;;
  _ <- check x_q_3 ;;
  x_C_9 <- lil_assign x_C_8 x_Ones ;;
  x_C_10 <- t_kronecker TyD (acc TyD qplus) qtimes (MVal x_Empty) REPLACE x_C_9 (Trn x_A) (Trn x_B)
    ;;
  x_q_4 <- meq x_C_10 x_Empty ;;
  _ <- check x_q_4 ;;
  x_C_11 <- lil_assign x_C_10 x_Ones ;;
  x_answer_4 <- t_eWiseAdd TyD noacc TyD TyD qplus NoMask MERGE x_answer_3 (Mat x_Ones) (Mat
    x_Answer_9x12) ;;
  x_C_12 <- t_kronecker TyD (acc TyD qplus) qtimes (MVal x_Ones) REPLACE x_C_11 (Trn x_A) (Trn x_B)
    ;;
  x_q_5 <- meq x_C_12 x_answer_4 ;;
  _ <- check x_q_5 ;;
  x_C_13 <- lil_assign x_C_12 x_Ones ;;
  x_answer_5 <- t_eWiseAdd TyD noacc TyD TyD qplus NoMask MERGE x_answer_4 (Mat x_MLower) (Mat
    x_Answer_9x12_Lower) ;;
  x_C_14 <- t_kronecker TyD (acc TyD qplus) qtimes (MVal x_MLower) REPLACE x_C_13 (Trn x_A) (Trn
    x_B) ;;
  x_q_6 <- meq x_C_14 x_answer_5 ;;
  _ <- check x_q_6 ;;
  x_C_15 <- lil_assign x_C_14 x_Ones ;;
  x_answer_6 <- t_eWiseAdd TyD noacc TyD TyD qplus NoMask MERGE x_answer_5 (Mat x_MNotLower) (Mat
    x_Answer_9x12_NotLower) ;;
  x_C_16 <- t_kronecker TyD (acc TyD qplus) qtimes (MVal x_MNotLower) REPLACE x_C_15 (Trn x_A) (Trn
    x_B) ;;
  x_q_7 <- meq x_C_16 x_answer_6 ;;
  _ <- check x_q_7 ;;
  Ok tt) = Ok tt.
Proof. vm_compute. reflexivity. Qed.

(** test_kronecker_ATBT.cpp:1217-1255 *)
Example test_kronecker_Mask_Accum_ATBTM_empty :
 (x_C <- mnew 9 12 ;;
  x_A <- mdense0 TyD d_AT_sparse_3x3 0%Q ;;
  x_B <- mdense0 TyD d_B_sparse_4x3 0%Q ;;
  x_Ones <- mdense0 TyD d_Ones_9x12 0%Q ;;
  x_Empty <- mnew 9 12 ;;
  x_Empty3x3 <- mnew 3 3 ;;
  x_Empty4x3 <- mnew 4 3 ;;
  x_MLower <- mdense0 TyD d_Lower_9x12 0%Q ;;
  x_C_1 <- lil_assign x_C x_Ones ;;
  x_C_2 <- t_kronecker TyD (acc TyD qplus) qtimes (MVal x_Empty) MERGE x_C_1 (Trn x_A) (Trn x_B) ;;
  x_q <- meq x_C_2 x_Ones ;;
  _ <- check x_q ;;
  x_C_3 <- lil_assign x_C_2 x_Ones ;;
  x_C_4 <- t_kronecker TyD (acc TyD qplus) qtimes (MVal x_MLower) MERGE x_C_3 (Trn x_Empty3x3) (Trn
    x_B) ;;
  x_q_1 <- meq x_C_4 x_Ones ;;
  _ <- check x_q_1 ;;
  x_C_5 <- lil_assign x_C_4 x_Ones ;;
  x_C_6 <- t_kronecker TyD (acc TyD qplus) qtimes (MVal x_MLower) MERGE x_C_5 (Trn x_A) (Trn
    x_Empty4x3) ;;
  x_q_2 <- meq x_C_6 x_Ones ;;
  _ <- check x_q_2 ;;
  x_C_7 <- lil_assign x_C_6 x_Ones ;;
  x_C_8 <- t_kronecker TyD (acc TyD qplus) qtimes (MVal x_Empty) REPLACE x_C_7 (Trn x_A) (Trn x_B)
    ;;
  x_q_3 <- meq x_C_8 x_Empty ;;
  _ <- check x_q_3 ;;
  x_C_9 <- lil_assign x_C_8 x_Ones ;;
  x_C_10 <- t_kronecker TyD (acc TyD qplus) qtimes (MVal x_MLower) REPLACE x_C_9 (Trn x_Empty3x3)
    (Trn x_B) ;;
  x_q_4 <- meq x_C_10 x_MLower ;;
  _ <- check x_q_4 ;;
  x_C_11 <- lil_assign x_C_10 x_Ones ;;
  x_C_12 <- t_kronecker TyD (acc TyD qplus) qtimes (MVal x_MLower) REPLACE x_C_11 (Trn x_A) (Trn
    x_Empty4x3) ;;
  x_q_5 <- meq x_C_12 x_MLower ;;
  _ <- check x_q_5 ;;
  Ok tt) = Ok tt.
Proof. vm_compute. reflexivity. Qed.

(** test_kronecker_ATBT.cpp:1258-1281 *)
Example test_kronecker_Mask_Accum_ATBTM_dense :
 (x_A <- mdense0 TyD d_Ones_3x3 0%Q ;;
  x_B <- mdense0 TyD d_Ones_4x3 0%Q ;;
  x_MLower <- mdense0 TyD d_Lower_9x12 0%Q ;;
  x_MNotLower <- mdense0 TyD d_NotLower_9x12 0%Q ;;
  x_Ones <- mdense0 TyD d_Ones_9x12 0%Q ;;
  x_C <- mnew 9 12 ;;
  x_answer <- mnew 9 12 ;;
  x_C_1 <- lil_assign x_C x_Ones ;;
  x_C_2 <- t_kronecker TyD (acc TyD qplus) qtimes (MVal x_MLower) MERGE x_C_1 (Trn x_A) (Trn x_B) ;;
  x_answer_1 <- t_eWiseAdd TyD noacc TyD TyD qplus NoMask MERGE x_answer (Mat x_Ones) (Mat x_MLower)
    ;;
  x_q <- meq x_C_2 x_answer_1 ;;
  _ <- check x_q ;;
  x_C_3 <- lil_assign x_C_2 x_Ones ;;
  x_C_4 <- t_kronecker TyD (acc TyD qplus) qtimes (MVal x_MLower) REPLACE x_C_3 (Trn x_A) (Trn x_B)
    ;;
  x_answer_2 <- t_eWiseAdd TyD noacc TyD TyD qplus NoMask MERGE x_answer_1 (Mat x_MLower) (Mat
    x_MLower) ;;
  x_q_1 <- meq x_C_4 x_answer_2 ;;
  _ <- check x_q_1 ;;
  Ok tt) = Ok tt.
Proof. vm_compute. reflexivity. Qed.

(** test_kronecker_ATBT.cpp:1284-1305 *)
Example test_kronecker_Mask_Accum_ATBT_empty_rows :
 (x_Ones <- mdense0 TyD d_Ones_9x12 0%Q ;;
  x_A <- mdense0 TyD d_Ar_sparse_3x3 0%Q ;;
  x_B <- mdense0 TyD d_Br_sparse_4x3 0%Q ;;
  x_answer <- mdense0 TyD d_Answer_rr_sparse_9x12 0%Q ;;
  x_C <- mnew 9 12 ;;
  x_MLower <- mdense0 TyD d_Lower_9x12 0%Q ;;
  x_MNotLower <- mdense0 TyD d_NotLower_9x12 0%Q ;;
  x_C_1 <- lil_assign x_C x_Ones ;;
  x_answer_1 <- t_eWiseMult TyD noacc TyD TyD qtimes NoMask MERGE x_answer (Mat x_MLower) (Mat
    x_answer) ;;
  x_answer_2 <- t_eWiseAdd TyD noacc TyD TyD qplus NoMask MERGE x_answer_1 (Mat x_MLower) (Mat
    x_answer_1) ;;
  x_C_2 <- t_kronecker TyD (acc TyD qplus) qtimes (MVal x_MLower) REPLACE x_C_1 (Trn x_A) (Trn x_B)
    ;;
  x_q <- meq x_C_2 x_answer_2 ;;
  _ <- check x_q ;;
  x_C_3 <- lil_assign x_C_2 x_Ones ;;
  x_answer_3 <- t_eWiseAdd TyD noacc TyD TyD qplus NoMask MERGE x_answer_2 (Mat x_MNotLower) (Mat
    x_answer_2) ;;
  x_C_4 <- t_kronecker TyD (acc TyD qplus) qtimes (MVal x_MLower) MERGE x_C_3 (Trn x_A) (Trn x_B) ;;
  x_q_1 <- meq x_C_4 x_answer_3 ;;
  _ <- check x_q_1 ;;
  Ok tt) = Ok tt.
Proof. vm_compute. reflexivity. Qed.

(** test_kronecker_ATBT.cpp:1308-1331 *)
Example test_kronecker_Mask_Accum_ATBT_emptyRowA_emptyColB :
 (x_C <- mnew 9 12 ;;
  x_Ones <- mdense0 TyD d_Ones_9x12 0%Q ;;
  x_A <- mdense0 TyD d_Ar_sparse_3x3 0%Q ;;
  x_B <- mdense0 TyD d_Bc_sparse_4x3 0%Q ;;
  x_answer <- mdense0 TyD d_Answer_rc_sparse_9x12 0%Q ;;
  x_MLower <- mdense0 TyD d_Lower_9x12 0%Q ;;
  x_MNotLower <- mdense0 TyD d_NotLower_9x12 0%Q ;;
  x_C_1 <- lil_assign x_C x_Ones ;;
  x_answer_1 <- t_eWiseMult TyD noacc TyD TyD qtimes NoMask MERGE x_answer (Mat x_MLower) (Mat
    x_answer) ;;
  x_answer_2 <- t_eWiseAdd TyD noacc TyD TyD qplus NoMask MERGE x_answer_1 (Mat x_MLower) (Mat
    x_answer_1) ;;
  x_C_2 <- t_kronecker TyD (acc TyD qplus) qtimes (MVal x_MLower) REPLACE x_C_1 (Trn x_A) (Trn x_B)
    ;;
  x_q <- meq x_C_2 x_answer_2 ;;
  _ <- check x_q ;;
  x_C_3 <- lil_assign x_C_2 x_Ones ;;
  x_answer_3 <- t_eWiseAdd TyD noacc TyD TyD qplus NoMask MERGE x_answer_2 (Mat x_MNotLower) (Mat
    x_answer_2) ;;
  x_C_4 <- t_kronecker TyD (acc TyD qplus) qtimes (MVal x_MLower) MERGE x_C_3 (Trn x_A) (Trn x_B) ;;
  x_q_1 <- meq x_C_4 x_answer_3 ;;
  _ <- check x_q_1 ;;
  Ok tt) = Ok tt.
Proof. vm_compute. reflexivity. Qed.

(** test_kronecker_ATBT.cpp:1334-1357 *)
Example test_kronecker_Mask_Accum_ATBT_emptyColA_emptyRowB :
 (x_C <- mnew 9 12 ;;
  x_Ones <- mdense0 TyD d_Ones_9x12 0%Q ;;
  x_A <- mdense0 TyD d_Ac_sparse_3x3 0%Q ;;
  x_B <- mdense0 TyD d_Br_sparse_4x3 0%Q ;;
  x_answer <- mdense0 TyD d_Answer_cr_sparse_9x12 0%Q ;;
  x_MLower <- mdense0 TyD d_Lower_9x12 0%Q ;;
  x_MNotLower <- mdense0 TyD d_NotLower_9x12 0%Q ;;
  x_C_1 <- lil_assign x_C x_Ones ;;
  x_answer_1 <- t_eWiseMult TyD noacc TyD TyD qtimes NoMask MERGE x_answer (Mat x_MLower) (Mat
    x_answer) ;;
  x_answer_2 <- t_eWiseAdd TyD noacc TyD TyD qplus NoMask MERGE x_answer_1 (Mat x_MLower) (Mat
    x_answer_1) ;;
  x_C_2 <- t_kronecker TyD (acc TyD qplus) qtimes (MVal x_MLower) REPLACE x_C_1 (Trn x_A) (Trn x_B)
    ;;
  x_q <- meq x_C_2 x_answer_2 ;;
  _ <- check x_q ;;
  x_C_3 <- lil_assign x_C_2 x_Ones ;;
  x_answer_3 <- t_eWiseAdd TyD noacc TyD TyD qplus NoMask MERGE x_answer_2 (Mat x_MNotLower) (Mat
    x_answer_2) ;;
  x_C_4 <- t_kronecker TyD (acc TyD qplus) qtimes (MVal x_MLower) MERGE x_C_3 (Trn x_A) (Trn x_B) ;;
  x_q_1 <- meq x_C_4 x_answer_3 ;;
  _ <- check x_q_1 ;;
  Ok tt) = Ok tt.
Proof. vm_compute. reflexivity. Qed.

(** test_kronecker_ATBT.cpp:1360-1383 *)
Example test_kronecker_Mask_Accum_ATBT_emptyRowM :
 (x_C <- mnew 9 12 ;;
  x_Ones <- mdense0 TyD d_Ones_9x12 0%Q ;;
  x_A <- mdense0 TyD d_AT_sparse_3x3 0%Q ;;
  x_B <- mdense0 TyD d_B_sparse_4x3 0%Q ;;
  x_answer <- mdense0 TyD d_Answer_sparse_9x12 0%Q ;;
  x_MLower <- mdense0 TyD d_Lower_9x12 0%Q ;;
  x_MNotLower <- mdense0 TyD d_NotLower_9x12 0%Q ;;
  x_C_1 <- lil_assign x_C x_Ones ;;
  x_answer_1 <- t_eWiseMult TyD noacc TyD TyD qtimes NoMask MERGE x_answer (Mat x_MLower) (Mat
    x_answer) ;;
  x_answer_2 <- t_eWiseAdd TyD noacc TyD TyD qplus NoMask MERGE x_answer_1 (Mat x_MLower) (Mat
    x_answer_1) ;;
  x_C_2 <- t_kronecker TyD (acc TyD qplus) qtimes (MVal x_MLower) REPLACE x_C_1 (Trn x_A) (Trn x_B)
    ;;
  x_q <- meq x_C_2 x_answer_2 ;;
  _ <- check x_q ;;
  x_C_3 <- lil_assign x_C_2 x_Ones ;;
  x_answer_3 <- t_eWiseAdd TyD noacc TyD TyD qplus NoMask MERGE x_answer_2 (Mat x_MNotLower) (Mat
    x_answer_2) ;;
  x_C_4 <- t_kronecker TyD (acc TyD qplus) qtimes (MVal x_MLower) MERGE x_C_3 (Trn x_A) (Trn x_B) ;;
  x_q_1 <- meq x_C_4 x_answer_3 ;;
  _ <- check x_q_1 ;;
  Ok tt) = Ok tt.
Proof. vm_compute. reflexivity. Qed.

(** test_kronecker_ATBT.cpp:1386-1409 *)
Example test_kronecker_Mask_Accum_ATBT_ABdup :
 (x_C <- mnew 9 9 ;;
  x_Ones <- mdense0 TyD d_Ones_9x9 0%Q ;;
  x_A <- mdense0 TyD d_A_sparse_3x3 0%Q ;;
  x_answer <- mdense0 TyD d_ATAT_sparse_9x9 0%Q ;;
  x_MLower <- mdense0 TyD d_Lower_9x9 0%Q ;;
  x_MNotLower <- mdense0 TyD d_NotLower_9x9 0%Q ;;
  x_C_1 <- lil_assign x_C x_Ones ;;
  x_answer_1 <- t_eWiseMult TyD noacc TyD TyD qtimes NoMask MERGE x_answer (Mat x_MLower) (Mat
    x_answer) ;;
  x_answer_2 <- t_eWiseAdd TyD noacc TyD TyD qplus NoMask MERGE x_answer_1 (Mat x_MLower) (Mat
    x_answer_1) ;;
  x_C_2 <- t_kronecker TyD (acc TyD qplus) qtimes (MVal x_MLower) REPLACE x_C_1 (Trn x_A) (Trn x_A)
    ;;
  x_q <- meq x_C_2 x_answer_2 ;;
  _ <- check x_q ;;
  x_C_3 <- lil_assign x_C_2 x_Ones ;;
  x_answer_3 <- t_eWiseAdd TyD noacc TyD TyD qplus NoMask MERGE x_answer_2 (Mat x_MNotLower) (Mat
    x_answer_2) ;;
  x_C_4 <- t_kronecker TyD (acc TyD qplus) qtimes (MVal x_MLower) MERGE x_C_3 (Trn x_A) (Trn x_A) ;;
  x_q_1 <- meq x_C_4 x_answer_3 ;;
  _ <- check x_q_1 ;;
  Ok tt) = Ok tt.
Proof. vm_compute. reflexivity. Qed.

(** test_kronecker_ATBT.cpp:1412-1435 *)
Example test_kronecker_Mask_Accum_ATBT_ACdup :
 (x_mat <- mdense0 TyD d_A_sparse_3x3 0%Q ;;
  x_C <- mnew 3 3 ;;
  x_B <- mnew 1 1 ;;
  x_B_1 <- lil_setElement x_B 0 0 (cast TyD 1%Q) ;;
  x_answer <- mdense0 TyD d_AT_sparse_3x3 0%Q ;;
  x_MLower <- mdense0 TyD d_Lower_3x3 0%Q ;;
  x_MNotLower <- mdense0 TyD d_NotLower_3x3 0%Q ;;
  x_C_1 <- lil_assign x_C x_mat ;;
  x_answer_1 <- t_eWiseMult TyD noacc TyD TyD qtimes NoMask MERGE x_answer (Mat x_MLower) (Trn
    x_mat) ;;
  x_answer_2 <- t_eWiseAdd TyD noacc TyD TyD qplus NoMask MERGE x_answer_1 (Mat x_mat) (Mat
    x_answer_1) ;;
  x_C_2 <- t_kronecker TyD (acc TyD qplus) qtimes (MVal x_MLower) REPLACE x_C_1 (Trn x_C_1) (Trn
    x_B_1) ;;
  x_q <- meq x_C_2 x_answer_2 ;;
  _ <- check x_q ;;
  x_C_3 <- lil_assign x_C_2 x_mat ;;
  x_C_4 <- t_kronecker TyD (acc TyD qplus) qtimes (MVal x_MLower) MERGE x_C_3 (Trn x_C_3) (Trn
    x_B_1) ;;
  x_q_1 <- meq x_C_4 x_answer_2 ;;
  _ <- check x_q_1 ;;
  Ok tt) = Ok tt.
Proof. vm_compute. reflexivity. Qed.

(** test_kronecker_ATBT.cpp:1438-1462 *)
Example test_kronecker_Mask_Accum_ATBT_BCdup :
 (x_mat <- mdense0 TyD d_A_sparse_3x3 0%Q ;;
  x_C <- mnew 3 3 ;;
  x_A <- mnew 1 1 ;;
  x_A_1 <- lil_setElement x_A 0 0 (cast TyD 1%Q) ;;
  x_MLower <- mdense0 TyD d_Lower_3x3 0%Q ;;
  x_MNotLower <- mdense0 TyD d_NotLower_3x3 0%Q ;;
  x_C_1 <- lil_assign x_C x_mat ;;
  x_answer <- t_eWiseMult TyD noacc TyD TyD qtimes NoMask MERGE x_mat (Mat x_MLower) (Trn x_mat) ;;
  x_answer_1 <- t_eWiseAdd TyD noacc TyD TyD qplus NoMask MERGE x_answer (Mat x_answer) (Mat x_mat)
    ;;
  x_C_2 <- t_kronecker TyD (acc TyD qplus) qtimes (MVal x_MLower) REPLACE x_C_1 (Trn x_A_1) (Trn
    x_C_1) ;;
  x_q <- meq x_C_2 x_answer_1 ;;
  _ <- check x_q ;;
  x_C_3 <- lil_assign x_C_2 x_mat ;;
  x_C_4 <- t_kronecker TyD (acc TyD qplus) qtimes (MVal x_MLower) MERGE x_C_3 (Trn x_A_1) (Trn
    x_C_3) ;;
  x_q_1 <- meq x_C_4 x_answer_1 ;;
  _ <- check x_q_1 ;;
  Ok tt) = Ok tt.
Proof. vm_compute. reflexivity. Qed.

(** test_kronecker_ATBT.cpp:1465-1490 *)
Example test_kronecker_Mask_Accum_ATBT_MCdup :
 (x_C <- mnew 9 12 ;;
  x_Ones <- mdense0 TyD d_Ones_9x12 0%Q ;;
  x_A <- mdense0 TyD d_AT_sparse_3x3 0%Q ;;
  x_B <- mdense0 TyD d_B_sparse_4x3 0%Q ;;
  x_answer <- mdense0 TyD d_Answer_sparse_9x12 0%Q ;;
  x_MLower <- mdense0 TyD d_Lower_9x12 0%Q ;;
  x_MNotLower <- mdense0 TyD d_NotLower_9x12 0%Q ;;
  x_C_1 <- lil_assign x_C x_MLower ;;
  x_answer_1 <- t_eWiseMult TyD noacc TyD TyD qtimes NoMask MERGE x_answer (Mat x_MLower) (Mat
    x_answer) ;;
  x_answer_2 <- t_eWiseAdd TyD noacc TyD TyD qplus NoMask MERGE x_answer_1 (Mat x_MLower) (Mat
    x_answer_1) ;;
  x_C_2 <- t_kronecker TyD (acc TyD qplus) qtimes (MVal x_C_1) REPLACE x_C_1 (Trn x_A) (Trn x_B) ;;
  x_q <- meq x_C_2 x_answer_2 ;;
  _ <- check x_q ;;
  x_C_3 <- lil_assign x_C_2 x_MLower ;;
  x_C_4 <- t_kronecker TyD (acc TyD qplus) qtimes (MVal x_C_3) MERGE x_C_3 (Trn x_A) (Trn x_B) ;;
  x_q_1 <- meq x_C_4 x_answer_2 ;;
  _ <- check x_q_1 ;;
  Ok tt) = Ok tt.
Proof. vm_compute. reflexivity. Qed.

(** test_kronecker_ATBT.cpp:1497-1554 *)
Example test_kronecker_CompMask_NoAccum_ATBT :
 (x_C <- mnew 9 12 ;;
  x_A <- mdense0 TyD d_AT_sparse_3x3 0%Q ;;
  x_B <- mdense0 TyD d_B_sparse_4x3 0%Q ;;
  x_Identity <- mdense0 TyD d_Identity_3x3 0%Q ;;
  x_Empty <- mnew 9 12 ;;
  x_Ones <- mdense0 TyD d_Ones_9x12 0%Q ;;
  x_MLower <- mdense0 TyD d_Lower_9x12 0%Q ;;
  x_MNotLower <- mdense0 TyD d_NotLower_9x12 0%Q ;;
  x_Answer_9x12 <- mdense0 TyD d_Answer_sparse_9x12 0%Q ;;
  x_Answer_9x12_Lower <- mdense0 TyD d_Answer_sparse_9x12_Lower 0%Q ;;
  x_Answer_9x12_NotLower <- mdense0 TyD d_Answer_sparse_9x12_NotLower 0%Q ;;
  x_Answer_9x12_Lower_Ones <- mdense0 TyD d_Answer_sparse_9x12_Lower_Ones 0%Q ;;
  x_Answer_9x12_NotLower_Ones <- mdense0 TyD d_Answer_sparse_9x12_NotLower_Ones 0%Q ;;
  x_C_1 <- lil_assign x_C x_Ones ;;
  x_C_2 <- t_kronecker TyD noacc qtimes (MComp x_Ones) MERGE x_C_1 (Trn x_A) (Trn x_B) ;;
  x_q <- meq x_C_2 x_Ones ;;
  _ <- check x_q ;;
  x_C_3 <- lil_assign x_C_2 x_Ones ;;
  x_C_4 <- t_kronecker TyD noacc qtimes (MComp x_Empty) MERGE x_C_3 (Trn x_A) (Trn x_B) ;;
  x_q_1 <- meq x_C_4 x_Answer_9x12 ;;
  _ <- check x_q_1 ;;
  x_C_5 <- lil_assign x_C_4 x_Ones ;;
  x_C_6 <- t_kronecker TyD noacc qtimes (MComp x_MNotLower) MERGE x_C_5 (Trn x_A) (Trn x_B) ;;
  x_q_2 <- meq x_C_6 x_Answer_9x12_Lower_Ones ;;
  _ <- check x_q_2 ;;
  x_C_7 <- lil_assign x_C_6 x_Ones ;;
  x_C_8 <- t_kronecker TyD noacc qtimes (MComp x_MLower) MERGE x_C_7 (Trn x_A) (Trn x_B) ;;
  x_q_3 <- meq x_C_8 x_Answer_9x12_NotLower_Ones ;;
  _ <- check x_q_3 ;;
  x_C_9 <- lil_assign x_C_8 x_Ones ;;
  x_C_10 <- t_kronecker TyD noacc qtimes (MComp x_Ones) REPLACE x_C_9 (Trn x_A) (Trn x_B) ;;
  x_q_4 <- meq x_C_10 x_Empty ;;
  _ <- check x_q_4 ;;
  x_C_11 <- lil_assign x_C_10 x_Ones ;;
  x_C_12 <- t_kronecker TyD noacc qtimes (MComp x_Empty) REPLACE x_C_11 (Trn x_A) (Trn x_B) ;;
  x_q_5 <- meq x_C_12 x_Answer_9x12 ;;
  _ <- check x_q_5 ;;
  x_C_13 <- lil_assign x_C_12 x_Ones ;;
  x_C_14 <- t_kronecker TyD noacc qtimes (MComp x_MNotLower) REPLACE x_C_13 (Trn x_A) (Trn x_B) ;;
  x_q_6 <- meq x_C_14 x_Answer_9x12_Lower ;;
  _ <- check x_q_6 ;;
  x_C_15 <- lil_assign x_C_14 x_Ones ;;
  x_C_16 <- t_kronecker TyD noacc qtimes (MComp x_MLower) REPLACE x_C_15 (Trn x_A) (Trn x_B) ;;
  x_q_7 <- meq x_C_16 x_Answer_9x12_NotLower ;;
  _ <- check x_q_7 ;;
  Ok tt) = Ok tt.
Proof. vm_compute. reflexivity. Qed.

(** test_kronecker_ATBT.cpp:1557-1596 *)
Example test_kronecker_CompMask_NoAccum_ATBTM_empty :
 (x_C <- mnew 9 12 ;;
  x_A <- mdense0 TyD d_AT_sparse_3x3 0%Q ;;
  x_B <- mdense0 TyD d_B_sparse_4x3 0%Q ;;
  x_Ones <- mdense0 TyD d_Ones_9x12 0%Q ;;
  x_Empty <- mnew 9 12 ;;
  x_Empty3x3 <- mnew 3 3 ;;
  x_Empty4x3 <- mnew 4 3 ;;
  x_MLower <- mdense0 TyD d_Lower_9x12 0%Q ;;
  x_MNotLower <- mdense0 TyD d_NotLower_9x12 0%Q ;;
  x_C_1 <- lil_assign x_C x_Ones ;;
  x_C_2 <- t_kronecker TyD noacc qtimes (MComp x_Ones) MERGE x_C_1 (Trn x_A) (Trn x_B) ;;
  x_q <- meq x_C_2 x_Ones ;;
  _ <- check x_q ;;
  x_C_3 <- lil_assign x_C_2 x_Ones ;;
  x_C_4 <- t_kronecker TyD noacc qtimes (MComp x_MNotLower) MERGE x_C_3 (Trn x_Empty3x3) (Trn x_B)
    ;;
  x_q_1 <- meq x_C_4 x_MNotLower ;;
  _ <- check x_q_1 ;;
  x_C_5 <- lil_assign x_C_4 x_Ones ;;
  x_C_6 <- t_kronecker TyD noacc qtimes (MComp x_MNotLower) MERGE x_C_5 (Trn x_A) (Trn x_Empty4x3)
    ;;
  x_q_2 <- meq x_C_6 x_MNotLower ;;
  _ <- check x_q_2 ;;
  x_C_7 <- lil_assign x_C_6 x_Ones ;;
  x_C_8 <- t_kronecker TyD noacc qtimes (MComp x_Ones) REPLACE x_C_7 (Trn x_A) (Trn x_B) ;;
  x_q_3 <- meq x_C_8 x_Empty ;;
  _ <- check x_q_3 ;;
  x_C_9 <- lil_assign x_C_8 x_Ones ;;
  x_C_10 <- t_kronecker TyD noacc qtimes (MComp x_MNotLower) REPLACE x_C_9 (Trn x_Empty3x3) (Trn
    x_B) ;;
  x_q_4 <- meq x_C_10 x_Empty ;;
  _ <- check x_q_4 ;;
  x_C_11 <- lil_assign x_C_10 x_Ones ;;
  x_C_12 <- t_kronecker TyD noacc qtimes (MComp x_MNotLower) REPLACE x_C_11 (Trn x_A) (Trn
    x_Empty4x3) ;;
  x_q_5 <- meq x_C_12 x_Empty ;;
  _ <- check x_q_5 ;;
  Ok tt) = Ok tt.
Proof. vm_compute. reflexivity. Qed.

(** test_kronecker_ATBT.cpp:1599-1617 *)
Example test_kronecker_CompMask_NoAccum_ATBTM_dense :
 (x_A <- mdense0 TyD d_Ones_3x3 0%Q ;;
  x_B <- mdense0 TyD d_Ones_4x3 0%Q ;;
  x_MLower <- mdense0 TyD d_Lower_9x12 0%Q ;;
  x_MNotLower <- mdense0 TyD d_NotLower_9x12 0%Q ;;
  x_Ones <- mdense0 TyD d_Ones_9x12 0%Q ;;
  x_C <- mnew 9 12 ;;
  x_C_1 <- lil_assign x_C x_Ones ;;
  x_C_2 <- t_kronecker TyD noacc qtimes (MComp x_MNotLower) MERGE x_C_1 (Trn x_A) (Trn x_B) ;;
  x_q <- meq x_C_2 x_Ones ;;
  _ <- check x_q ;;
  x_C_3 <- lil_assign x_C_2 x_Ones ;;
  x_C_4 <- t_kronecker TyD noacc qtimes (MComp x_MNotLower) REPLACE x_C_3 (Trn x_A) (Trn x_B) ;;
  x_q_1 <- meq x_C_4 x_MLower ;;
  _ <- check x_q_1 ;;
  Ok tt) = Ok tt.
Proof. vm_compute. reflexivity. Qed.

(** test_kronecker_ATBT.cpp:1620-1641 *)
Example test_kronecker_CompMask_NoAccum_ATBT_empty_rows :
 (x_Ones <- mdense0 TyD d_Ones_9x12 0%Q ;;
  x_A <- mdense0 TyD d_Ar_sparse_3x3 0%Q ;;
  x_B <- mdense0 TyD d_Br_sparse_4x3 0%Q ;;
  x_answer <- mdense0 TyD d_Answer_rr_sparse_9x12 0%Q ;;
  x_C <- mnew 9 12 ;;
  x_MLower <- mdense0 TyD d_Lower_9x12 0%Q ;;
  x_MNotLower <- mdense0 TyD d_NotLower_9x12 0%Q ;;
  x_C_1 <- lil_assign x_C x_Ones ;;
  x_answer_1 <- t_eWiseMult TyD noacc TyD TyD qtimes NoMask MERGE x_answer (Mat x_MLower) (Mat
    x_answer) ;;
  x_C_2 <- t_kronecker TyD noacc qtimes (MComp x_MNotLower) REPLACE x_C_1 (Trn x_A) (Trn x_B) ;;
  x_q <- meq x_C_2 x_answer_1 ;;
  _ <- check x_q ;;
  x_C_3 <- lil_assign x_C_2 x_Ones ;;
  x_answer_2 <- t_eWiseAdd TyD noacc TyD TyD qplus NoMask MERGE x_answer_1 (Mat x_MNotLower) (Mat
    x_answer_1) ;;
  x_C_4 <- t_kronecker TyD noacc qtimes (MComp x_MNotLower) MERGE x_C_3 (Trn x_A) (Trn x_B) ;;
  x_q_1 <- meq x_C_4 x_answer_2 ;;
  _ <- check x_q_1 ;;
  Ok tt) = Ok tt.
Proof. vm_compute. reflexivity. Qed.

(** test_kronecker_ATBT.cpp:1644-1667 *)
Example test_kronecker_CompMask_NoAccum_ATBT_emptyRowA_emptyColB :
 (x_C <- mnew 9 12 ;;
  x_Ones <- mdense0 TyD d_Ones_9x12 0%Q ;;
  x_A <- mdense0 TyD d_Ar_sparse_3x3 0%Q ;;
  x_B <- mdense0 TyD d_Bc_sparse_4x3 0%Q ;;
  x_answer <- mdense0 TyD d_Answer_rc_sparse_9x12 0%Q ;;
  x_MLower <- mdense0 TyD d_Lower_9x12 0%Q ;;
  x_MNotLower <- mdense0 TyD d_NotLower_9x12 0%Q ;;
  x_C_1 <- lil_assign x_C x_Ones ;;
  x_answer_1 <- t_eWiseMult TyD noacc TyD TyD qtimes NoMask MERGE x_answer (Mat x_MLower) (Mat
    x_answer) ;;
  x_C_2 <- t_kronecker TyD noacc qtimes (MComp x_MNotLower) REPLACE x_C_1 (Trn x_A) (Trn x_B) ;;
  x_q <- meq x_C_2 x_answer_1 ;;
  _ <- check x_q ;;
  x_C_3 <- lil_assign x_C_2 x_Ones ;;
  x_answer_2 <- t_eWiseAdd TyD noacc TyD TyD qplus NoMask MERGE x_answer_1 (Mat x_MNotLower) (Mat
    x_answer_1) ;;
  x_C_4 <- t_kronecker TyD noacc qtimes (MComp x_MNotLower) MERGE x_C_3 (Trn x_A) (Trn x_B) ;;
  x_q_1 <- meq x_C_4 x_answer_2 ;;
  _ <- check x_q_1 ;;
  Ok tt) = Ok tt.
Proof. vm_compute. reflexivity. Qed.

(** test_kronecker_ATBT.cpp:1670-1692 *)
Example test_kronecker_CompMask_NoAccum_ATBT_emptyColA_emptyRowB :
 (x_C <- mnew 9 12 ;;
  x_Ones <- mdense0 TyD d_Ones_9x12 0%Q ;;
  x_A <- mdense0 TyD d_Ac_sparse_3x3 0%Q ;;
  x_B <- mdense0 TyD d_Br_sparse_4x3 0%Q ;;
  x_answer <- mdense0 TyD d_Answer_cr_sparse_9x12 0%Q ;;
  x_MLower <- mdense0 TyD d_Lower_9x12 0%Q ;;
  x_MNotLower <- mdense0 TyD d_NotLower_9x12 0%Q ;;
  x_C_1 <- lil_assign x_C x_Ones ;;
  x_answer_1 <- t_eWiseMult TyD noacc TyD TyD qtimes NoMask MERGE x_answer (Mat x_MLower) (Mat
    x_answer) ;;
  x_C_2 <- t_kronecker TyD noacc qtimes (MComp x_MNotLower) REPLACE x_C_1 (Trn x_A) (Trn x_B) ;;
  x_q <- meq x_C_2 x_answer_1 ;;
  _ <- check x_q ;;
  x_C_3 <- lil_assign x_C_2 x_Ones ;;
  x_answer_2 <- t_eWiseAdd TyD noacc TyD TyD qplus NoMask MERGE x_answer_1 (Mat x_MNotLower) (Mat
    x_answer_1) ;;
  x_C_4 <- t_kronecker TyD noacc qtimes (MComp x_MNotLower) MERGE x_C_3 (Trn x_A) (Trn x_B) ;;
  x_q_1 <- meq x_C_4 x_answer_2 ;;
  _ <- check x_q_1 ;;
  Ok tt) = Ok tt.
Proof. vm_compute. reflexivity. Qed.

(** test_kronecker_ATBT.cpp:1695-1718 *)
Example test_kronecker_CompMask_NoAccum_ATBT_emptyRowM :
 (x_C <- mnew 9 12 ;;
  x_Ones <- mdense0 TyD d_Ones_9x12 0%Q ;;
  x_A <- mdense0 TyD d_AT_sparse_3x3 0%Q ;;
  x_B <- mdense0 TyD d_B_sparse_4x3 0%Q ;;
  x_answer <- mdense0 TyD d_Answer_sparse_9x12 0%Q ;;
  x_MLower <- mdense0 TyD d_Lower_9x12 0%Q ;;
  x_MNotLower <- mdense0 TyD d_NotLower_9x12 0%Q ;;
  x_C_1 <- lil_assign x_C x_Ones ;;
  x_answer_1 <- t_eWiseMult TyD noacc TyD TyD qtimes NoMask MERGE x_answer (Mat x_MLower) (Mat
    x_answer) ;;
  x_C_2 <- t_kronecker TyD noacc qtimes (MComp x_MNotLower) REPLACE x_C_1 (Trn x_A) (Trn x_B) ;;
  x_q <- meq x_C_2 x_answer_1 ;;
  _ <- check x_q ;;
  x_C_3 <- lil_assign x_C_2 x_Ones ;;
  x_answer_2 <- t_eWiseAdd TyD noacc TyD TyD qplus NoMask MERGE x_answer_1 (Mat x_MNotLower) (Mat
    x_answer_1) ;;
  x_C_4 <- t_kronecker TyD noacc qtimes (MComp x_MNotLower) MERGE x_C_3 (Trn x_A) (Trn x_B) ;;
  x_q_1 <- meq x_C_4 x_answer_2 ;;
  _ <- check x_q_1 ;;
  Ok tt) = Ok tt.
Proof. vm_compute. reflexivity. Qed.

(** test_kronecker_ATBT.cpp:1721-1743 *)
Example test_kronecker_CompMask_NoAccum_ATBT_ABdup :
 (x_C <- mnew 9 9 ;;
  x_Ones <- mdense0 TyD d_Ones_9x9 0%Q ;;
  x_A <- mdense0 TyD d_AT_sparse_3x3 0%Q ;;
  x_answer <- mdense0 TyD d_ATAT_sparse_9x9 0%Q ;;
  x_MLower <- mdense0 TyD d_Lower_9x9 0%Q ;;
  x_MNotLower <- mdense0 TyD d_NotLower_9x9 0%Q ;;
  x_C_1 <- lil_assign x_C x_Ones ;;
  x_answer_1 <- t_eWiseMult TyD noacc TyD TyD qtimes NoMask MERGE x_answer (Mat x_MLower) (Trn
    x_answer) ;;
  x_C_2 <- t_kronecker TyD noacc qtimes (MComp x_MNotLower) REPLACE x_C_1 (Trn x_A) (Trn x_A) ;;
  x_q <- meq x_C_2 x_answer_1 ;;
  _ <- check x_q ;;
  x_C_3 <- lil_assign x_C_2 x_Ones ;;
  x_answer_2 <- t_eWiseAdd TyD noacc TyD TyD qplus NoMask MERGE x_answer_1 (Mat x_MNotLower) (Mat
    x_answer_1) ;;
  x_C_4 <- t_kronecker TyD noacc qtimes (MComp x_MNotLower) MERGE x_C_3 (Trn x_A) (Trn x_A) ;;
  x_q_1 <- meq x_C_4 x_answer_2 ;;
  _ <- check x_q_1 ;;
  Ok tt) = Ok tt.
Proof. vm_compute. reflexivity. Qed.

(** test_kronecker_ATBT.cpp:1746-1770 *)
Example test_kronecker_CompMask_NoAccum_ATBT_ACdup :
 (x_mat <- mdense0 TyD d_A_sparse_3x3 0%Q ;;
  x_C <- mnew 3 3 ;;
  x_B <- mnew 1 1 ;;
  x_B_1 <- lil_setElement x_B 0 0 (cast TyD 1%Q) ;;
  x_answer <- mdense0 TyD d_AT_sparse_3x3 0%Q ;;
  x_MLower <- mdense0 TyD d_Lower_3x3 0%Q ;;
  x_MNotLower <- mdense0 TyD d_NotLower_3x3 0%Q ;;
  x_C_1 <- lil_assign x_C x_mat ;;
  x_answer_1 <- t_eWiseMult TyD noacc TyD TyD qtimes NoMask MERGE x_answer (Mat x_MLower) (Trn
    x_mat) ;;
  x_C_2 <- t_kronecker TyD noacc qtimes (MComp x_MNotLower) REPLACE x_C_1 (Trn x_C_1) (Trn x_B_1) ;;
  x_q <- meq x_C_2 x_answer_1 ;;
  _ <- check x_q ;;
  x_C_3 <- lil_assign x_C_2 x_mat ;;
  x_C_4 <- t_kronecker TyD noacc qtimes (MComp x_MNotLower) MERGE x_C_3 (Trn x_C_3) (Trn x_B_1) ;;
  x_q_1 <- meq x_C_4 x_answer_1 ;;
  _ <- check x_q_1 ;;
  Ok tt) = Ok tt.
Proof. vm_compute. reflexivity. Qed.

(** test_kronecker_ATBT.cpp:1773-1796 *)
Example test_kronecker_CompMask_NoAccum_ATBT_BCdup :
 (x_mat <- mdense0 TyD d_A_sparse_3x3 0%Q ;;
  x_C <- mnew 3 3 ;;
  x_A <- mnew 1 1 ;;
  x_A_1 <- lil_setElement x_A 0 0 (cast TyD 1%Q) ;;
  x_answer <- mdense0 TyD d_AT_sparse_3x3 0%Q ;;
  x_MLower <- mdense0 TyD d_Lower_3x3 0%Q ;;
  x_MNotLower <- mdense0 TyD d_NotLower_3x3 0%Q ;;
  x_C_1 <- lil_assign x_C x_mat ;;
  x_answer_1 <- t_eWiseMult TyD noacc TyD TyD qtimes NoMask MERGE x_answer (Mat x_MLower) (Trn
    x_mat) ;;
  x_C_2 <- t_kronecker TyD noacc qtimes (MComp x_MNotLower) REPLACE x_C_1 (Trn x_A_1) (Trn x_C_1) ;;
  x_q <- meq x_C_2 x_answer_1 ;;
  _ <- check x_q ;;
  x_C_3 <- lil_assign x_C_2 x_mat ;;
  x_C_4 <- t_kronecker TyD noacc qtimes (MComp x_MNotLower) MERGE x_C_3 (Trn x_A_1) (Trn x_C_3) ;;
  x_q_1 <- meq x_C_4 x_answer_1 ;;
  _ <- check x_q_1 ;;
  Ok tt) = Ok tt.
Proof. vm_compute. reflexivity. Qed.

(** test_kronecker_ATBT.cpp:1799-1824 *)
Example test_kronecker_CompMask_NoAccum_ATBT_MCdup :
 (x_C <- mnew 9 12 ;;
  x_Ones <- mdense0 TyD d_Ones_9x12 0%Q ;;
  x_A <- mdense0 TyD d_AT_sparse_3x3 0%Q ;;
  x_B <- mdense0 TyD d_B_sparse_4x3 0%Q ;;
  x_answer <- mdense0 TyD d_Answer_sparse_9x12 0%Q ;;
  x_MLower <- mdense0 TyD d_Lower_9x12 0%Q ;;
  x_MNotLower <- mdense0 TyD d_NotLower_9x12 0%Q ;;
  x_C_1 <- lil_assign x_C x_MLower ;;
  x_answer_1 <- t_eWiseMult TyD noacc TyD TyD qtimes NoMask MERGE x_answer (Mat x_MNotLower) (Mat
    x_answer) ;;
  x_C_2 <- t_kronecker TyD noacc qtimes (MComp x_C_1) REPLACE x_C_1 (Trn x_A) (Trn x_B) ;;
  x_q <- meq x_C_2 x_answer_1 ;;
  _ <- check x_q ;;
  x_C_3 <- lil_assign x_C_2 x_MLower ;;
  x_answer_2 <- t_eWiseAdd TyD noacc TyD TyD qplus NoMask MERGE x_answer_1 (Mat x_MLower) (Mat
    x_answer_1) ;;
  x_C_4 <- t_kronecker TyD noacc qtimes (MComp x_C_3) MERGE x_C_3 (Trn x_A) (Trn x_B) ;;
  x_q_1 <- meq x_C_4 x_answer_2 ;;
  _ <- check x_q_1 ;;
  Ok tt) = Ok tt.
Proof. vm_compute. reflexivity. Qed.

(** test_kronecker_ATBT.cpp:1831-1901 *)
Example test_kronecker_CompMask_Accum_ATBT :
 (x_C <- mnew 9 12 ;;
  x_A <- mdense0 TyD d_AT_sparse_3x3 0%Q ;;
  x_B <- mdense0 TyD d_B_sparse_4x3 0%Q ;;
  x_Identity <- mdense0 TyD d_Identity_3x3 0%Q ;;
  x_answer <- mnew 9 12 ;;
  x_Empty <- mnew 9 12 ;;
  x_Ones <- mdense0 TyD d_Ones_9x12 0%Q ;;
  x_MLower <- mdense0 TyD d_Lower_9x12 0%Q ;;
  x_MNotLower <- mdense0 TyD d_NotLower_9x12 0%Q ;;
  x_Answer_9x12 <- mdense0 TyD d_Answer_sparse_9x12 0%Q ;;
  x_Answer_9x12_Lower <- mdense0 TyD d_Answer_sparse_9x12_Lower 0%Q ;;
  x_Answer_9x12_NotLower <- mdense0 TyD d_Answer_sparse_9x12_NotLower 0%Q ;;
  x_Answer_9x12_Lower_Ones <- mdense0 TyD d_Answer_sparse_9x12_Lower_Ones 0%Q ;;
  x_Answer_9x12_NotLower_Ones <- mdense0 TyD d_Answer_sparse_9x12_NotLower_Ones 0%Q ;;
  x_C_1 <- lil_assign x_C x_Ones ;;
  x_C_2 <- t_kronecker TyD (acc TyD qplus) qtimes (MComp x_Ones) MERGE x_C_1 (Trn x_A) (Trn x_B) ;;
  x_q <- meq x_C_2 x_Ones ;;
  _ <- check x_q ;;
  x_C_3 <- lil_assign x_C_2 x_Ones ;;
  x_answer_1 <- t_eWiseAdd TyD noacc TyD TyD qplus NoMask MERGE x_answer (Mat x_Ones) (Mat
    x_Answer_9x12) ;;
  x_C_4 <- t_kronecker TyD (acc TyD qplus) qtimes (MComp x_Empty) MERGE x_C_3 (Trn x_A) (Trn x_B) ;;
  x_q_1 <- meq x_C_4 x_answer_1 ;;
  _ <- check x_q_1 ;;
  x_C_5 <- lil_assign x_C_4 x_Ones ;;
  x_answer_2 <- t_eWiseAdd TyD noacc TyD TyD qplus NoMask MERGE x_answer_1 (Mat x_Ones) (Mat
    x_Answer_9x12_Lower) ;;
  x_C_6 <- t_kronecker TyD (acc TyD qplus) qtimes (MComp x_MNotLower) MERGE x_C_5 (Trn x_A) (Trn
    x_B) ;;
  x_q_2 <- meq x_C_6 x_answer_2 ;;
  _ <- check x_q_2 ;;
  x_C_7 <- lil_assign x_C_6 x_Ones ;;
  x_answer_3 <- t_eWiseAdd TyD noacc TyD TyD qplus NoMask MERGE x_answer_2 (Mat x_Ones) (Mat
    x_Answer_9x12_NotLower) ;;
  x_C_8 <- t_kronecker TyD (acc TyD qplus) qtimes (MComp x_MLower) MERGE x_C_7 (Trn x_A) (Trn x_B)
    ;;
  x_q_3 <- meq x_C_8 x_answer_3 ;;
  _ <- check x_q_3 ;;
  x_C_9 <- lil_assign x_C_8 x_Ones ;;
  x_C_10 <- t_kronecker TyD (acc TyD qplus) qtimes (MComp x_Ones) REPLACE x_C_9 (Trn x_A) (Trn x_B)
    ;;
  x_q_4 <- meq x_C_10 x_Empty ;;
  _ <- check x_q_4 ;;
  x_C_11 <- lil_assign x_C_10 x_Ones ;;
  x_answer_4 <- t_eWiseAdd TyD noacc TyD TyD qplus NoMask MERGE x_answer_3 (Mat x_Ones) (Mat
    x_Answer_9x12) ;;
  x_C_12 <- t_kronecker TyD (acc TyD qplus) qtimes (MComp x_Empty) REPLACE x_C_11 (Trn x_A) (Trn
    x_B) ;;
  x_q_5 <- meq x_C_12 x_answer_4 ;;
  _ <- check x_q_5 ;;
  x_C_13 <- lil_assign x_C_12 x_Ones ;;
  x_answer_5 <- t_eWiseAdd TyD noacc TyD TyD qplus NoMask MERGE x_answer_4 (Mat x_MLower) (Mat
    x_Answer_9x12_Lower) ;;
  x_C_14 <- t_kronecker TyD (acc TyD qplus) qtimes (MComp x_MNotLower) REPLACE x_C_13 (Trn x_A) (Trn
    x_B) ;;
  x_q_6 <- meq x_C_14 x_answer_5 ;;
  _ <- check x_q_6 ;;
  x_C_15 <- lil_assign x_C_14 x_Ones ;;
  x_answer_6 <- t_eWiseAdd TyD noacc TyD TyD qplus NoMask MERGE x_answer_5 (Mat x_MNotLower) (Mat
    x_Answer_9x12_NotLower) ;;
  x_C_16 <- t_kronecker TyD (acc TyD qplus) qtimes (MComp x_MLower) REPLACE x_C_15 (Trn x_A) (Trn
    x_B) ;;
  x_q_7 <- meq x_C_16 x_answer_6 ;;
  _ <- check x_q_7 ;;
  Ok tt) = Ok tt.
Proof. vm_compute. reflexivity. Qed.

(** test_kronecker_ATBT.cpp:1904-1943 *)
Example test_kronecker_CompMask_Accum_ATBTM_empty :
 (x_C <- mnew 9 12 ;;
  x_A <- mdense0 TyD d_AT_sparse_3x3 0%Q ;;
  x_B <- mdense0 TyD d_B_sparse_4x3 0%Q ;;
  x_Ones <- mdense0 TyD d_Ones_9x12 0%Q ;;
  x_Empty <- mnew 9 12 ;;
  x_Empty3x3 <- mnew 3 3 ;;
  x_Empty4x3 <- mnew 4 3 ;;
  x_MLower <- mdense0 TyD d_Lower_9x12 0%Q ;;
  x_MNotLower <- mdense0 TyD d_NotLower_9x12 0%Q ;;
  x_C_1 <- lil_assign x_C x_Ones ;;
  x_C_2 <- t_kronecker TyD (acc TyD qplus) qtimes (MComp x_Ones) MERGE x_C_1 (Trn x_A) (Trn x_B) ;;
  x_q <- meq x_C_2 x_Ones ;;
  _ <- check x_q ;;
  x_C_3 <- lil_assign x_C_2 x_Ones ;;
  x_C_4 <- t_kronecker TyD (acc TyD qplus) qtimes (MComp x_MNotLower) MERGE x_C_3 (Trn x_Empty3x3)
    (Trn x_B) ;;
  x_q_1 <- meq x_C_4 x_Ones ;;
  _ <- check x_q_1 ;;
  x_C_5 <- lil_assign x_C_4 x_Ones ;;
  x_C_6 <- t_kronecker TyD (acc TyD qplus) qtimes (MComp x_MNotLower) MERGE x_C_5 (Trn x_A) (Trn
    x_Empty4x3) ;;
  x_q_2 <- meq x_C_6 x_Ones ;;
  _ <- check x_q_2 ;;
  x_C_7 <- lil_assign x_C_6 x_Ones ;;
  x_C_8 <- t_kronecker TyD (acc TyD qplus) qtimes (MComp x_Ones) REPLACE x_C_7 (Trn x_A) (Trn x_B)
    ;;
  x_q_3 <- meq x_C_8 x_Empty ;;
  _ <- check x_q_3 ;;
  x_C_9 <- lil_assign x_C_8 x_Ones ;;
  x_C_10 <- t_kronecker TyD (acc TyD qplus) qtimes (MComp x_MNotLower) REPLACE x_C_9 (Trn
    x_Empty3x3) (Trn x_B) ;;
  x_q_4 <- meq x_C_10 x_MLower ;;
  _ <- check x_q_4 ;;
  x_C_11 <- lil_assign x_C_10 x_Ones ;;
  x_C_12 <- t_kronecker TyD (acc TyD qplus) qtimes (MComp x_MNotLower) REPLACE x_C_11 (Trn x_A) (Trn
    x_Empty4x3) ;;
  x_q_5 <- meq x_C_12 x_MLower ;;
  _ <- check x_q_5 ;;
  Ok tt) = Ok tt.
Proof. vm_compute. reflexivity. Qed.

(** test_kronecker_ATBT.cpp:1946-1969 *)
Example test_kronecker_CompMask_Accum_ATBTM_dense :
 (x_A <- mdense0 TyD d_Ones_3x3 0%Q ;;
  x_B <- mdense0 TyD d_Ones_4x3 0%Q ;;
  x_MLower <- mdense0 TyD d_Lower_9x12 0%Q ;;
  x_MNotLower <- mdense0 TyD d_NotLower_9x12 0%Q ;;
  x_Ones <- mdense0 TyD d_Ones_9x12 0%Q ;;
  x_C <- mnew 9 12 ;;
  x_answer <- mnew 9 12 ;;
  x_C_1 <- lil_assign x_C x_Ones ;;
  x_C_2 <- t_kronecker TyD (acc TyD qplus) qtimes (MComp x_MNotLower) MERGE x_C_1 (Trn x_A) (Trn
    x_B) ;;
  x_answer_1 <- t_eWiseAdd TyD noacc TyD TyD qplus NoMask MERGE x_answer (Mat x_Ones) (Mat x_MLower)
    ;;
  x_q <- meq x_C_2 x_answer_1 ;;
  _ <- check x_q ;;
  x_C_3 <- lil_assign x_C_2 x_Ones ;;
  x_C_4 <- t_kronecker TyD (acc TyD qplus) qtimes (MComp x_MNotLower) REPLACE x_C_3 (Trn x_A) (Trn
    x_B) ;;
  x_answer_2 <- t_eWiseAdd TyD noacc TyD TyD qplus NoMask MERGE x_answer_1 (Mat x_MLower) (Mat
    x_MLower) ;;
  x_q_1 <- meq x_C_4 x_answer_2 ;;
  _ <- check x_q_1 ;;
  Ok tt) = Ok tt.
Proof. vm_compute. reflexivity. Qed.

(** test_kronecker_ATBT.cpp:1972-1993 *)
Example test_kronecker_CompMask_Accum_ATBT_empty_rows :
 (x_Ones <- mdense0 TyD d_Ones_9x12 0%Q ;;
  x_A <- mdense0 TyD d_Ar_sparse_3x3 0%Q ;;
  x_B <- mdense0 TyD d_Br_sparse_4x3 0%Q ;;
  x_answer <- mdense0 TyD d_Answer_rr_sparse_9x12 0%Q ;;
  x_C <- mnew 9 12 ;;
  x_MLower <- mdense0 TyD d_Lower_9x12 0%Q ;;
  x_MNotLower <- mdense0 TyD d_NotLower_9x12 0%Q ;;
  x_C_1 <- lil_assign x_C x_Ones ;;
  x_answer_1 <- t_eWiseMult TyD noacc TyD TyD qtimes NoMask MERGE x_answer (Mat x_MLower) (Mat
    x_answer) ;;
  x_answer_2 <- t_eWiseAdd TyD noacc TyD TyD qplus NoMask MERGE x_answer_1 (Mat x_MLower) (Mat
    x_answer_1) ;;
  x_C_2 <- t_kronecker TyD (acc TyD qplus) qtimes (MComp x_MNotLower) REPLACE x_C_1 (Trn x_A) (Trn
    x_B) ;;
  x_q <- meq x_C_2 x_answer_2 ;;
  _ <- check x_q ;;
  x_C_3 <- lil_assign x_C_2 x_Ones ;;
  x_answer_3 <- t_eWiseAdd TyD noacc TyD TyD qplus NoMask MERGE x_answer_2 (Mat x_MNotLower) (Mat
    x_answer_2) ;;
  x_C_4 <- t_kronecker TyD (acc TyD qplus) qtimes (MComp x_MNotLower) MERGE x_C_3 (Trn x_A) (Trn
    x_B) ;;
  x_q_1 <- meq x_C_4 x_answer_3 ;;
  _ <- check x_q_1 ;;
  Ok tt) = Ok tt.
Proof. vm_compute. reflexivity. Qed.

(** test_kronecker_ATBT.cpp:1996-2019 *)
Example test_kronecker_CompMask_Accum_ATBT_emptyRowA_emptyColB :
 (x_C <- mnew 9 12 ;;
  x_Ones <- mdense0 TyD d_Ones_9x12 0%Q ;;
  x_A <- mdense0 TyD d_Ar_sparse_3x3 0%Q ;;
  x_B <- mdense0 TyD d_Bc_sparse_4x3 0%Q ;;
  x_answer <- mdense0 TyD d_Answer_rc_sparse_9x12 0%Q ;;
  x_MLower <- mdense0 TyD d_Lower_9x12 0%Q ;;
  x_MNotLower <- mdense0 TyD d_NotLower_9x12 0%Q ;;
  x_C_1 <- lil_assign x_C x_Ones ;;
  x_answer_1 <- t_eWiseMult TyD noacc TyD TyD qtimes NoMask MERGE x_answer (Mat x_MLower) (Mat
    x_answer) ;;
  x_answer_2 <- t_eWiseAdd TyD noacc TyD TyD qplus NoMask MERGE x_answer_1 (Mat x_MLower) (Mat
    x_answer_1) ;;
  x_C_2 <- t_kronecker TyD (acc TyD qplus) qtimes (MComp x_MNotLower) REPLACE x_C_1 (Trn x_A) (Trn
    x_B) ;;
  x_q <- meq x_C_2 x_answer_2 ;;
  _ <- check x_q ;;
  x_C_3 <- lil_assign x_C_2 x_Ones ;;
  x_answer_3 <- t_eWiseAdd TyD noacc TyD TyD qplus NoMask MERGE x_answer_2 (Mat x_MNotLower) (Mat
    x_answer_2) ;;
  x_C_4 <- t_kronecker TyD (acc TyD qplus) qtimes (MComp x_MNotLower) MERGE x_C_3 (Trn x_A) (Trn
    x_B) ;;
  x_q_1 <- meq x_C_4 x_answer_3 ;;
  _ <- check x_q_1 ;;
  Ok tt) = Ok tt.
Proof. vm_compute. reflexivity. Qed.

(** test_kronecker_ATBT.cpp:2022-2045 *)
Example test_kronecker_CompMask_Accum_ATBT_emptyColA_emptyRowB :
 (x_C <- mnew 9 12 ;;
  x_Ones <- mdense0 TyD d_Ones_9x12 0%Q ;;
  x_A <- mdense0 TyD d_Ac_sparse_3x3 0%Q ;;
  x_B <- mdense0 TyD d_Br_sparse_4x3 0%Q ;;
  x_answer <- mdense0 TyD d_Answer_cr_sparse_9x12 0%Q ;;
  x_MLower <- mdense0 TyD d_Lower_9x12 0%Q ;;
  x_MNotLower <- mdense0 TyD d_NotLower_9x12 0%Q ;;
  x_C_1 <- lil_assign x_C x_Ones ;;
  x_answer_1 <- t_eWiseMult TyD noacc TyD TyD qtimes NoMask MERGE x_answer (Mat x_MLower) (Mat
    x_answer) ;;
  x_answer_2 <- t_eWiseAdd TyD noacc TyD TyD qplus NoMask MERGE x_answer_1 (Mat x_MLower) (Mat
    x_answer_1) ;;
  x_C_2 <- t_kronecker TyD (acc TyD qplus) qtimes (MComp x_MNotLower) REPLACE x_C_1 (Trn x_A) (Trn
    x_B) ;;
  x_q <- meq x_C_2 x_answer_2 ;;
  _ <- check x_q ;;
  x_C_3 <- lil_assign x_C_2 x_Ones ;;
  x_answer_3 <- t_eWiseAdd TyD noacc TyD TyD qplus NoMask MERGE x_answer_2 (Mat x_MNotLower) (Mat
    x_answer_2) ;;
  x_C_4 <- t_kronecker TyD (acc TyD qplus) qtimes (MComp x_MNotLower) MERGE x_C_3 (Trn x_A) (Trn
    x_B) ;;
  x_q_1 <- meq x_C_4 x_answer_3 ;;
  _ <- check x_q_1 ;;
  Ok tt) = Ok tt.
Proof. vm_compute. reflexivity. Qed.

(** test_kronecker_ATBT.cpp:2048-2071 *)
Example test_kronecker_CompMask_Accum_ATBTM_emptyRowM :
 (x_C <- mnew 9 12 ;;
  x_Ones <- mdense0 TyD d_Ones_9x12 0%Q ;;
  x_A <- mdense0 TyD d_AT_sparse_3x3 0%Q ;;
  x_B <- mdense0 TyD d_B_sparse_4x3 0%Q ;;
  x_answer <- mdense0 TyD d_Answer_sparse_9x12 0%Q ;;
  x_MLower <- mdense0 TyD d_Lower_9x12 0%Q ;;
  x_MNotLower <- mdense0 TyD d_NotLower_9x12 0%Q ;;
  x_C_1 <- lil_assign x_C x_Ones ;;
  x_answer_1 <- t_eWiseMult TyD noacc TyD TyD qtimes NoMask MERGE x_answer (Mat x_MLower) (Mat
    x_answer) ;;
  x_answer_2 <- t_eWiseAdd TyD noacc TyD TyD qplus NoMask MERGE x_answer_1 (Mat x_MLower) (Mat
    x_answer_1) ;;
  x_C_2 <- t_kronecker TyD (acc TyD qplus) qtimes (MComp x_MNotLower) REPLACE x_C_1 (Trn x_A) (Trn
    x_B) ;;
  x_q <- meq x_C_2 x_answer_2 ;;
  _ <- check x_q ;;
  x_C_3 <- lil_assign x_C_2 x_Ones ;;
  x_answer_3 <- t_eWiseAdd TyD noacc TyD TyD qplus NoMask MERGE x_answer_2 (Mat x_MNotLower) (Mat
    x_answer_2) ;;
  x_C_4 <- t_kronecker TyD (acc TyD qplus) qtimes (MComp x_MNotLower) MERGE x_C_3 (Trn x_A) (Trn
    x_B) ;;
  x_q_1 <- meq x_C_4 x_answer_3 ;;
  _ <- check x_q_1 ;;
  Ok tt) = Ok tt.
Proof. vm_compute. reflexivity. Qed.

(** test_kronecker_ATBT.cpp:2074-2097 *)
Example test_kronecker_CompMask_Accum_ATBT_ABdup :
 (x_C <- mnew 9 9 ;;
  x_Ones <- mdense0 TyD d_Ones_9x9 0%Q ;;
  x_A <- mdense0 TyD d_A_sparse_3x3 0%Q ;;
  x_answer <- mdense0 TyD d_ATAT_sparse_9x9 0%Q ;;
  x_MLower <- mdense0 TyD d_Lower_9x9 0%Q ;;
  x_MNotLower <- mdense0 TyD d_NotLower_9x9 0%Q ;;
  x_C_1 <- lil_assign x_C x_Ones ;;
  x_answer_1 <- t_eWiseMult TyD noacc TyD TyD qtimes NoMask MERGE x_answer (Mat x_MLower) (Mat
    x_answer) ;;
  x_answer_2 <- t_eWiseAdd TyD noacc TyD TyD qplus NoMask MERGE x_answer_1 (Mat x_MLower) (Mat
    x_answer_1) ;;
  x_C_2 <- t_kronecker TyD (acc TyD qplus) qtimes (MComp x_MNotLower) REPLACE x_C_1 (Trn x_A) (Trn
    x_A) ;;
  x_q <- meq x_C_2 x_answer_2 ;;
  _ <- check x_q ;;
  x_C_3 <- lil_assign x_C_2 x_Ones ;;
  x_answer_3 <- t_eWiseAdd TyD noacc TyD TyD qplus NoMask MERGE x_answer_2 (Mat x_MNotLower) (Mat
    x_answer_2) ;;
  x_C_4 <- t_kronecker TyD (acc TyD qplus) qtimes (MComp x_MNotLower) MERGE x_C_3 (Trn x_A) (Trn
    x_A) ;;
  x_q_1 <- meq x_C_4 x_answer_3 ;;
  _ <- check x_q_1 ;;
  Ok tt) = Ok tt.
Proof. vm_compute. reflexivity. Qed.

(** test_kronecker_ATBT.cpp:2100-2126 *)
Example test_kronecker_CompMask_Accum_ATBT_ACdup :
 (x_Ones <- mdense0 TyD d_Ones_3x4 0%Q ;;
  x_mat <- mdense0 TyD d_B_sparse_3x4 0%Q ;;
  x_C <- mnew 3 4 ;;
  x_B <- mnew 1 1 ;;
  x_B_1 <- lil_setElement x_B 0 0 (cast TyD 1%Q) ;;
  x_MLower <- mdense0 TyD d_Lower_3x4 0%Q ;;
  x_MNotLower <- mdense0 TyD d_NotLower_3x4 0%Q ;;
  x_C_1 <- lil_assign x_C x_mat ;;
  x_answer <- t_eWiseMult TyD noacc TyD TyD qtimes NoMask MERGE x_mat (Mat x_MLower) (Mat x_mat) ;;
  x_answer_1 <- t_eWiseAdd TyD noacc TyD TyD qplus NoMask MERGE x_answer (Mat x_answer) (Mat
    x_answer) ;;
  x_C_2 <- t_kronecker TyD (acc TyD qplus) qtimes (MComp x_MNotLower) REPLACE x_C_1 (Mat x_C_1) (Trn
    x_B_1) ;;
  x_q <- meq x_C_2 x_answer_1 ;;
  _ <- check x_q ;;
  x_C_3 <- lil_assign x_C_2 x_mat ;;
  x_answer_2 <- t_eWiseMult TyD noacc TyD TyD qtimes NoMask MERGE x_answer_1 (Mat x_MLower) (Mat
    x_mat) ;;
  x_answer_3 <- t_eWiseAdd TyD noacc TyD TyD qplus NoMask MERGE x_answer_2 (Mat x_mat) (Mat
    x_answer_2) ;;
  x_C_4 <- t_kronecker TyD (acc TyD qplus) qtimes (MComp x_MNotLower) MERGE x_C_3 (Mat x_C_3) (Trn
    x_B_1) ;;
  x_q_1 <- meq x_C_4 x_answer_3 ;;
  _ <- check x_q_1 ;;
  Ok tt) = Ok tt.
Proof. vm_compute. reflexivity. Qed.

(** test_kronecker_ATBT.cpp:2129-2153 *)
Example test_kronecker_CompMask_Accum_ATBT_BCdup :
 (x_mat <- mdense0 TyD d_A_sparse_3x3 0%Q ;;
  x_C <- mnew 3 3 ;;
  x_A <- mnew 1 1 ;;
  x_A_1 <- lil_setElement x_A 0 0 (cast TyD 1%Q) ;;
  x_MLower <- mdense0 TyD d_Lower_3x3 0%Q ;;
  x_MNotLower <- mdense0 TyD d_NotLower_3x3 0%Q ;;
  x_C_1 <- lil_assign x_C x_mat ;;
  x_answer <- t_eWiseMult TyD noacc TyD TyD qtimes NoMask MERGE x_mat (Mat x_MLower) (Trn x_mat) ;;
  x_answer_1 <- t_eWiseAdd TyD noacc TyD TyD qplus NoMask MERGE x_answer (Mat x_answer) (Mat x_mat)
    ;;
  x_C_2 <- t_kronecker TyD (acc TyD qplus) qtimes (MComp x_MNotLower) REPLACE x_C_1 (Trn x_A_1) (Trn
    x_C_1) ;;
  x_q <- meq x_C_2 x_answer_1 ;;
  _ <- check x_q ;;
  x_C_3 <- lil_assign x_C_2 x_mat ;;
  x_C_4 <- t_kronecker TyD (acc TyD qplus) qtimes (MComp x_MNotLower) MERGE x_C_3 (Trn x_A_1) (Trn
    x_C_3) ;;
  x_q_1 <- meq x_C_4 x_answer_1 ;;
  _ <- check x_q_1 ;;
  Ok tt) = Ok tt.
Proof. vm_compute. reflexivity. Qed.

(** test_kronecker_ATBT.cpp:2156-2181 *)
Example test_kronecker_CompMask_Accum_ATBT_MCdup :
 (x_C <- mnew 9 12 ;;
  x_Ones <- mdense0 TyD d_Ones_9x12 0%Q ;;
  x_A <- mdense0 TyD d_AT_sparse_3x3 0%Q ;;
  x_B <- mdense0 TyD d_B_sparse_4x3 0%Q ;;
  x_answer <- mdense0 TyD d_Answer_sparse_9x12 0%Q ;;
  x_MLower <- mdense0 TyD d_Lower_9x12 0%Q ;;
  x_MNotLower <- mdense0 TyD d_NotLower_9x12 0%Q ;;
  x_C_1 <- lil_assign x_C x_MLower ;;
  x_answer_1 <- t_eWiseMult TyD noacc TyD TyD qtimes NoMask MERGE x_answer (Mat x_MNotLower) (Mat
    x_answer) ;;
  x_C_2 <- t_kronecker TyD (acc TyD qplus) qtimes (MComp x_C_1) REPLACE x_C_1 (Trn x_A) (Trn x_B) ;;
  x_q <- meq x_C_2 x_answer_1 ;;
  _ <- check x_q ;;
  x_C_3 <- lil_assign x_C_2 x_MLower ;;
  x_answer_2 <- t_eWiseAdd TyD noacc TyD TyD qplus NoMask MERGE x_answer_1 (Mat x_MLower) (Mat
    x_answer_1) ;;
  x_C_4 <- t_kronecker TyD (acc TyD qplus) qtimes (MComp x_C_3) MERGE x_C_3 (Trn x_A) (Trn x_B) ;;
  x_q_1 <- meq x_C_4 x_answer_2 ;;
  _ <- check x_q_1 ;;
  Ok tt) = Ok tt.
Proof. vm_compute. reflexivity. Qed.
