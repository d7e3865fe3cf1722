(** The tests of /repo/src/test/test_ewiseadd_matrix.cpp, run on the model.  Generated translation. *)
From Verif Require Import TestRun.

Definition d_m3x3_dense : list (list Q) :=
  [[12; 0; 7];
   [1; 0; 0];
   [3; 6; 9]]%Q.
Definition d_eye3x3_dense : list (list Q) :=
  [[1; 0; 0];
   [0; 1; 0];
   [0; 0; 1]]%Q.
Definition d_twos3x3_dense : list (list Q) :=
  [[2; 2; 2];
   [2; 2; 2];
   [2; 2; 2]]%Q.
Definition d_zero3x3_dense : list (list Q) :=
  [[0; 0; 0];
   [0; 0; 0];
   [0; 0; 0]]%Q.
Definition d_ans_twos3x3_dense : list (list Q) :=
  [[14; 2; 9];
   [3; 2; 2];
   [5; 8; 11]]%Q.
Definition d_ans_eye3x3_dense : list (list Q) :=
  [[13; 0; 7];
   [1; 1; 0];
   [3; 6; 10]]%Q.
Definition d_m3x4_dense : list (list Q) :=
  [[5; 0; 1; 2];
   [6; 7; 0; 0];
   [4; 5; 0; 1]]%Q.
Definition d_m4x3_dense : list (list Q) :=
  [[5; 6; 4];
   [0; 7; 5];
   [1; 0; 0];
   [2; 0; 1]]%Q.
Definition d_twos4x3_dense : list (list Q) :=
  [[2; 2; 2];
   [2; 2; 2];
   [2; 2; 2];
   [2; 2; 2]]%Q.
Definition d_twos3x4_dense : list (list Q) :=
  [[2; 2; 2; 2];
   [2; 2; 2; 2];
   [2; 2; 2; 2]]%Q.
Definition d_ans_twos4x3_dense : list (list Q) :=
  [[7; 8; 6];
   [2; 9; 7];
   [3; 2; 2];
   [4; 2; 3]]%Q.
Definition d_ans_twos3x4_dense : list (list Q) :=
  [[7; 2; 3; 4];
   [8; 9; 2; 2];
   [6; 7; 2; 3]]%Q.

(** test_ewiseadd_matrix.cpp:106-128 *)
Example test_ewiseadd_matrix_bad_dimensions :
 (x_mA <- mdense0 TyD d_m3x3_dense 0%Q ;;
  x_mB <- mdense0 TyD d_m4x3_dense 0%Q ;;
  x_Result <- mnew 3 3 ;;
  _ <- throws DimensionException (t_eWiseAdd TyD noacc TyD TyD qplus NoMask MERGE x_Result (Mat
    x_mA) (Mat x_mB)) ;;
  _ <- throws DimensionException (t_eWiseAdd TyD noacc TyD TyD qplus NoMask MERGE x_Result (Mat
    x_mB) (Mat x_mB)) ;;
  Ok tt) = Ok tt.
Proof. vm_compute. reflexivity. Qed.

(** test_ewiseadd_matrix.cpp:131-151 *)
Example test_ewiseadd_matrix_bad_dimensions2 :
 (x_m1 <- mnew 4 4 ;;
  x_m1_1 <- mbuild TyD qsecond x_m1 [0; 0; 1; 1; 2; 2; 3] [0; 1; 1; 2; 2; 3; 3] [1; 2; 2; 3; 3; 4;
    4]%Q ;;
  x_m2 <- mnew 3 4 ;;
  x_m2_1 <- mbuild TyD qsecond x_m2 [0; 0; 1; 1; 1; 2; 2] [0; 1; 0; 1; 2; 1; 2] [2; 2; 1; 4; 4; 4;
    6]%Q ;;
  x_m3 <- mnew 4 4 ;;
  _ <- throws DimensionException (t_eWiseAdd TyD noacc TyD TyD qplus NoMask MERGE x_m3 (Mat x_m1_1)
    (Mat x_m2_1)) ;;
  Ok tt) = Ok tt.
Proof. vm_compute. reflexivity. Qed.

(** test_ewiseadd_matrix.cpp:154-175 *)
Example test_eWiseadd_matrix_normal :
 (x_mat <- mnew 4 4 ;;
  x_mat_1 <- mbuild TyD qsecond x_mat [0; 0; 1; 1; 1; 2; 2; 2; 3; 3] [0; 1; 0; 1; 2; 1; 2; 3; 2; 3]
    [1; 1; 1; 2; 2; 2; 3; 3; 3; 4]%Q ;;
  x_m3 <- mnew 4 4 ;;
  x_answer <- mnew 4 4 ;;
  x_answer_1 <- mbuild TyD qsecond x_answer [0; 0; 1; 1; 1; 2; 2; 2; 3; 3] [0; 1; 0; 1; 2; 1; 2; 3;
    2; 3] [2; 2; 2; 4; 4; 4; 6; 6; 6; 8]%Q ;;
  x_m3_1 <- t_eWiseAdd TyD noacc TyD TyD qplus NoMask MERGE x_m3 (Mat x_mat_1) (Mat x_mat_1) ;;
  x_q <- meq x_m3_1 x_answer_1 ;;
  _ <- check x_q ;;
  Ok tt) = Ok tt.
Proof. vm_compute. reflexivity. Qed.

(** test_ewiseadd_matrix.cpp:178-200 *)
Example test_eWiseadd_matrix_semiring :
 (x_mat <- mnew 4 4 ;;
  x_mat_1 <- mbuild TyD qsecond x_mat [0; 0; 1; 1; 1; 2; 2; 2; 3; 3] [0; 1; 0; 1; 2; 1; 2; 3; 2; 3]
    [1; 1; 1; 2; 2; 2; 3; 3; 3; 4]%Q ;;
  x_m3 <- mnew 4 4 ;;
  x_answer <- mnew 4 4 ;;
  x_answer_1 <- mbuild TyD qsecond x_answer [0; 0; 1; 1; 1; 2; 2; 2; 3; 3] [0; 1; 0; 1; 2; 1; 2; 3;
    2; 3] [2; 2; 2; 4; 4; 4; 6; 6; 6; 8]%Q ;;
  x_m3_1 <- t_eWiseAdd TyD noacc TyD TyD qplus NoMask MERGE x_m3 (Mat x_mat_1) (Mat x_mat_1) ;;
  x_q <- meq x_m3_1 x_answer_1 ;;
  _ <- check x_q ;;
  Ok tt) = Ok tt.
Proof. vm_compute. reflexivity. Qed.

(** test_ewiseadd_matrix.cpp:203-239 *)
Example test_ewiseadd_matrix_reg :
 (x_A <- mdense0 TyD d_m3x3_dense 0%Q ;;
  x_B <- mdense0 TyD d_twos3x3_dense 0%Q ;;
  x_Ans <- mdense0 TyD d_ans_twos3x3_dense 0%Q ;;
  x_Result <- mnew 3 3 ;;
  x_Result_1 <- t_eWiseAdd TyD noacc TyD TyD qplus NoMask MERGE x_Result (Mat x_A) (Mat x_B) ;;
  x_q <- meq x_Result_1 x_Ans ;;
  _ <- check x_q ;;
  x_B2 <- mdense0 TyD d_eye3x3_dense 0%Q ;;
  x_Ans2 <- mdense0 TyD d_ans_eye3x3_dense 0%Q ;;
  x_Result_2 <- t_eWiseAdd TyD noacc TyD TyD qplus NoMask MERGE x_Result_1 (Mat x_A) (Mat x_B2) ;;
  x_q_1 <- meq x_Result_2 x_Ans2 ;;
  _ <- check x_q_1 ;;
  x_B3 <- mdense0 TyD d_zero3x3_dense 0%Q ;;
  x_Ans3 <- mdense0 TyD d_m3x3_dense 0%Q ;;
  x_Result_3 <- t_eWiseAdd TyD noacc TyD TyD qplus NoMask MERGE x_Result_2 (Mat x_A) (Mat x_B3) ;;
  x_q_2 <- meq x_Result_3 x_Ans3 ;;
  _ <- check x_q_2 ;;
  Ok tt) = Ok tt.
Proof. vm_compute. reflexivity. Qed.

(** test_ewiseadd_matrix.cpp:242-281 *)
Example test_ewiseadd_semiring_matrix_reg :
 (x_A <- mdense0 TyD d_m3x3_dense 0%Q ;;
  x_B <- mdense0 TyD d_twos3x3_dense 0%Q ;;
  x_Ans <- mdense0 TyD d_ans_twos3x3_dense 0%Q ;;
  x_Result <- mnew 3 3 ;;
  x_Result_1 <- t_eWiseAdd TyD noacc TyD TyD qplus NoMask MERGE x_Result (Mat x_A) (Mat x_B) ;;
  x_q <- meq x_Result_1 x_Ans ;;
  _ <- check x_q ;;
  x_B2 <- mdense0 TyD d_eye3x3_dense 0%Q ;;
  x_Ans2 <- mdense0 TyD d_ans_eye3x3_dense 0%Q ;;
  x_Result_2 <- t_eWiseAdd TyD noacc TyD TyD qplus NoMask MERGE x_Result_1 (Mat x_A) (Mat x_B2) ;;
  x_q_1 <- meq x_Result_2 x_Ans2 ;;
  _ <- check x_q_1 ;;
  x_B3 <- mdense0 TyD d_zero3x3_dense 0%Q ;;
  x_Ans3 <- mdense0 TyD d_m3x3_dense 0%Q ;;
  x_Result_3 <- t_eWiseAdd TyD noacc TyD TyD qplus NoMask MERGE x_Result_2 (Mat x_A) (Mat x_B3) ;;
  x_q_2 <- meq x_Result_3 x_Ans3 ;;
  _ <- check x_q_2 ;;
  Ok tt) = Ok tt.
Proof. vm_compute. reflexivity. Qed.

(** test_ewiseadd_matrix.cpp:284-306 *)
Example test_ewiseadd_matrix_stored_zero_result :
 (x_A <- mdense0 TyD d_m3x3_dense 0%Q ;;
  x_A_1 <- lil_setElement x_A 1 2 (cast TyD 0%Q) ;;
  _ <- check (Qeq_bool (inject_Z (nvals x_A_1)) 7%Q) ;;
  x_B2 <- mdense0 TyD d_eye3x3_dense 0%Q ;;
  x_Ans2 <- mdense0 TyD d_ans_eye3x3_dense 0%Q ;;
  x_Ans2_1 <- lil_setElement x_Ans2 1 2 (cast TyD 0%Q) ;;
  x_Result <- mnew 3 3 ;;
  x_Result_1 <- t_eWiseAdd TyD noacc TyD TyD qplus NoMask MERGE x_Result (Mat x_A_1) (Mat x_B2) ;;
  _ <- check (Qeq_bool (inject_Z (nvals x_Result_1)) 8%Q) ;;
  x_q <- meq x_Result_1 x_Ans2_1 ;;
  _ <- check x_q ;;
  Ok tt) = Ok tt.
Proof. vm_compute. reflexivity. Qed.

(** test_ewiseadd_matrix.cpp:309-340 *)
Example test_a_transpose :
 (x_A <- mdense0 TyD d_m3x4_dense 0%Q ;;
  x_B <- mdense0 TyD d_twos4x3_dense 0%Q ;;
  x_Ans <- mdense0 TyD d_ans_twos4x3_dense 0%Q ;;
  x_Result <- mnew 4 3 ;;
  x_Result_1 <- t_eWiseAdd TyD noacc TyD TyD qplus NoMask MERGE x_Result (Trn x_A) (Mat x_B) ;;
  x_q <- meq x_Result_1 x_Ans ;;
  _ <- check x_q ;;
  x_B2 <- mdense0 TyD d_m3x4_dense 0%Q ;;
  _ <- throws DimensionException (t_eWiseAdd TyD noacc TyD TyD qplus NoMask MERGE x_Result_1 (Trn
    x_A) (Mat x_A)) ;;
  x_Result2 <- mnew 3 3 ;;
  _ <- throws DimensionException (t_eWiseAdd TyD noacc TyD TyD qplus NoMask MERGE x_Result2 (Trn
    x_A) (Mat x_B)) ;;
  Ok tt) = Ok tt.
Proof. vm_compute. reflexivity. Qed.

(** test_ewiseadd_matrix.cpp:343-375 *)
Example test_b_transpose :
 (x_A <- mdense0 TyD d_m3x4_dense 0%Q ;;
  x_B <- mdense0 TyD d_twos4x3_dense 0%Q ;;
  x_Ans <- mdense0 TyD d_ans_twos3x4_dense 0%Q ;;
  x_Result <- mnew 3 4 ;;
  x_Result_1 <- t_eWiseAdd TyD noacc TyD TyD qplus NoMask MERGE x_Result (Mat x_A) (Trn x_B) ;;
  x_q <- meq x_Result_1 x_Ans ;;
  _ <- check x_q ;;
  x_B2 <- mdense0 TyD d_m3x4_dense 0%Q ;;
  _ <- throws DimensionException (t_eWiseAdd TyD noacc TyD TyD qplus NoMask MERGE x_Result_1 (Mat
    x_B) (Trn x_B)) ;;
  x_Result2 <- mnew 3 3 ;;
  _ <- throws DimensionException (t_eWiseAdd TyD noacc TyD TyD qplus NoMask MERGE x_Result2 (Mat
    x_A) (Trn x_B)) ;;
  Ok tt) = Ok tt.
Proof. vm_compute. reflexivity. Qed.

(** test_ewiseadd_matrix.cpp:378-410 *)
Example test_a_and_b_transpose :
 (x_A <- mdense0 TyD d_m4x3_dense 0%Q ;;
  x_B <- mdense0 TyD d_twos4x3_dense 0%Q ;;
  x_Ans <- mdense0 TyD d_ans_twos3x4_dense 0%Q ;;
  x_Result <- mnew 3 4 ;;
  x_Result_1 <- t_eWiseAdd TyD noacc TyD TyD qplus NoMask MERGE x_Result (Trn x_A) (Trn x_B) ;;
  x_q <- meq x_Result_1 x_Ans ;;
  _ <- check x_q ;;
  x_B2 <- mdense0 TyD d_m3x4_dense 0%Q ;;
  _ <- throws DimensionException (t_eWiseAdd TyD noacc TyD TyD qplus NoMask MERGE x_Result_1 (Trn
    x_Ans) (Trn x_B)) ;;
  x_Result2 <- mnew 3 3 ;;
  _ <- throws DimensionException (t_eWiseAdd TyD noacc TyD TyD qplus NoMask MERGE x_Result2 (Trn
    x_A) (Trn x_B)) ;;
  Ok tt) = Ok tt.
Proof. vm_compute. reflexivity. Qed.

(** test_ewiseadd_matrix.cpp:417-432 *)
Example test_ewiseadd_matrix_masked_replace_bad_dimensions :
 (x_mA <- mdense0 TyD d_twos4x3_dense 0%Q ;;
  x_mB <- mdense0 TyD d_m4x3_dense 0%Q ;;
  x_Mask <- mdense0 TyD d_twos3x3_dense 0%Q ;;
  x_Result <- mnew 4 3 ;;
  _ <- throws DimensionException (t_eWiseAdd TyD noacc TyD TyD qplus (MVal x_Mask) REPLACE x_Result
    (Mat x_mA) (Mat x_mB)) ;;
  Ok tt) = Ok tt.
Proof. vm_compute. reflexivity. Qed.

(** test_ewiseadd_matrix.cpp:435-483 *)
Example test_ewiseadd_matrix_masked_replace_reg :
 (x_mA <- mdense0 TyD d_twos4x3_dense 0%Q ;;
  x_mB <- mdense0 TyD d_m4x3_dense 0%Q ;;
  x_Mask <- mdense0 TyD [[1; 1; 1]; [0; 1; 1]; [0; 0; 1]; [0; 0; 0]]%Q 0%Q ;;
  x_Result <- mdense0 TyD d_twos4x3_dense 0%Q ;;
  x_Ans <- mdense0 TyD [[7; 8; 6]; [0; 9; 7]; [0; 0; 2]; [0; 0; 0]]%Q 0%Q ;;
  x_Result_1 <- t_eWiseAdd TyD noacc TyD TyD qplus (MVal x_Mask) REPLACE x_Result (Mat x_mA) (Mat
    x_mB) ;;
  _ <- check (Qeq_bool (inject_Z (nvals x_Result_1)) 6%Q) ;;
  x_q <- meq x_Result_1 x_Ans ;;
  _ <- check x_q ;;
  x_Result_2 <- mdense0 TyD d_twos4x3_dense 0%Q ;;
  x_Ans_1 <- mdense0 TyD [[7; 8; 6]; [0; 9; 7]; [0; 0; 2]; [0; 0; 0]]%Q 0%Q ;;
  x_Result_3 <- t_eWiseAdd TyD (acc TyD qsecond) TyD TyD qplus (MVal x_Mask) REPLACE x_Result_2 (Mat
    x_mA) (Mat x_mB) ;;
  _ <- check (Qeq_bool (inject_Z (nvals x_Result_3)) 6%Q) ;;
  x_q_1 <- meq x_Result_3 x_Ans_1 ;;
  _ <- check x_q_1 ;;
  Ok tt) = Ok tt.
Proof. vm_compute. reflexivity. Qed.

(** test_ewiseadd_matrix.cpp:486-537 *)
Example test_ewiseadd_matrix_masked_replace_reg_stored_zero :
 (x_mA <- mdense0 TyD d_twos4x3_dense 0%Q ;;
  x_mB <- mdense0 TyD d_m4x3_dense 0%Q ;;
  x_Mask <- mdense TyD [[1; 1; 1]; [0; 1; 1]; [0; 0; 1]; [0; 0; 0]]%Q ;;
  _ <- check (Qeq_bool (inject_Z (nvals x_Mask)) 12%Q) ;;
  x_Result <- mdense0 TyD d_twos4x3_dense 0%Q ;;
  x_Ans <- mdense0 TyD [[7; 8; 6]; [0; 9; 7]; [0; 0; 2]; [0; 0; 0]]%Q 0%Q ;;
  x_Result_1 <- t_eWiseAdd TyD noacc TyD TyD qplus (MVal x_Mask) REPLACE x_Result (Mat x_mA) (Mat
    x_mB) ;;
  _ <- check (Qeq_bool (inject_Z (nvals x_Result_1)) 6%Q) ;;
  x_q <- meq x_Result_1 x_Ans ;;
  _ <- check x_q ;;
  x_Result_2 <- mdense0 TyD d_twos4x3_dense 0%Q ;;
  x_Ans_1 <- mdense0 TyD [[7; 8; 6]; [0; 9; 7]; [0; 0; 2]; [0; 0; 0]]%Q 0%Q ;;
  x_Result_3 <- t_eWiseAdd TyD (acc TyD qsecond) TyD TyD qplus (MVal x_Mask) REPLACE x_Result_2 (Mat
    x_mA) (Mat x_mB) ;;
  _ <- check (Qeq_bool (inject_Z (nvals x_Result_3)) 6%Q) ;;
  x_q_1 <- meq x_Result_3 x_Ans_1 ;;
  _ <- check x_q_1 ;;
  Ok tt) = Ok tt.
Proof. vm_compute. reflexivity. Qed.

(** test_ewiseadd_matrix.cpp:540-567 *)
Example test_ewiseadd_matrix_masked_replace_a_transpose :
 (x_mA <- mdense0 TyD d_twos3x4_dense 0%Q ;;
  x_mB <- mdense0 TyD d_m4x3_dense 0%Q ;;
  x_Mask <- mdense0 TyD [[1; 1; 1]; [0; 1; 1]; [0; 0; 1]; [0; 0; 0]]%Q 0%Q ;;
  x_Result <- mdense0 TyD d_twos4x3_dense 0%Q ;;
  x_Ans <- mdense0 TyD [[7; 8; 6]; [0; 9; 7]; [0; 0; 2]; [0; 0; 0]]%Q 0%Q ;;
  x_Result_1 <- t_eWiseAdd TyD noacc TyD TyD qplus (MVal x_Mask) REPLACE x_Result (Trn x_mA) (Mat
    x_mB) ;;
  _ <- check (Qeq_bool (inject_Z (nvals x_Result_1)) 6%Q) ;;
  x_q <- meq x_Result_1 x_Ans ;;
  _ <- check x_q ;;
  Ok tt) = Ok tt.
Proof. vm_compute. reflexivity. Qed.

(** test_ewiseadd_matrix.cpp:570-597 *)
Example test_ewiseadd_matrix_masked_replace_b_transpose :
 (x_mA <- mdense0 TyD d_twos4x3_dense 0%Q ;;
  x_mB <- mdense0 TyD d_m3x4_dense 0%Q ;;
  x_Mask <- mdense0 TyD [[1; 1; 1]; [0; 1; 1]; [0; 0; 1]; [0; 0; 0]]%Q 0%Q ;;
  x_Result <- mdense0 TyD d_twos4x3_dense 0%Q ;;
  x_Ans <- mdense0 TyD [[7; 8; 6]; [0; 9; 7]; [0; 0; 2]; [0; 0; 0]]%Q 0%Q ;;
  x_Result_1 <- t_eWiseAdd TyD noacc TyD TyD qplus (MVal x_Mask) REPLACE x_Result (Mat x_mA) (Trn
    x_mB) ;;
  _ <- check (Qeq_bool (inject_Z (nvals x_Result_1)) 6%Q) ;;
  x_q <- meq x_Result_1 x_Ans ;;
  _ <- check x_q ;;
  Ok tt) = Ok tt.
Proof. vm_compute. reflexivity. Qed.

(** test_ewiseadd_matrix.cpp:600-627 *)
Example test_ewiseadd_matrix_masked_replace_a_and_b_transpose :
 (x_mA <- mdense0 TyD d_twos3x4_dense 0%Q ;;
  x_mB <- mdense0 TyD d_m3x4_dense 0%Q ;;
  x_Mask <- mdense0 TyD [[1; 1; 1]; [0; 1; 1]; [0; 0; 1]; [0; 0; 0]]%Q 0%Q ;;
  x_Result <- mdense0 TyD d_twos4x3_dense 0%Q ;;
  x_Ans <- mdense0 TyD [[7; 8; 6]; [0; 9; 7]; [0; 0; 2]; [0; 0; 0]]%Q 0%Q ;;
  x_Result_1 <- t_eWiseAdd TyD noacc TyD TyD qplus (MVal x_Mask) REPLACE x_Result (Trn x_mA) (Trn
    x_mB) ;;
  _ <- check (Qeq_bool (inject_Z (nvals x_Result_1)) 6%Q) ;;
  x_q <- meq x_Result_1 x_Ans ;;
  _ <- check x_q ;;
  Ok tt) = Ok tt.
Proof. vm_compute. reflexivity. Qed.

(** test_ewiseadd_matrix.cpp:634-648 *)
Example test_ewiseadd_matrix_masked_bad_dimensions :
 (x_mA <- mdense0 TyD d_twos4x3_dense 0%Q ;;
  x_mB <- mdense0 TyD d_m4x3_dense 0%Q ;;
  x_Mask <- mdense0 TyD d_twos3x3_dense 0%Q ;;
  x_Result <- mnew 4 3 ;;
  _ <- throws DimensionException (t_eWiseAdd TyD noacc TyD TyD qplus (MVal x_Mask) MERGE x_Result
    (Mat x_mA) (Mat x_mB)) ;;
  Ok tt) = Ok tt.
Proof. vm_compute. reflexivity. Qed.

(** test_ewiseadd_matrix.cpp:651-698 *)
Example test_ewiseadd_matrix_masked_reg :
 (x_mA <- mdense0 TyD d_twos4x3_dense 0%Q ;;
  x_mB <- mdense0 TyD d_m4x3_dense 0%Q ;;
  x_Mask <- mdense0 TyD [[1; 1; 1]; [0; 1; 1]; [0; 0; 1]; [0; 0; 0]]%Q 0%Q ;;
  x_Result <- mdense0 TyD d_twos4x3_dense 0%Q ;;
  x_Ans <- mdense0 TyD [[7; 8; 6]; [2; 9; 7]; [2; 2; 2]; [2; 2; 2]]%Q 0%Q ;;
  x_Result_1 <- t_eWiseAdd TyD noacc TyD TyD qplus (MVal x_Mask) MERGE x_Result (Mat x_mA) (Mat
    x_mB) ;;
  _ <- check (Qeq_bool (inject_Z (nvals x_Result_1)) 12%Q) ;;
  x_q <- meq x_Result_1 x_Ans ;;
  _ <- check x_q ;;
  x_Result_2 <- mdense0 TyD d_twos4x3_dense 0%Q ;;
  x_Ans_1 <- mdense0 TyD [[7; 8; 6]; [2; 9; 7]; [2; 2; 2]; [2; 2; 2]]%Q 0%Q ;;
  x_Result_3 <- t_eWiseAdd TyD (acc TyD qsecond) TyD TyD qplus (MVal x_Mask) MERGE x_Result_2 (Mat
    x_mA) (Mat x_mB) ;;
  _ <- check (Qeq_bool (inject_Z (nvals x_Result_3)) 12%Q) ;;
  x_q_1 <- meq x_Result_3 x_Ans_1 ;;
  _ <- check x_q_1 ;;
  Ok tt) = Ok tt.
Proof. vm_compute. reflexivity. Qed.

(** test_ewiseadd_matrix.cpp:701-747 *)
Example test_ewiseadd_matrix_masked_reg_stored_zero :
 (x_mA <- mdense0 TyD d_twos4x3_dense 0%Q ;;
  x_mB <- mdense0 TyD d_m4x3_dense 0%Q ;;
  x_Mask <- mdense TyD [[1; 1; 1]; [0; 1; 1]; [0; 0; 1]; [0; 0; 0]]%Q ;;
  x_Result <- mdense0 TyD d_twos4x3_dense 0%Q ;;
  x_Ans <- mdense0 TyD [[7; 8; 6]; [2; 9; 7]; [2; 2; 2]; [2; 2; 2]]%Q 0%Q ;;
  x_Result_1 <- t_eWiseAdd TyD noacc TyD TyD qplus (MVal x_Mask) MERGE x_Result (Mat x_mA) (Mat
    x_mB) ;;
  _ <- check (Qeq_bool (inject_Z (nvals x_Result_1)) 12%Q) ;;
  x_q <- meq x_Result_1 x_Ans ;;
  _ <- check x_q ;;
  x_Result_2 <- mdense0 TyD d_twos4x3_dense 0%Q ;;
  x_Ans_1 <- mdense0 TyD [[7; 8; 6]; [2; 9; 7]; [2; 2; 2]; [2; 2; 2]]%Q 0%Q ;;
  x_Result_3 <- t_eWiseAdd TyD (acc TyD qsecond) TyD TyD qplus (MVal x_Mask) MERGE x_Result_2 (Mat
    x_mA) (Mat x_mB) ;;
  _ <- check (Qeq_bool (inject_Z (nvals x_Result_3)) 12%Q) ;;
  x_q_1 <- meq x_Result_3 x_Ans_1 ;;
  _ <- check x_q_1 ;;
  Ok tt) = Ok tt.
Proof. vm_compute. reflexivity. Qed.

(** test_ewiseadd_matrix.cpp:750-776 *)
Example test_ewiseadd_matrix_masked_a_transpose :
 (x_mA <- mdense0 TyD d_twos3x4_dense 0%Q ;;
  x_mB <- mdense0 TyD d_m4x3_dense 0%Q ;;
  x_Mask <- mdense0 TyD [[1; 1; 1]; [0; 1; 1]; [0; 0; 1]; [0; 0; 0]]%Q 0%Q ;;
  x_Result <- mdense0 TyD d_twos4x3_dense 0%Q ;;
  x_Ans <- mdense0 TyD [[7; 8; 6]; [2; 9; 7]; [2; 2; 2]; [2; 2; 2]]%Q 0%Q ;;
  x_Result_1 <- t_eWiseAdd TyD noacc TyD TyD qplus (MVal x_Mask) MERGE x_Result (Trn x_mA) (Mat
    x_mB) ;;
  _ <- check (Qeq_bool (inject_Z (nvals x_Result_1)) 12%Q) ;;
  x_q <- meq x_Result_1 x_Ans ;;
  _ <- check x_q ;;
  Ok tt) = Ok tt.
Proof. vm_compute. reflexivity. Qed.

(** test_ewiseadd_matrix.cpp:779-805 *)
Example test_ewiseadd_matrix_masked_b_transpose :
 (x_mA <- mdense0 TyD d_twos4x3_dense 0%Q ;;
  x_mB <- mdense0 TyD d_m3x4_dense 0%Q ;;
  x_Mask <- mdense0 TyD [[1; 1; 1]; [0; 1; 1]; [0; 0; 1]; [0; 0; 0]]%Q 0%Q ;;
  x_Result <- mdense0 TyD d_twos4x3_dense 0%Q ;;
  x_Ans <- mdense0 TyD [[7; 8; 6]; [2; 9; 7]; [2; 2; 2]; [2; 2; 2]]%Q 0%Q ;;
  x_Result_1 <- t_eWiseAdd TyD noacc TyD TyD qplus (MVal x_Mask) MERGE x_Result (Mat x_mA) (Trn
    x_mB) ;;
  _ <- check (Qeq_bool (inject_Z (nvals x_Result_1)) 12%Q) ;;
  x_q <- meq x_Result_1 x_Ans ;;
  _ <- check x_q ;;
  Ok tt) = Ok tt.
Proof. vm_compute. reflexivity. Qed.

(** test_ewiseadd_matrix.cpp:808-834 *)
Example test_ewiseadd_matrix_masked_a_and_b_transpose :
 (x_mA <- mdense0 TyD d_twos3x4_dense 0%Q ;;
  x_mB <- mdense0 TyD d_m3x4_dense 0%Q ;;
  x_Mask <- mdense0 TyD [[1; 1; 1]; [0; 1; 1]; [0; 0; 1]; [0; 0; 0]]%Q 0%Q ;;
  x_Result <- mdense0 TyD d_twos4x3_dense 0%Q ;;
  x_Ans <- mdense0 TyD [[7; 8; 6]; [2; 9; 7]; [2; 2; 2]; [2; 2; 2]]%Q 0%Q ;;
  x_Result_1 <- t_eWiseAdd TyD noacc TyD TyD qplus (MVal x_Mask) MERGE x_Result (Trn x_mA) (Trn
    x_mB) ;;
  _ <- check (Qeq_bool (inject_Z (nvals x_Result_1)) 12%Q) ;;
  x_q <- meq x_Result_1 x_Ans ;;
  _ <- check x_q ;;
  Ok tt) = Ok tt.
Proof. vm_compute. reflexivity. Qed.

(** test_ewiseadd_matrix.cpp:841-856 *)
Example test_ewiseadd_matrix_scmp_masked_replace_bad_dimensions :
 (x_mA <- mdense0 TyD d_twos4x3_dense 0%Q ;;
  x_mB <- mdense0 TyD d_m4x3_dense 0%Q ;;
  x_Mask <- mdense0 TyD d_twos3x3_dense 0%Q ;;
  x_Result <- mnew 4 3 ;;
  _ <- throws DimensionException (t_eWiseAdd TyD noacc TyD TyD qplus (MComp x_Mask) REPLACE x_Result
    (Mat x_mA) (Mat x_mB)) ;;
  Ok tt) = Ok tt.
Proof. vm_compute. reflexivity. Qed.

(** test_ewiseadd_matrix.cpp:859-907 *)
Example test_ewiseadd_matrix_scmp_masked_replace_reg :
 (x_mA <- mdense0 TyD d_twos4x3_dense 0%Q ;;
  x_mB <- mdense0 TyD d_m4x3_dense 0%Q ;;
  x_Mask <- mdense0 TyD [[0; 0; 0]; [1; 0; 0]; [1; 1; 0]; [1; 1; 1]]%Q 0%Q ;;
  x_Result <- mdense0 TyD d_twos4x3_dense 0%Q ;;
  x_Ans <- mdense0 TyD [[7; 8; 6]; [0; 9; 7]; [0; 0; 2]; [0; 0; 0]]%Q 0%Q ;;
  x_Result_1 <- t_eWiseAdd TyD noacc TyD TyD qplus (MComp x_Mask) REPLACE x_Result (Mat x_mA) (Mat
    x_mB) ;;
  _ <- check (Qeq_bool (inject_Z (nvals x_Result_1)) 6%Q) ;;
  x_q <- meq x_Result_1 x_Ans ;;
  _ <- check x_q ;;
  x_Result_2 <- mdense0 TyD d_twos4x3_dense 0%Q ;;
  x_Ans_1 <- mdense0 TyD [[7; 8; 6]; [0; 9; 7]; [0; 0; 2]; [0; 0; 0]]%Q 0%Q ;;
  x_Result_3 <- t_eWiseAdd TyD (acc TyD qsecond) TyD TyD qplus (MComp x_Mask) REPLACE x_Result_2
    (Mat x_mA) (Mat x_mB) ;;
  _ <- check (Qeq_bool (inject_Z (nvals x_Result_3)) 6%Q) ;;
  x_q_1 <- meq x_Result_3 x_Ans_1 ;;
  _ <- check x_q_1 ;;
  Ok tt) = Ok tt.
Proof. vm_compute. reflexivity. Qed.

(** test_ewiseadd_matrix.cpp:910-961 *)
Example test_ewiseadd_matrix_scmp_masked_replace_reg_stored_zero :
 (x_mA <- mdense0 TyD d_twos4x3_dense 0%Q ;;
  x_mB <- mdense0 TyD d_m4x3_dense 0%Q ;;
  x_Mask <- mdense TyD [[0; 0; 0]; [1; 0; 0]; [1; 1; 0]; [1; 1; 1]]%Q ;;
  _ <- check (Qeq_bool (inject_Z (nvals x_Mask)) 12%Q) ;;
  x_Result <- mdense0 TyD d_twos4x3_dense 0%Q ;;
  x_Ans <- mdense0 TyD [[7; 8; 6]; [0; 9; 7]; [0; 0; 2]; [0; 0; 0]]%Q 0%Q ;;
  x_Result_1 <- t_eWiseAdd TyD noacc TyD TyD qplus (MComp x_Mask) REPLACE x_Result (Mat x_mA) (Mat
    x_mB) ;;
  _ <- check (Qeq_bool (inject_Z (nvals x_Result_1)) 6%Q) ;;
  x_q <- meq x_Result_1 x_Ans ;;
  _ <- check x_q ;;
  x_Result_2 <- mdense0 TyD d_twos4x3_dense 0%Q ;;
  x_Ans_1 <- mdense0 TyD [[7; 8; 6]; [0; 9; 7]; [0; 0; 2]; [0; 0; 0]]%Q 0%Q ;;
  x_Result_3 <- t_eWiseAdd TyD (acc TyD qsecond) TyD TyD qplus (MComp x_Mask) REPLACE x_Result_2
    (Mat x_mA) (Mat x_mB) ;;
  _ <- check (Qeq_bool (inject_Z (nvals x_Result_3)) 6%Q) ;;
  x_q_1 <- meq x_Result_3 x_Ans_1 ;;
  _ <- check x_q_1 ;;
  Ok tt) = Ok tt.
Proof. vm_compute. reflexivity. Qed.

(** test_ewiseadd_matrix.cpp:964-991 *)
Example test_ewiseadd_matrix_scmp_masked_replace_a_transpose :
 (x_mA <- mdense0 TyD d_twos3x4_dense 0%Q ;;
  x_mB <- mdense0 TyD d_m4x3_dense 0%Q ;;
  x_Mask <- mdense0 TyD [[0; 0; 0]; [1; 0; 0]; [1; 1; 0]; [1; 1; 1]]%Q 0%Q ;;
  x_Result <- mdense0 TyD d_twos4x3_dense 0%Q ;;
  x_Ans <- mdense0 TyD [[7; 8; 6]; [0; 9; 7]; [0; 0; 2]; [0; 0; 0]]%Q 0%Q ;;
  x_Result_1 <- t_eWiseAdd TyD noacc TyD TyD qplus (MComp x_Mask) REPLACE x_Result (Trn x_mA) (Mat
    x_mB) ;;
  _ <- check (Qeq_bool (inject_Z (nvals x_Result_1)) 6%Q) ;;
  x_q <- meq x_Result_1 x_Ans ;;
  _ <- check x_q ;;
  Ok tt) = Ok tt.
Proof. vm_compute. reflexivity. Qed.

(** test_ewiseadd_matrix.cpp:994-1021 *)
Example test_ewiseadd_matrix_scmp_masked_replace_b_transpose :
 (x_mA <- mdense0 TyD d_twos4x3_dense 0%Q ;;
  x_mB <- mdense0 TyD d_m3x4_dense 0%Q ;;
  x_Mask <- mdense0 TyD [[0; 0; 0]; [1; 0; 0]; [1; 1; 0]; [1; 1; 1]]%Q 0%Q ;;
  x_Result <- mdense0 TyD d_twos4x3_dense 0%Q ;;
  x_Ans <- mdense0 TyD [[7; 8; 6]; [0; 9; 7]; [0; 0; 2]; [0; 0; 0]]%Q 0%Q ;;
  x_Result_1 <- t_eWiseAdd TyD noacc TyD TyD qplus (MComp x_Mask) REPLACE x_Result (Mat x_mA) (Trn
    x_mB) ;;
  _ <- check (Qeq_bool (inject_Z (nvals x_Result_1)) 6%Q) ;;
  x_q <- meq x_Result_1 x_Ans ;;
  _ <- check x_q ;;
  Ok tt) = Ok tt.
Proof. vm_compute. reflexivity. Qed.

(** test_ewiseadd_matrix.cpp:1024-1051 *)
Example test_ewiseadd_matrix_scmp_masked_replace_a_and_b_transpose :
 (x_mA <- mdense0 TyD d_twos3x4_dense 0%Q ;;
  x_mB <- mdense0 TyD d_m3x4_dense 0%Q ;;
  x_Mask <- mdense0 TyD [[0; 0; 0]; [1; 0; 0]; [1; 1; 0]; [1; 1; 1]]%Q 0%Q ;;
  x_Result <- mdense0 TyD d_twos4x3_dense 0%Q ;;
  x_Ans <- mdense0 TyD [[7; 8; 6]; [0; 9; 7]; [0; 0; 2]; [0; 0; 0]]%Q 0%Q ;;
  x_Result_1 <- t_eWiseAdd TyD noacc TyD TyD qplus (MComp x_Mask) REPLACE x_Result (Trn x_mA) (Trn
    x_mB) ;;
  _ <- check (Qeq_bool (inject_Z (nvals x_Result_1)) 6%Q) ;;
  x_q <- meq x_Result_1 x_Ans ;;
  _ <- check x_q ;;
  Ok tt) = Ok tt.
Proof. vm_compute. reflexivity. Qed.

(** test_ewiseadd_matrix.cpp:1058-1072 *)
Example test_ewiseadd_matrix_scmp_masked_bad_dimensions :
 (x_mA <- mdense0 TyD d_twos4x3_dense 0%Q ;;
  x_mB <- mdense0 TyD d_m4x3_dense 0%Q ;;
  x_Mask <- mdense0 TyD d_twos3x3_dense 0%Q ;;
  x_Result <- mnew 4 3 ;;
  _ <- throws DimensionException (t_eWiseAdd TyD noacc TyD TyD qplus (MComp x_Mask) MERGE x_Result
    (Mat x_mA) (Mat x_mB)) ;;
  Ok tt) = Ok tt.
Proof. vm_compute. reflexivity. Qed.

(** test_ewiseadd_matrix.cpp:1075-1121 *)
Example test_ewiseadd_matrix_scmp_masked_reg :
 (x_mA <- mdense0 TyD d_twos4x3_dense 0%Q ;;
  x_mB <- mdense0 TyD d_m4x3_dense 0%Q ;;
  x_Mask <- mdense0 TyD [[0; 0; 0]; [1; 0; 0]; [1; 1; 0]; [1; 1; 1]]%Q 0%Q ;;
  x_Result <- mdense0 TyD d_twos4x3_dense 0%Q ;;
  x_Ans <- mdense0 TyD [[7; 8; 6]; [2; 9; 7]; [2; 2; 2]; [2; 2; 2]]%Q 0%Q ;;
  x_Result_1 <- t_eWiseAdd TyD noacc TyD TyD qplus (MComp x_Mask) MERGE x_Result (Mat x_mA) (Mat
    x_mB) ;;
  _ <- check (Qeq_bool (inject_Z (nvals x_Result_1)) 12%Q) ;;
  x_q <- meq x_Result_1 x_Ans ;;
  _ <- check x_q ;;
  x_Result_2 <- mdense0 TyD d_twos4x3_dense 0%Q ;;
  x_Ans_1 <- mdense0 TyD [[7; 8; 6]; [2; 9; 7]; [2; 2; 2]; [2; 2; 2]]%Q 0%Q ;;
  x_Result_3 <- t_eWiseAdd TyD (acc TyD qsecond) TyD TyD qplus (MComp x_Mask) MERGE x_Result_2 (Mat
    x_mA) (Mat x_mB) ;;
  _ <- check (Qeq_bool (inject_Z (nvals x_Result_3)) 12%Q) ;;
  x_q_1 <- meq x_Result_3 x_Ans_1 ;;
  _ <- check x_q_1 ;;
  Ok tt) = Ok tt.
Proof. vm_compute. reflexivity. Qed.

(** test_ewiseadd_matrix.cpp:1124-1170 *)
Example test_ewiseadd_matrix_scmp_masked_reg_stored_zero :
 (x_mA <- mdense0 TyD d_twos4x3_dense 0%Q ;;
  x_mB <- mdense0 TyD d_m4x3_dense 0%Q ;;
  x_Mask <- mdense TyD [[0; 0; 0]; [1; 0; 0]; [1; 1; 0]; [1; 1; 1]]%Q ;;
  x_Result <- mdense0 TyD d_twos4x3_dense 0%Q ;;
  x_Ans <- mdense0 TyD [[7; 8; 6]; [2; 9; 7]; [2; 2; 2]; [2; 2; 2]]%Q 0%Q ;;
  x_Result_1 <- t_eWiseAdd TyD noacc TyD TyD qplus (MComp x_Mask) MERGE x_Result (Mat x_mA) (Mat
    x_mB) ;;
  _ <- check (Qeq_bool (inject_Z (nvals x_Result_1)) 12%Q) ;;
  x_q <- meq x_Result_1 x_Ans ;;
  _ <- check x_q ;;
  x_Result_2 <- mdense0 TyD d_twos4x3_dense 0%Q ;;
  x_Ans_1 <- mdense0 TyD [[7; 8; 6]; [2; 9; 7]; [2; 2; 2]; [2; 2; 2]]%Q 0%Q ;;
  x_Result_3 <- t_eWiseAdd TyD (acc TyD qsecond) TyD TyD qplus (MComp x_Mask) MERGE x_Result_2 (Mat
    x_mA) (Mat x_mB) ;;
  _ <- check (Qeq_bool (inject_Z (nvals x_Result_3)) 12%Q) ;;
  x_q_1 <- meq x_Result_3 x_Ans_1 ;;
  _ <- check x_q_1 ;;
  Ok tt) = Ok tt.
Proof. vm_compute. reflexivity. Qed.

(** test_ewiseadd_matrix.cpp:1173-1199 *)
Example test_ewiseadd_matrix_scmp_masked_a_transpose :
 (x_mA <- mdense0 TyD d_twos3x4_dense 0%Q ;;
  x_mB <- mdense0 TyD d_m4x3_dense 0%Q ;;
  x_Mask <- mdense0 TyD [[0; 0; 0]; [1; 0; 0]; [1; 1; 0]; [1; 1; 1]]%Q 0%Q ;;
  x_Result <- mdense0 TyD d_twos4x3_dense 0%Q ;;
  x_Ans <- mdense0 TyD [[7; 8; 6]; [2; 9; 7]; [2; 2; 2]; [2; 2; 2]]%Q 0%Q ;;
  x_Result_1 <- t_eWiseAdd TyD noacc TyD TyD qplus (MComp x_Mask) MERGE x_Result (Trn x_mA) (Mat
    x_mB) ;;
  _ <- check (Qeq_bool (inject_Z (nvals x_Result_1)) 12%Q) ;;
  x_q <- meq x_Result_1 x_Ans ;;
  _ <- check x_q ;;
  Ok tt) = Ok tt.
Proof. vm_compute. reflexivity. Qed.

(** test_ewiseadd_matrix.cpp:1202-1228 *)
Example test_ewiseadd_matrix_scmp_masked_b_transpose :
 (x_mA <- mdense0 TyD d_twos4x3_dense 0%Q ;;
  x_mB <- mdense0 TyD d_m3x4_dense 0%Q ;;
  x_Mask <- mdense0 TyD [[0; 0; 0]; [1; 0; 0]; [1; 1; 0]; [1; 1; 1]]%Q 0%Q ;;
  x_Result <- mdense0 TyD d_twos4x3_dense 0%Q ;;
  x_Ans <- mdense0 TyD [[7; 8; 6]; [2; 9; 7]; [2; 2; 2]; [2; 2; 2]]%Q 0%Q ;;
  x_Result_1 <- t_eWiseAdd TyD noacc TyD TyD qplus (MComp x_Mask) MERGE x_Result (Mat x_mA) (Trn
    x_mB) ;;
  _ <- check (Qeq_bool (inject_Z (nvals x_Result_1)) 12%Q) ;;
  x_q <- meq x_Result_1 x_Ans ;;
  _ <- check x_q ;;
  Ok tt) = Ok tt.
Proof. vm_compute. reflexivity. Qed.

(** test_ewiseadd_matrix.cpp:1231-1257 *)
Example test_ewiseadd_matrix_scmp_masked_a_and_b_transpose :
 (x_mA <- mdense0 TyD d_twos3x4_dense 0%Q ;;
  x_mB <- mdense0 TyD d_m3x4_dense 0%Q ;;
  x_Mask <- mdense0 TyD [[0; 0; 0]; [1; 0; 0]; [1; 1; 0]; [1; 1; 1]]%Q 0%Q ;;
  x_Result <- mdense0 TyD d_twos4x3_dense 0%Q ;;
  x_Ans <- mdense0 TyD [[7; 8; 6]; [2; 9; 7]; [2; 2; 2]; [2; 2; 2]]%Q 0%Q ;;
  x_Result_1 <- t_eWiseAdd TyD noacc TyD TyD qplus (MComp x_Mask) MERGE x_Result (Trn x_mA) (Trn
    x_mB) ;;
  _ <- check (Qeq_bool (inject_Z (nvals x_Result_1)) 12%Q) ;;
  x_q <- meq x_Result_1 x_Ans ;;
  _ <- check x_q ;;
  Ok tt) = Ok tt.
Proof. vm_compute. reflexivity. Qed.
